(** * What survives writing and reading back, field by field.

    [X_returns v w]: [w] is what the text of [v] says. Each field of [w] is the value
    of the line (at most one) that the same field of [v] is written to, and the two
    extension maps hold at most the lines X-PROP and IANA-PROP. *)
From Verif Require Import Base Env Chrono Types Ser Parser SpecText SpecLine SpecDur PropLine PropVocab PropRule PropPeriod PropList Components SpecComp SpecFields SpecRound.

Definition back_req {T} (p : content_line -> outcome T) (seg : list content_line) (w : T) : Prop := exists l, seg = [l] /\ p l = Ok w.
Definition back_opt {T} (p : content_line -> outcome T) (seg : list content_line) (o : option T) : Prop :=
  match o with None => seg = [] | Some w => exists l, seg = [l] /\ p l = Ok w end.
Definition back_vec {T} (p : content_line -> outcome T) (seg : list content_line) (ws : list T) : Prop := Forall2 (fun l w => p l = Ok w) seg ws.
Definition back_app {T} (p : content_line -> outcome (list T)) (seg : list content_line) (ws : list T) : Prop :=
  match seg with [] => ws = [] | l :: _ => p l = Ok ws end.
Definition back_ext (seg : list content_line) (m : smap content_line) : Prop := m = map (fun l => (cl_key l, l)) seg.

Section Env.
Context {E : Env}.
(** src/components/valarm.rs:73-84 *)
Definition audio_returns (v w : audio) : Prop :=
  back_req parse_text (text_line (lit "ACTION") (au_action v)) (au_action w) /\
  back_req parse_trigger (trigger_line (lit "TRIGGER") (au_trigger v)) (au_trigger w) /\
  back_opt parse_dur (opt_lines (plain_line td_show) (lit "DURATION") (au_duration v)) (au_duration w) /\
  back_opt parse_u32 (opt_lines (plain_line show_int) (lit "REPEAT") (au_repeat v)) (au_repeat w) /\
  back_vec parse_text (list_lines text_line text_shown (lit "ATTACH") (au_attach v)) (au_attach w) /\
  back_ext (ext_line (lit "X-PROP") (au_x_prop v)) (au_x_prop w) /\
  back_ext (ext_line (lit "IANA-PROP") (au_iana_prop v)) (au_iana_prop w).
(** src/components/valarm.rs:101-112 *)
Definition display_returns (v w : display) : Prop :=
  back_req parse_text (text_line (lit "ACTION") (di_action v)) (di_action w) /\
  back_req parse_trigger (trigger_line (lit "TRIGGER") (di_trigger v)) (di_trigger w) /\
  back_req parse_text (text_line (lit "DESCRIPTION") (di_description v)) (di_description w) /\
  back_opt parse_dur (opt_lines (plain_line td_show) (lit "DURATION") (di_duration v)) (di_duration w) /\
  back_opt parse_u32 (opt_lines (plain_line show_int) (lit "REPEAT") (di_repeat v)) (di_repeat w) /\
  back_ext (ext_line (lit "X-PROP") (di_x_prop v)) (di_x_prop w) /\
  back_ext (ext_line (lit "IANA-PROP") (di_iana_prop v)) (di_iana_prop w).
(** src/components/valarm.rs:129-143 *)
Definition email_returns (v w : email) : Prop :=
  back_req parse_text (text_line (lit "ACTION") (em_action v)) (em_action w) /\
  back_req parse_trigger (trigger_line (lit "TRIGGER") (em_trigger v)) (em_trigger w) /\
  back_req parse_text (text_line (lit "DESCRIPTION") (em_description v)) (em_description w) /\
  back_req parse_text (text_line (lit "SUMMARY") (em_summary v)) (em_summary w) /\
  back_vec parse_uri (list_lines uri_line uri_shown (lit "ATTENDEE") (em_attendee v)) (em_attendee w) /\
  back_opt parse_dur (opt_lines (plain_line td_show) (lit "DURATION") (em_duration v)) (em_duration w) /\
  back_opt parse_u32 (opt_lines (plain_line show_int) (lit "REPEAT") (em_repeat v)) (em_repeat w) /\
  back_vec parse_text (list_lines text_line text_shown (lit "ATTACH") (em_attach v)) (em_attach w) /\
  back_ext (ext_line (lit "X-PROP") (em_x_prop v)) (em_x_prop w) /\
  back_ext (ext_line (lit "IANA-PROP") (em_iana_prop v)) (em_iana_prop w).
(** src/components/vevent.rs:4-45 *)
Definition vevent_returns (v w : vevent) : Prop :=
  back_req parse_datetime (plain_line dt_show (lit "DTSTAMP") (ev_dtstamp v)) (ev_dtstamp w) /\
  back_req parse_text (text_line (lit "UID") (ev_uid v)) (ev_uid w) /\
  back_req parse_date (date_line (lit "DTSTART") (ev_dtstart v)) (ev_dtstart w) /\
  back_opt parse_class (opt_lines (plain_line class_show) (lit "CLASS") (ev_class v)) (ev_class w) /\
  back_opt parse_datetime (opt_lines (plain_line dt_show) (lit "CREATED") (ev_created v)) (ev_created w) /\
  back_opt parse_text (opt_lines text_line (lit "DESCRIPTION") (ev_description v)) (ev_description w) /\
  back_opt parse_geo (opt_lines (plain_line geo_show) (lit "GEO") (ev_geo v)) (ev_geo w) /\
  back_opt parse_datetime (opt_lines (plain_line dt_show) (lit "LAST-MODIFIED") (ev_last_modified v)) (ev_last_modified w) /\
  back_opt parse_text (opt_lines text_line (lit "LOCATION") (ev_location v)) (ev_location w) /\
  back_opt parse_uri (opt_lines uri_line (lit "ORGANIZER") (ev_organizer v)) (ev_organizer w) /\
  back_opt parse_priority (opt_lines (plain_line show_int) (lit "PRIORITY") (ev_priority v)) (ev_priority w) /\
  back_opt parse_u32 (opt_lines (plain_line show_int) (lit "SEQUENCE") (ev_sequence v)) (ev_sequence w) /\
  back_opt parse_status (opt_lines (plain_line status_show) (lit "STATUS") (ev_status v)) (ev_status w) /\
  back_opt parse_text (opt_lines text_line (lit "SUMMARY") (ev_summary v)) (ev_summary w) /\
  back_opt parse_transp (opt_lines (plain_line transp_show) (lit "TRANSP") (ev_transp v)) (ev_transp w) /\
  back_opt parse_uri (opt_lines uri_line (lit "URL") (ev_url v)) (ev_url w) /\
  back_opt parse_date (opt_lines date_line (lit "RECURID") (ev_recurid v)) (ev_recurid w) /\
  back_opt parse_rrule (opt_lines (plain_line rule_shown) (lit "RRULE") (ev_rrule v)) (ev_rrule w) /\
  back_opt parse_date (opt_lines date_line (lit "DTEND") (ev_dtend v)) (ev_dtend w) /\
  back_opt parse_dur (opt_lines (plain_line td_show) (lit "DURATION") (ev_duration v)) (ev_duration w) /\
  back_vec parse_text (list_lines text_line text_shown (lit "ATTACH") (ev_attach v)) (ev_attach w) /\
  back_vec parse_uri (list_lines uri_line uri_shown (lit "ATTENDEE") (ev_attendee v)) (ev_attendee w) /\
  back_app parse_texts (list_lines text_line text_shown (lit "CATEGORIES") (ev_categories v)) (ev_categories w) /\
  back_vec parse_text (list_lines text_line text_shown (lit "COMMENT") (ev_comment v)) (ev_comment w) /\
  back_vec parse_text (list_lines text_line text_shown (lit "CONTACT") (ev_contact v)) (ev_contact w) /\
  back_app parse_exdate (list_lines date_line date_str (lit "EXDATE") (ev_exdate v)) (ev_exdate w) /\
  back_vec parse_rstatus (list_lines (plain_line rs_shown) rs_shown (lit "RSTATUS") (ev_rstatus v)) (ev_rstatus w) /\
  back_vec parse_text (list_lines text_line text_shown (lit "RELATED-TO") (ev_related_to v)) (ev_related_to w) /\
  back_app parse_texts (list_lines text_line text_shown (lit "RESOURCES") (ev_resources v)) (ev_resources w) /\
  back_vec parse_rdate (list_lines (plain_line rdate_show) rdate_show (lit "RDATE") (ev_rdate v)) (ev_rdate w) /\
  ev_alarms w = [] /\
  back_ext (ext_line (lit "X-PROP") (ev_x_prop v)) (ev_x_prop w) /\
  back_ext (ext_line (lit "IANA-PROP") (ev_iana_prop v)) (ev_iana_prop w).
(** src/components/vfreebusy.rs:4-22 *)
Definition vfreebusy_returns (v w : vfreebusy) : Prop :=
  back_req parse_datetime (plain_line dt_show (lit "DTSTAMP") (fb_dtstamp v)) (fb_dtstamp w) /\
  back_req parse_text (text_line (lit "UID") (fb_uid v)) (fb_uid w) /\
  back_opt parse_text (opt_lines text_line (lit "CONTACT") (fb_contact v)) (fb_contact w) /\
  back_opt parse_date (opt_lines date_line (lit "DTSTART") (fb_dtstart v)) (fb_dtstart w) /\
  back_opt parse_date (opt_lines date_line (lit "DTEND") (fb_dtend v)) (fb_dtend w) /\
  back_opt parse_uri (opt_lines uri_line (lit "ORGANIZER") (fb_organizer v)) (fb_organizer w) /\
  back_opt parse_uri (opt_lines uri_line (lit "URL") (fb_url v)) (fb_url w) /\
  back_vec parse_uri (list_lines uri_line uri_shown (lit "ATTENDEE") (fb_attendee v)) (fb_attendee w) /\
  back_vec parse_text (list_lines text_line text_shown (lit "COMMENT") (fb_comment v)) (fb_comment w) /\
  back_app parse_freebusy (list_lines (plain_line period_show) period_show (lit "FREEBUSY") (fb_freebusy v)) (fb_freebusy w) /\
  back_vec parse_rstatus (list_lines (plain_line rs_shown) rs_shown (lit "RSTATUS") (fb_rstatus v)) (fb_rstatus w) /\
  back_ext (ext_line (lit "X-PROP") (fb_x_prop v)) (fb_x_prop w) /\
  back_ext (ext_line (lit "IANA-PROP") (fb_iana_prop v)) (fb_iana_prop w).
(** src/components/vjournal.rs:4-35 *)
Definition vjournal_returns (v w : vjournal) : Prop :=
  back_req parse_datetime (plain_line dt_show (lit "DTSTAMP") (jo_dtstamp v)) (jo_dtstamp w) /\
  back_req parse_text (text_line (lit "UID") (jo_uid v)) (jo_uid w) /\
  back_opt parse_class (opt_lines (plain_line class_show) (lit "CLASS") (jo_class v)) (jo_class w) /\
  back_opt parse_datetime (opt_lines (plain_line dt_show) (lit "CREATED") (jo_created v)) (jo_created w) /\
  back_req parse_date (date_line (lit "DTSTART") (jo_dtstart v)) (jo_dtstart w) /\
  back_opt parse_datetime (opt_lines (plain_line dt_show) (lit "LAST-MODIFIED") (jo_last_modified v)) (jo_last_modified w) /\
  back_opt parse_uri (opt_lines uri_line (lit "ORGANIZER") (jo_organizer v)) (jo_organizer w) /\
  back_opt parse_date (opt_lines date_line (lit "RECURID") (jo_recurid v)) (jo_recurid w) /\
  back_opt parse_u32 (opt_lines (plain_line show_int) (lit "SEQUENCE") (jo_sequence v)) (jo_sequence w) /\
  back_opt parse_status (opt_lines (plain_line status_show) (lit "STATUS") (jo_status v)) (jo_status w) /\
  back_opt parse_text (opt_lines text_line (lit "SUMMARY") (jo_summary v)) (jo_summary w) /\
  back_opt parse_uri (opt_lines uri_line (lit "URL") (jo_url v)) (jo_url w) /\
  back_opt parse_rrule (opt_lines (plain_line rule_shown) (lit "RRULE") (jo_rrule v)) (jo_rrule w) /\
  back_vec parse_text (list_lines text_line text_shown (lit "ATTACH") (jo_attach v)) (jo_attach w) /\
  back_vec parse_uri (list_lines uri_line uri_shown (lit "ATTENDEE") (jo_attendee v)) (jo_attendee w) /\
  back_app parse_texts (list_lines text_line text_shown (lit "CATEGORIES") (jo_categories v)) (jo_categories w) /\
  back_vec parse_text (list_lines text_line text_shown (lit "COMMENT") (jo_comment v)) (jo_comment w) /\
  back_vec parse_text (list_lines text_line text_shown (lit "CONTACT") (jo_contact v)) (jo_contact w) /\
  back_vec parse_text (list_lines text_line text_shown (lit "DESCRIPTION") (jo_description v)) (jo_description w) /\
  back_app parse_exdate (list_lines date_line date_str (lit "EXDATE") (jo_exdate v)) (jo_exdate w) /\
  back_vec parse_text (list_lines text_line text_shown (lit "RELATED-TO") (jo_related_to v)) (jo_related_to w) /\
  back_vec parse_rdate (list_lines (plain_line rdate_show) rdate_show (lit "RDATE") (jo_rdate v)) (jo_rdate w) /\
  back_vec parse_rstatus (list_lines (plain_line rs_shown) rs_shown (lit "RSTATUS") (jo_rstatus v)) (jo_rstatus w) /\
  back_ext (ext_line (lit "X-PROP") (jo_x_prop v)) (jo_x_prop w) /\
  back_ext (ext_line (lit "IANA-PROP") (jo_iana_prop v)) (jo_iana_prop w).
(** src/components/vtodo.rs:4-43 *)
Definition vtodo_returns (v w : vtodo) : Prop :=
  back_req parse_datetime (plain_line dt_show (lit "DTSTAMP") (to_dtstamp v)) (to_dtstamp w) /\
  back_req parse_text (text_line (lit "UID") (to_uid v)) (to_uid w) /\
  back_opt parse_class (opt_lines (plain_line class_show) (lit "CLASS") (to_class v)) (to_class w) /\
  back_opt parse_datetime (opt_lines (plain_line dt_show) (lit "COMPLETED") (to_completed v)) (to_completed w) /\
  back_opt parse_datetime (opt_lines (plain_line dt_show) (lit "CREATED") (to_created v)) (to_created w) /\
  back_opt parse_date (opt_lines date_line (lit "DTSTART") (to_dtstart v)) (to_dtstart w) /\
  back_opt parse_geo (opt_lines (plain_line geo_show) (lit "GEO") (to_geo v)) (to_geo w) /\
  back_opt parse_datetime (opt_lines (plain_line dt_show) (lit "LAST-MODIFIED") (to_last_modified v)) (to_last_modified w) /\
  back_opt parse_text (opt_lines text_line (lit "LOCATION") (to_location v)) (to_location w) /\
  back_opt parse_uri (opt_lines uri_line (lit "ORGANIZER") (to_organizer v)) (to_organizer w) /\
  back_opt parse_percent (opt_lines (plain_line show_int) (lit "PERCENT-COMPLETE") (to_percent_complete v)) (to_percent_complete w) /\
  back_opt parse_priority (opt_lines (plain_line show_int) (lit "PRIORITY") (to_priority v)) (to_priority w) /\
  back_opt parse_date (opt_lines date_line (lit "RECURID") (to_recurid v)) (to_recurid w) /\
  back_opt parse_u32 (opt_lines (plain_line show_int) (lit "SEQUENCE") (to_sequence v)) (to_sequence w) /\
  back_opt parse_status (opt_lines (plain_line status_show) (lit "STATUS") (to_status v)) (to_status w) /\
  back_opt parse_text (opt_lines text_line (lit "SUMMARY") (to_summary v)) (to_summary w) /\
  back_opt parse_uri (opt_lines uri_line (lit "URL") (to_url v)) (to_url w) /\
  back_opt parse_rrule (opt_lines (plain_line rule_shown) (lit "RRULE") (to_rrule v)) (to_rrule w) /\
  back_opt parse_date (opt_lines date_line (lit "DUE") (to_due v)) (to_due w) /\
  back_opt parse_dur (opt_lines (plain_line td_show) (lit "DURATION") (to_duration v)) (to_duration w) /\
  back_vec parse_text (list_lines text_line text_shown (lit "ATTACH") (to_attach v)) (to_attach w) /\
  back_vec parse_uri (list_lines uri_line uri_shown (lit "ATTENDEE") (to_attendee v)) (to_attendee w) /\
  back_app parse_texts (list_lines text_line text_shown (lit "CATEGORIES") (to_categories v)) (to_categories w) /\
  back_vec parse_text (list_lines text_line text_shown (lit "COMMENT") (to_comment v)) (to_comment w) /\
  back_vec parse_text (list_lines text_line text_shown (lit "CONTACT") (to_contact v)) (to_contact w) /\
  back_app parse_exdate (list_lines date_line date_str (lit "EXDATE") (to_exdate v)) (to_exdate w) /\
  back_vec parse_rstatus (list_lines (plain_line rs_shown) rs_shown (lit "RSTATUS") (to_rstatus v)) (to_rstatus w) /\
  back_vec parse_text (list_lines text_line text_shown (lit "RELATED-TO") (to_related_to v)) (to_related_to w) /\
  back_app parse_texts (list_lines text_line text_shown (lit "RESOURCES") (to_resources v)) (to_resources w) /\
  back_vec parse_rdate (list_lines (plain_line rdate_show) rdate_show (lit "RDATE") (to_rdate v)) (to_rdate w) /\
  back_ext (ext_line (lit "X-PROP") (to_x_prop v)) (to_x_prop w) /\
  back_ext (ext_line (lit "IANA-PROP") (to_iana_prop v)) (to_iana_prop w).
(** src/components/vtimezone.rs:34-49,76 *)
Definition standard_returns (v w : standard) : Prop :=
  back_req parse_date (date_line (lit "DTSTART") (st_dtstart v)) (st_dtstart w) /\
  back_req parse_offset (plain_line offset_show (lit "TZOFFSETTO") (st_tzoffsetto v)) (st_tzoffsetto w) /\
  back_req parse_offset (plain_line offset_show (lit "TZOFFSETFROM") (st_tzoffsetfrom v)) (st_tzoffsetfrom w) /\
  back_opt parse_rrule (opt_lines (plain_line rule_shown) (lit "RRULE") (st_rrule v)) (st_rrule w) /\
  back_vec parse_text (list_lines text_line text_shown (lit "COMMENT") (st_comment v)) (st_comment w) /\
  back_vec parse_rdate (list_lines (plain_line rdate_show) rdate_show (lit "RDATE") (st_rdate v)) (st_rdate w) /\
  back_vec parse_text (list_lines text_line text_shown (lit "TZNAME") (st_tzname v)) (st_tzname w) /\
  back_ext (ext_line (lit "X-PROP") (st_x_prop v)) (st_x_prop w) /\
  back_ext (ext_line (lit "IANA-PROP") (st_iana_prop v)) (st_iana_prop w).
(** src/components/vtimezone.rs:34-49,77 *)
Definition daylight_returns (v w : daylight) : Prop :=
  back_req parse_date (date_line (lit "DTSTART") (dl_dtstart v)) (dl_dtstart w) /\
  back_req parse_offset (plain_line offset_show (lit "TZOFFSETTO") (dl_tzoffsetto v)) (dl_tzoffsetto w) /\
  back_req parse_offset (plain_line offset_show (lit "TZOFFSETFROM") (dl_tzoffsetfrom v)) (dl_tzoffsetfrom w) /\
  back_opt parse_rrule (opt_lines (plain_line rule_shown) (lit "RRULE") (dl_rrule v)) (dl_rrule w) /\
  back_vec parse_text (list_lines text_line text_shown (lit "COMMENT") (dl_comment v)) (dl_comment w) /\
  back_vec parse_rdate (list_lines (plain_line rdate_show) rdate_show (lit "RDATE") (dl_rdate v)) (dl_rdate w) /\
  back_vec parse_text (list_lines text_line text_shown (lit "TZNAME") (dl_tzname v)) (dl_tzname w) /\
  back_ext (ext_line (lit "X-PROP") (dl_x_prop v)) (dl_x_prop w) /\
  back_ext (ext_line (lit "IANA-PROP") (dl_iana_prop v)) (dl_iana_prop w).
(** src/components/vtimezone.rs:6-19 *)
Definition vtimezone_returns (v w : vtimezone) : Prop :=
  back_req parse_text (text_line (lit "TZID") (tz_tzid v)) (tz_tzid w) /\
  back_opt parse_datetime (opt_lines (plain_line dt_show) (lit "LAST-MODIFIED") (tz_last_modified v)) (tz_last_modified w) /\
  back_opt parse_uri (opt_lines uri_line (lit "TZURL") (tz_tzurl v)) (tz_tzurl w) /\
  back_ext (ext_line (lit "X-PROP") (tz_x_prop v)) (tz_x_prop w) /\
  back_ext (ext_line (lit "IANA-PROP") (tz_iana_prop v)) (tz_iana_prop w).
(** src/components/vcalendar.rs:4-26 *)
Definition vcalendar_returns (v w : vcalendar) : Prop :=
  back_req parse_text (text_line (lit "PRODID") (ca_prodid v)) (ca_prodid w) /\
  back_req parse_text (text_line (lit "VERSION") (ca_version v)) (ca_version w) /\
  back_opt parse_text (opt_lines text_line (lit "CALSCALE") (ca_calscale v)) (ca_calscale w) /\
  back_opt parse_text (opt_lines text_line (lit "METHOD") (ca_method v)) (ca_method w) /\
  back_ext (ext_line (lit "X-PROP") (ca_x_prop v)) (ca_x_prop w) /\
  back_ext (ext_line (lit "IANA-PROP") (ca_iana_prop v)) (ca_iana_prop w).
End Env.
