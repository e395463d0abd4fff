(** * The text of a component, character by character.

    [X_text v] is the text of [v] before folding: the BEGIN line, the content
    lines of [v] (SpecRound) as they are, the END line. [X_no_break v] says that no
    line break gets in through the few strings that are written as they are; it
    asks nothing of texts and URIs. *)
From Verif Require Import Base Env Chrono Types Ser SpecText SpecLine SpecDur PropLine PropVocab PropRule PropPeriod PropList Components SpecComp SpecFields SpecRound.

(** NAME;P=V;...:VALUE CR LF *)
Definition raw_params (m : smap str) : str := concat (map (fun kv => [59] ++ fst kv ++ [61] ++ escaped (snd kv)) m).
Definition raw_line (c : content_line) : str := cl_key c ++ raw_params (cl_params c) ++ [58] ++ cl_value c ++ [CR; LF].
Definition raw_lines (ls : list content_line) : str := concat (map raw_line ls).
Definition framed (name body : str) : str := lit "BEGIN:" ++ name ++ [CR; LF] ++ body ++ lit "END:" ++ name ++ [CR; LF].
(** No LF but the one at the end. *)
Definition unbroken (c : content_line) : Prop := ~ In LF (cl_value c) /\ forall k v, In (k, v) (cl_params c) -> ~ In LF k.
Definition count (x : char) (s : str) : nat := count_occ Z.eq_dec s x.

(** ** Values that bring no LF *)
Definition flat_params (m : smap str) : Prop := forall k v, In (k, v) m -> ~ In LF k.
Definition flat_text (t : text) : Prop := flat_params (t_params t).
Definition flat_uri (u : uri) : Prop := flat_params (u_params u).
Definition flat_ext (m : smap content_line) : Prop := forall k l, In (k, l) m -> ~ In LF k.
Section Values.
Context {E : Env}.
Definition flat_class (c : class) : Prop := match c with Custom s => ~ In LF (to_uppercase s) | _ => True end.
Definition flat_geo (g : geo) : Prop := ~ In LF (f32_show (g_lat g)) /\ ~ In LF (f32_show (g_lon g)).
Definition flat_rs (r : request_status) : Prop := ~ In LF (f32_show1 (rs_code r)).

(** src/components/valarm.rs:73-84 *)
Definition audio_no_break (v : audio) : Prop :=
  flat_text (au_action v) /\
  real_trigger (au_trigger v) /\
  Forall flat_text (au_attach v) /\
  flat_ext (au_x_prop v) /\
  flat_ext (au_iana_prop v).
Definition audio_text (v : audio) : str := framed (lit "AUDIO") (raw_lines (audio_written v)).

(** src/components/valarm.rs:101-112 *)
Definition display_no_break (v : display) : Prop :=
  flat_text (di_action v) /\
  real_trigger (di_trigger v) /\
  flat_text (di_description v) /\
  flat_ext (di_x_prop v) /\
  flat_ext (di_iana_prop v).
Definition display_text (v : display) : str := framed (lit "DISPLAY") (raw_lines (display_written v)).

(** src/components/valarm.rs:129-143 *)
Definition email_no_break (v : email) : Prop :=
  flat_text (em_action v) /\
  real_trigger (em_trigger v) /\
  flat_text (em_description v) /\
  flat_text (em_summary v) /\
  Forall flat_uri (em_attendee v) /\
  Forall flat_text (em_attach v) /\
  flat_ext (em_x_prop v) /\
  flat_ext (em_iana_prop v).
Definition email_text (v : email) : str := framed (lit "EMAIL") (raw_lines (email_written v)).

(** src/components/vevent.rs:4-45 *)
Definition vevent_no_break (v : vevent) : Prop :=
  real_datetime (ev_dtstamp v) /\
  flat_text (ev_uid v) /\
  real_date (ev_dtstart v) /\
  holds flat_class (ev_class v) /\
  holds real_datetime (ev_created v) /\
  holds flat_text (ev_description v) /\
  holds flat_geo (ev_geo v) /\
  holds real_datetime (ev_last_modified v) /\
  holds flat_text (ev_location v) /\
  holds flat_uri (ev_organizer v) /\
  holds flat_text (ev_summary v) /\
  holds flat_uri (ev_url v) /\
  holds real_date (ev_recurid v) /\
  holds tidy_rule (ev_rrule v) /\
  holds real_date (ev_dtend v) /\
  Forall flat_text (ev_attach v) /\
  Forall flat_uri (ev_attendee v) /\
  Forall flat_text (ev_categories v) /\
  Forall flat_text (ev_comment v) /\
  Forall flat_text (ev_contact v) /\
  Forall real_date (ev_exdate v) /\
  Forall flat_rs (ev_rstatus v) /\
  Forall flat_text (ev_related_to v) /\
  Forall flat_text (ev_resources v) /\
  Forall real_rdate (ev_rdate v) /\
  ev_alarms v = [] /\
  flat_ext (ev_x_prop v) /\
  flat_ext (ev_iana_prop v).
Definition vevent_text (v : vevent) : str := framed (lit "VEVENT") (raw_lines (vevent_written v)).

(** src/components/vfreebusy.rs:4-22 *)
Definition vfreebusy_no_break (v : vfreebusy) : Prop :=
  real_datetime (fb_dtstamp v) /\
  flat_text (fb_uid v) /\
  holds flat_text (fb_contact v) /\
  holds real_date (fb_dtstart v) /\
  holds real_date (fb_dtend v) /\
  holds flat_uri (fb_organizer v) /\
  holds flat_uri (fb_url v) /\
  Forall flat_uri (fb_attendee v) /\
  Forall flat_text (fb_comment v) /\
  Forall real_period (fb_freebusy v) /\
  Forall flat_rs (fb_rstatus v) /\
  flat_ext (fb_x_prop v) /\
  flat_ext (fb_iana_prop v).
Definition vfreebusy_text (v : vfreebusy) : str := framed (lit "VFREEBUSY") (raw_lines (vfreebusy_written v)).

(** src/components/vjournal.rs:4-35 *)
Definition vjournal_no_break (v : vjournal) : Prop :=
  real_datetime (jo_dtstamp v) /\
  flat_text (jo_uid v) /\
  holds flat_class (jo_class v) /\
  holds real_datetime (jo_created v) /\
  real_date (jo_dtstart v) /\
  holds real_datetime (jo_last_modified v) /\
  holds flat_uri (jo_organizer v) /\
  holds real_date (jo_recurid v) /\
  holds flat_text (jo_summary v) /\
  holds flat_uri (jo_url v) /\
  holds tidy_rule (jo_rrule v) /\
  Forall flat_text (jo_attach v) /\
  Forall flat_uri (jo_attendee v) /\
  Forall flat_text (jo_categories v) /\
  Forall flat_text (jo_comment v) /\
  Forall flat_text (jo_contact v) /\
  Forall flat_text (jo_description v) /\
  Forall real_date (jo_exdate v) /\
  Forall flat_text (jo_related_to v) /\
  Forall real_rdate (jo_rdate v) /\
  Forall flat_rs (jo_rstatus v) /\
  flat_ext (jo_x_prop v) /\
  flat_ext (jo_iana_prop v).
Definition vjournal_text (v : vjournal) : str := framed (lit "VJOURNAL") (raw_lines (vjournal_written v)).

(** src/components/vtodo.rs:4-43 *)
Definition vtodo_no_break (v : vtodo) : Prop :=
  real_datetime (to_dtstamp v) /\
  flat_text (to_uid v) /\
  holds flat_class (to_class v) /\
  holds real_datetime (to_completed v) /\
  holds real_datetime (to_created v) /\
  holds real_date (to_dtstart v) /\
  holds flat_geo (to_geo v) /\
  holds real_datetime (to_last_modified v) /\
  holds flat_text (to_location v) /\
  holds flat_uri (to_organizer v) /\
  holds real_date (to_recurid v) /\
  holds flat_text (to_summary v) /\
  holds flat_uri (to_url v) /\
  holds tidy_rule (to_rrule v) /\
  holds real_date (to_due v) /\
  Forall flat_text (to_attach v) /\
  Forall flat_uri (to_attendee v) /\
  Forall flat_text (to_categories v) /\
  Forall flat_text (to_comment v) /\
  Forall flat_text (to_contact v) /\
  Forall real_date (to_exdate v) /\
  Forall flat_rs (to_rstatus v) /\
  Forall flat_text (to_related_to v) /\
  Forall flat_text (to_resources v) /\
  Forall real_rdate (to_rdate v) /\
  flat_ext (to_x_prop v) /\
  flat_ext (to_iana_prop v).
Definition vtodo_text (v : vtodo) : str := framed (lit "VTODO") (raw_lines (vtodo_written v)).

(** src/components/vtimezone.rs:34-49,76 *)
Definition standard_no_break (v : standard) : Prop :=
  real_date (st_dtstart v) /\
  real_offset (st_tzoffsetto v) /\
  real_offset (st_tzoffsetfrom v) /\
  holds tidy_rule (st_rrule v) /\
  Forall flat_text (st_comment v) /\
  Forall real_rdate (st_rdate v) /\
  Forall flat_text (st_tzname v) /\
  flat_ext (st_x_prop v) /\
  flat_ext (st_iana_prop v).
Definition standard_text (v : standard) : str := framed (lit "STANDARD") (raw_lines (standard_written v)).

(** src/components/vtimezone.rs:34-49,77 *)
Definition daylight_no_break (v : daylight) : Prop :=
  real_date (dl_dtstart v) /\
  real_offset (dl_tzoffsetto v) /\
  real_offset (dl_tzoffsetfrom v) /\
  holds tidy_rule (dl_rrule v) /\
  Forall flat_text (dl_comment v) /\
  Forall real_rdate (dl_rdate v) /\
  Forall flat_text (dl_tzname v) /\
  flat_ext (dl_x_prop v) /\
  flat_ext (dl_iana_prop v).
Definition daylight_text (v : daylight) : str := framed (lit "DAYLIGHT") (raw_lines (daylight_written v)).

(** src/components/vtimezone.rs:6-19 *)
Definition vtimezone_no_break (v : vtimezone) : Prop :=
  flat_text (tz_tzid v) /\
  holds real_datetime (tz_last_modified v) /\
  holds flat_uri (tz_tzurl v) /\
  flat_ext (tz_x_prop v) /\
  flat_ext (tz_iana_prop v).

(** src/components/vcalendar.rs:4-26 *)
Definition vcalendar_no_break (v : vcalendar) : Prop :=
  flat_text (ca_prodid v) /\
  flat_text (ca_version v) /\
  holds flat_text (ca_calscale v) /\
  holds flat_text (ca_method v) /\
  flat_ext (ca_x_prop v) /\
  flat_ext (ca_iana_prop v).

(** ** Children: their texts stand after the lines of the fields; at most one of
    each kind. *)
(** src/components/vtimezone.rs:6-19 *)
Definition vtimezone_text (v : vtimezone) : str :=
  framed (lit "VTIMEZONE") (
    raw_lines (text_line (lit "TZID") (tz_tzid v) ++
               opt_lines (plain_line dt_show) (lit "LAST-MODIFIED") (tz_last_modified v) ++
               opt_lines uri_line (lit "TZURL") (tz_tzurl v)) ++
    concat (map standard_text (tz_standard v)) ++ concat (map daylight_text (tz_daylight v)) ++
    raw_lines (ext_line (lit "X-PROP") (tz_x_prop v) ++ ext_line (lit "IANA-PROP") (tz_iana_prop v))).
Definition vtimezone_no_break_all (v : vtimezone) : Prop :=
  vtimezone_no_break v /\ one_each_tz v /\ Forall standard_no_break (tz_standard v) /\ Forall daylight_no_break (tz_daylight v).
(** src/components/vcalendar.rs:4-26 *)
Definition vcalendar_text (v : vcalendar) : str :=
  framed (lit "VCALENDAR") (
    raw_lines (text_line (lit "PRODID") (ca_prodid v) ++ text_line (lit "VERSION") (ca_version v) ++
               opt_lines text_line (lit "CALSCALE") (ca_calscale v) ++ opt_lines text_line (lit "METHOD") (ca_method v)) ++
    concat (map vevent_text (ca_events v)) ++ concat (map vfreebusy_text (ca_freebusy v)) ++ concat (map vjournal_text (ca_journals v)) ++
    concat (map vtodo_text (ca_todo v)) ++ concat (map vtimezone_text (ca_timezones v)) ++
    raw_lines (ext_line (lit "X-PROP") (ca_x_prop v) ++ ext_line (lit "IANA-PROP") (ca_iana_prop v))).
Definition vcalendar_no_break_all (v : vcalendar) : Prop :=
  vcalendar_no_break v /\ one_each v /\ Forall vevent_no_break (ca_events v) /\ Forall vfreebusy_no_break (ca_freebusy v) /\
  Forall vjournal_no_break (ca_journals v) /\ Forall vtodo_no_break (ca_todo v) /\ Forall vtimezone_no_break_all (ca_timezones v).
(** All the content lines, and the number of components. *)
Definition vtimezone_lines (v : vtimezone) : list content_line :=
  vtimezone_written v ++ flat_map standard_written (tz_standard v) ++ flat_map daylight_written (tz_daylight v).
Definition vtimezone_frames (v : vtimezone) : nat := 1 + length (tz_standard v) + length (tz_daylight v).
Definition vcalendar_lines (v : vcalendar) : list content_line :=
  vcalendar_written v ++ flat_map vevent_written (ca_events v) ++ flat_map vfreebusy_written (ca_freebusy v) ++
  flat_map vjournal_written (ca_journals v) ++ flat_map vtodo_written (ca_todo v) ++ flat_map vtimezone_lines (ca_timezones v).
Definition vcalendar_frames (v : vcalendar) : nat :=
  1 + length (ca_events v) + length (ca_freebusy v) + length (ca_journals v) + length (ca_todo v) + list_sum (map vtimezone_frames (ca_timezones v)).
(** src/components/valarm.rs:9-20 *)
Definition valarm_text (a : valarm) : str := framed (lit "VALARM") (raw_lines (valarm_written a)).
Definition valarm_no_break (a : valarm) : Prop :=
  match a with AAudio x => audio_no_break x | ADisplay x => display_no_break x | AEmail x => email_no_break x end.
End Values.
