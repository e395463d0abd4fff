(** * What one content line more, or the lines of a name less, do to a component, field by field.

    [X_last l v v']: [v'] is [v] after the line [l] has been written after the other
    lines; [X_first l v v']: before them; [X_without n v v']: after the lines named [n]
    have been taken away. *)
From Verif Require Import Base Env Types Parser Ser SpecText SpecLine SpecComp SpecFields SpecFile SpecPieces Components.
(** ** The kinds of fields *)
Section Kinds.
  Context {T : Type}.
  (** A last line with the name of the field gives the field its value. *)
  Definition last_required (p : content_line -> outcome T) (n : str) (l : content_line) (v v' : T) : Prop :=
    (cl_key l = n -> p l = Ok v') /\ (cl_key l <> n -> v' = v).
  Definition last_optional (p : content_line -> outcome T) (n : str) (l : content_line) (o o' : option T) : Prop :=
    (cl_key l = n -> exists x, p l = Ok x /\ o' = Some x) /\ (cl_key l <> n -> o' = o).
  Definition last_repeated (p : content_line -> outcome T) (n : str) (l : content_line) (vs vs' : list T) : Prop :=
    (cl_key l = n -> exists x, p l = Ok x /\ vs' = vs ++ [x]) /\ (cl_key l <> n -> vs' = vs).
  Definition last_appended (p : content_line -> outcome (list T)) (n : str) (l : content_line) (vs vs' : list T) : Prop :=
    (cl_key l = n -> exists xs, p l = Ok xs /\ vs' = vs ++ xs) /\ (cl_key l <> n -> vs' = vs).
  (** A first line gives a value to a field that had none, and adds to the front of a list.
      It must be valid, unless the field is a required one: then it does not matter at all. *)
  Definition first_optional (p : content_line -> outcome T) (n : str) (l : content_line) (o o' : option T) : Prop :=
    (cl_key l = n -> exists x, p l = Ok x /\ o' = match o with Some y => Some y | None => Some x end) /\ (cl_key l <> n -> o' = o).
  Definition first_repeated (p : content_line -> outcome T) (n : str) (l : content_line) (vs vs' : list T) : Prop :=
    (cl_key l = n -> exists x, p l = Ok x /\ vs' = x :: vs) /\ (cl_key l <> n -> vs' = vs).
  Definition first_appended (p : content_line -> outcome (list T)) (n : str) (l : content_line) (vs vs' : list T) : Prop :=
    (cl_key l = n -> exists xs, p l = Ok xs /\ vs' = xs ++ vs) /\ (cl_key l <> n -> vs' = vs).
  (** Without its lines a field is empty. *)
  Definition without_optional (m n : str) (o o' : option T) : Prop := (n = m -> o' = None) /\ (n <> m -> o' = o).
  Definition without_repeated (m n : str) (vs vs' : list T) : Prop := (n = m -> vs' = []) /\ (n <> m -> vs' = vs).
  Definition without_appended := without_repeated.
End Kinds.
(** [m'] is the map [m] with (without) the binding of one name. *)
Definition put {V} (n : str) (l : V) (m m' : smap V) : Prop := sorted_map m' /\ mget n m' = Some l /\ forall k, k <> n -> mget k m' = mget k m.
Definition put_missing {V} (n : str) (l : V) (m m' : smap V) : Prop :=
  (mget n m = None -> put n l m m') /\ (mget n m <> None -> m' = m).
Definition taken {V} (n : str) (m m' : smap V) : Prop := sorted_map m' /\ mget n m' = None /\ forall k, k <> n -> mget k m' = mget k m.
(** The line goes to the map of its kind, unless it is a field. *)
Definition last_extensions (known : list str) (l : content_line) (x i x' i' : smap content_line) : Prop :=
  (~ In (cl_key l) known /\ begins (lit "X-") (cl_key l) /\ put (cl_key l) l x x' /\ i' = i) \/
  (~ In (cl_key l) known /\ ~ begins (lit "X-") (cl_key l) /\ x' = x /\ put (cl_key l) l i i') \/
  (In (cl_key l) known /\ x' = x /\ i' = i).
Definition first_extensions (known : list str) (l : content_line) (x i x' i' : smap content_line) : Prop :=
  (~ In (cl_key l) known /\ begins (lit "X-") (cl_key l) /\ put_missing (cl_key l) l x x' /\ i' = i) \/
  (~ In (cl_key l) known /\ ~ begins (lit "X-") (cl_key l) /\ x' = x /\ put_missing (cl_key l) l i i') \/
  (In (cl_key l) known /\ x' = x /\ i' = i).
Definition without_extensions (n : str) (x i x' i' : smap content_line) : Prop := taken n x x' /\ taken n i i'.
Section Env.
Context {E : Env}.
Definition audio_last (l : content_line) (v v' : audio) : Prop :=
  last_required parse_text (lit "ACTION") l (au_action v) (au_action v') /\
  last_required parse_trigger (lit "TRIGGER") l (au_trigger v) (au_trigger v') /\
  last_optional parse_dur (lit "DURATION") l (au_duration v) (au_duration v') /\
  last_optional parse_u32 (lit "REPEAT") l (au_repeat v) (au_repeat v') /\
  last_repeated parse_text (lit "ATTACH") l (au_attach v) (au_attach v') /\
  last_extensions audio_names l (au_x_prop v) (au_iana_prop v) (au_x_prop v') (au_iana_prop v').
Definition display_last (l : content_line) (v v' : display) : Prop :=
  last_required parse_text (lit "ACTION") l (di_action v) (di_action v') /\
  last_required parse_trigger (lit "TRIGGER") l (di_trigger v) (di_trigger v') /\
  last_required parse_text (lit "DESCRIPTION") l (di_description v) (di_description v') /\
  last_optional parse_dur (lit "DURATION") l (di_duration v) (di_duration v') /\
  last_optional parse_u32 (lit "REPEAT") l (di_repeat v) (di_repeat v') /\
  last_extensions display_names l (di_x_prop v) (di_iana_prop v) (di_x_prop v') (di_iana_prop v').
Definition email_last (l : content_line) (v v' : email) : Prop :=
  last_required parse_text (lit "ACTION") l (em_action v) (em_action v') /\
  last_required parse_trigger (lit "TRIGGER") l (em_trigger v) (em_trigger v') /\
  last_required parse_text (lit "DESCRIPTION") l (em_description v) (em_description v') /\
  last_required parse_text (lit "SUMMARY") l (em_summary v) (em_summary v') /\
  last_repeated parse_uri (lit "ATTENDEE") l (em_attendee v) (em_attendee v') /\
  last_optional parse_dur (lit "DURATION") l (em_duration v) (em_duration v') /\
  last_optional parse_u32 (lit "REPEAT") l (em_repeat v) (em_repeat v') /\
  last_repeated parse_text (lit "ATTACH") l (em_attach v) (em_attach v') /\
  last_extensions email_names l (em_x_prop v) (em_iana_prop v) (em_x_prop v') (em_iana_prop v').
Definition vevent_last (l : content_line) (v v' : vevent) : Prop :=
  last_required parse_datetime (lit "DTSTAMP") l (ev_dtstamp v) (ev_dtstamp v') /\
  last_required parse_text (lit "UID") l (ev_uid v) (ev_uid v') /\
  last_required parse_date (lit "DTSTART") l (ev_dtstart v) (ev_dtstart v') /\
  last_optional parse_class (lit "CLASS") l (ev_class v) (ev_class v') /\
  last_optional parse_datetime (lit "CREATED") l (ev_created v) (ev_created v') /\
  last_optional parse_text (lit "DESCRIPTION") l (ev_description v) (ev_description v') /\
  last_optional parse_geo (lit "GEO") l (ev_geo v) (ev_geo v') /\
  last_optional parse_datetime (lit "LAST-MODIFIED") l (ev_last_modified v) (ev_last_modified v') /\
  last_optional parse_text (lit "LOCATION") l (ev_location v) (ev_location v') /\
  last_optional parse_uri (lit "ORGANIZER") l (ev_organizer v) (ev_organizer v') /\
  last_optional parse_priority (lit "PRIORITY") l (ev_priority v) (ev_priority v') /\
  last_optional parse_u32 (lit "SEQUENCE") l (ev_sequence v) (ev_sequence v') /\
  last_optional parse_status (lit "STATUS") l (ev_status v) (ev_status v') /\
  last_optional parse_text (lit "SUMMARY") l (ev_summary v) (ev_summary v') /\
  last_optional parse_transp (lit "TRANSP") l (ev_transp v) (ev_transp v') /\
  last_optional parse_uri (lit "URL") l (ev_url v) (ev_url v') /\
  last_optional parse_date (lit "RECURID") l (ev_recurid v) (ev_recurid v') /\
  last_optional parse_rrule (lit "RRULE") l (ev_rrule v) (ev_rrule v') /\
  last_optional parse_date (lit "DTEND") l (ev_dtend v) (ev_dtend v') /\
  last_optional parse_dur (lit "DURATION") l (ev_duration v) (ev_duration v') /\
  last_repeated parse_text (lit "ATTACH") l (ev_attach v) (ev_attach v') /\
  last_repeated parse_uri (lit "ATTENDEE") l (ev_attendee v) (ev_attendee v') /\
  last_appended parse_texts (lit "CATEGORIES") l (ev_categories v) (ev_categories v') /\
  last_repeated parse_text (lit "COMMENT") l (ev_comment v) (ev_comment v') /\
  last_repeated parse_text (lit "CONTACT") l (ev_contact v) (ev_contact v') /\
  last_appended parse_exdate (lit "EXDATE") l (ev_exdate v) (ev_exdate v') /\
  last_repeated parse_rstatus (lit "RSTATUS") l (ev_rstatus v) (ev_rstatus v') /\
  last_repeated parse_text (lit "RELATED-TO") l (ev_related_to v) (ev_related_to v') /\
  last_appended parse_texts (lit "RESOURCES") l (ev_resources v) (ev_resources v') /\
  last_repeated parse_rdate (lit "RDATE") l (ev_rdate v) (ev_rdate v') /\
  ev_alarms v' = ev_alarms v /\
  last_extensions vevent_names l (ev_x_prop v) (ev_iana_prop v) (ev_x_prop v') (ev_iana_prop v').
Definition vfreebusy_last (l : content_line) (v v' : vfreebusy) : Prop :=
  last_required parse_datetime (lit "DTSTAMP") l (fb_dtstamp v) (fb_dtstamp v') /\
  last_required parse_text (lit "UID") l (fb_uid v) (fb_uid v') /\
  last_optional parse_text (lit "CONTACT") l (fb_contact v) (fb_contact v') /\
  last_optional parse_date (lit "DTSTART") l (fb_dtstart v) (fb_dtstart v') /\
  last_optional parse_date (lit "DTEND") l (fb_dtend v) (fb_dtend v') /\
  last_optional parse_uri (lit "ORGANIZER") l (fb_organizer v) (fb_organizer v') /\
  last_optional parse_uri (lit "URL") l (fb_url v) (fb_url v') /\
  last_repeated parse_uri (lit "ATTENDEE") l (fb_attendee v) (fb_attendee v') /\
  last_repeated parse_text (lit "COMMENT") l (fb_comment v) (fb_comment v') /\
  last_appended parse_freebusy (lit "FREEBUSY") l (fb_freebusy v) (fb_freebusy v') /\
  last_repeated parse_rstatus (lit "RSTATUS") l (fb_rstatus v) (fb_rstatus v') /\
  last_extensions vfreebusy_names l (fb_x_prop v) (fb_iana_prop v) (fb_x_prop v') (fb_iana_prop v').
Definition vjournal_last (l : content_line) (v v' : vjournal) : Prop :=
  last_required parse_datetime (lit "DTSTAMP") l (jo_dtstamp v) (jo_dtstamp v') /\
  last_required parse_text (lit "UID") l (jo_uid v) (jo_uid v') /\
  last_optional parse_class (lit "CLASS") l (jo_class v) (jo_class v') /\
  last_optional parse_datetime (lit "CREATED") l (jo_created v) (jo_created v') /\
  last_required parse_date (lit "DTSTART") l (jo_dtstart v) (jo_dtstart v') /\
  last_optional parse_datetime (lit "LAST-MODIFIED") l (jo_last_modified v) (jo_last_modified v') /\
  last_optional parse_uri (lit "ORGANIZER") l (jo_organizer v) (jo_organizer v') /\
  last_optional parse_date (lit "RECURID") l (jo_recurid v) (jo_recurid v') /\
  last_optional parse_u32 (lit "SEQUENCE") l (jo_sequence v) (jo_sequence v') /\
  last_optional parse_status (lit "STATUS") l (jo_status v) (jo_status v') /\
  last_optional parse_text (lit "SUMMARY") l (jo_summary v) (jo_summary v') /\
  last_optional parse_uri (lit "URL") l (jo_url v) (jo_url v') /\
  last_optional parse_rrule (lit "RRULE") l (jo_rrule v) (jo_rrule v') /\
  last_repeated parse_text (lit "ATTACH") l (jo_attach v) (jo_attach v') /\
  last_repeated parse_uri (lit "ATTENDEE") l (jo_attendee v) (jo_attendee v') /\
  last_appended parse_texts (lit "CATEGORIES") l (jo_categories v) (jo_categories v') /\
  last_repeated parse_text (lit "COMMENT") l (jo_comment v) (jo_comment v') /\
  last_repeated parse_text (lit "CONTACT") l (jo_contact v) (jo_contact v') /\
  last_repeated parse_text (lit "DESCRIPTION") l (jo_description v) (jo_description v') /\
  last_appended parse_exdate (lit "EXDATE") l (jo_exdate v) (jo_exdate v') /\
  last_repeated parse_text (lit "RELATED-TO") l (jo_related_to v) (jo_related_to v') /\
  last_repeated parse_rdate (lit "RDATE") l (jo_rdate v) (jo_rdate v') /\
  last_repeated parse_rstatus (lit "RSTATUS") l (jo_rstatus v) (jo_rstatus v') /\
  last_extensions vjournal_names l (jo_x_prop v) (jo_iana_prop v) (jo_x_prop v') (jo_iana_prop v').
Definition vtodo_last (l : content_line) (v v' : vtodo) : Prop :=
  last_required parse_datetime (lit "DTSTAMP") l (to_dtstamp v) (to_dtstamp v') /\
  last_required parse_text (lit "UID") l (to_uid v) (to_uid v') /\
  last_optional parse_class (lit "CLASS") l (to_class v) (to_class v') /\
  last_optional parse_datetime (lit "COMPLETED") l (to_completed v) (to_completed v') /\
  last_optional parse_datetime (lit "CREATED") l (to_created v) (to_created v') /\
  last_optional parse_date (lit "DTSTART") l (to_dtstart v) (to_dtstart v') /\
  last_optional parse_geo (lit "GEO") l (to_geo v) (to_geo v') /\
  last_optional parse_datetime (lit "LAST-MODIFIED") l (to_last_modified v) (to_last_modified v') /\
  last_optional parse_text (lit "LOCATION") l (to_location v) (to_location v') /\
  last_optional parse_uri (lit "ORGANIZER") l (to_organizer v) (to_organizer v') /\
  last_optional parse_percent (lit "PERCENT-COMPLETE") l (to_percent_complete v) (to_percent_complete v') /\
  last_optional parse_priority (lit "PRIORITY") l (to_priority v) (to_priority v') /\
  last_optional parse_date (lit "RECURID") l (to_recurid v) (to_recurid v') /\
  last_optional parse_u32 (lit "SEQUENCE") l (to_sequence v) (to_sequence v') /\
  last_optional parse_status (lit "STATUS") l (to_status v) (to_status v') /\
  last_optional parse_text (lit "SUMMARY") l (to_summary v) (to_summary v') /\
  last_optional parse_uri (lit "URL") l (to_url v) (to_url v') /\
  last_optional parse_rrule (lit "RRULE") l (to_rrule v) (to_rrule v') /\
  last_optional parse_date (lit "DUE") l (to_due v) (to_due v') /\
  last_optional parse_dur (lit "DURATION") l (to_duration v) (to_duration v') /\
  last_repeated parse_text (lit "ATTACH") l (to_attach v) (to_attach v') /\
  last_repeated parse_uri (lit "ATTENDEE") l (to_attendee v) (to_attendee v') /\
  last_appended parse_texts (lit "CATEGORIES") l (to_categories v) (to_categories v') /\
  last_repeated parse_text (lit "COMMENT") l (to_comment v) (to_comment v') /\
  last_repeated parse_text (lit "CONTACT") l (to_contact v) (to_contact v') /\
  last_appended parse_exdate (lit "EXDATE") l (to_exdate v) (to_exdate v') /\
  last_repeated parse_rstatus (lit "RSTATUS") l (to_rstatus v) (to_rstatus v') /\
  last_repeated parse_text (lit "RELATED-TO") l (to_related_to v) (to_related_to v') /\
  last_appended parse_texts (lit "RESOURCES") l (to_resources v) (to_resources v') /\
  last_repeated parse_rdate (lit "RDATE") l (to_rdate v) (to_rdate v') /\
  last_extensions vtodo_names l (to_x_prop v) (to_iana_prop v) (to_x_prop v') (to_iana_prop v').
Definition standard_last (l : content_line) (v v' : standard) : Prop :=
  last_required parse_date (lit "DTSTART") l (st_dtstart v) (st_dtstart v') /\
  last_required parse_offset (lit "TZOFFSETTO") l (st_tzoffsetto v) (st_tzoffsetto v') /\
  last_required parse_offset (lit "TZOFFSETFROM") l (st_tzoffsetfrom v) (st_tzoffsetfrom v') /\
  last_optional parse_rrule (lit "RRULE") l (st_rrule v) (st_rrule v') /\
  last_repeated parse_text (lit "COMMENT") l (st_comment v) (st_comment v') /\
  last_repeated parse_rdate (lit "RDATE") l (st_rdate v) (st_rdate v') /\
  last_repeated parse_text (lit "TZNAME") l (st_tzname v) (st_tzname v') /\
  last_extensions standard_names l (st_x_prop v) (st_iana_prop v) (st_x_prop v') (st_iana_prop v').
Definition daylight_last (l : content_line) (v v' : daylight) : Prop :=
  last_required parse_date (lit "DTSTART") l (dl_dtstart v) (dl_dtstart v') /\
  last_required parse_offset (lit "TZOFFSETTO") l (dl_tzoffsetto v) (dl_tzoffsetto v') /\
  last_required parse_offset (lit "TZOFFSETFROM") l (dl_tzoffsetfrom v) (dl_tzoffsetfrom v') /\
  last_optional parse_rrule (lit "RRULE") l (dl_rrule v) (dl_rrule v') /\
  last_repeated parse_text (lit "COMMENT") l (dl_comment v) (dl_comment v') /\
  last_repeated parse_rdate (lit "RDATE") l (dl_rdate v) (dl_rdate v') /\
  last_repeated parse_text (lit "TZNAME") l (dl_tzname v) (dl_tzname v') /\
  last_extensions daylight_names l (dl_x_prop v) (dl_iana_prop v) (dl_x_prop v') (dl_iana_prop v').
Definition vtimezone_last (l : content_line) (v v' : vtimezone) : Prop :=
  last_required parse_text (lit "TZID") l (tz_tzid v) (tz_tzid v') /\
  last_optional parse_datetime (lit "LAST-MODIFIED") l (tz_last_modified v) (tz_last_modified v') /\
  last_optional parse_uri (lit "TZURL") l (tz_tzurl v) (tz_tzurl v') /\
  tz_standard v' = tz_standard v /\
  tz_daylight v' = tz_daylight v /\
  last_extensions vtimezone_names l (tz_x_prop v) (tz_iana_prop v) (tz_x_prop v') (tz_iana_prop v').
Definition vcalendar_last (l : content_line) (v v' : vcalendar) : Prop :=
  last_required parse_text (lit "PRODID") l (ca_prodid v) (ca_prodid v') /\
  last_required parse_text (lit "VERSION") l (ca_version v) (ca_version v') /\
  last_optional parse_text (lit "CALSCALE") l (ca_calscale v) (ca_calscale v') /\
  last_optional parse_text (lit "METHOD") l (ca_method v) (ca_method v') /\
  ca_alarms v' = ca_alarms v /\
  ca_events v' = ca_events v /\
  ca_freebusy v' = ca_freebusy v /\
  ca_journals v' = ca_journals v /\
  ca_todo v' = ca_todo v /\
  ca_timezones v' = ca_timezones v /\
  last_extensions vcalendar_names l (ca_x_prop v) (ca_iana_prop v) (ca_x_prop v') (ca_iana_prop v').
Definition audio_first (l : content_line) (v v' : audio) : Prop :=
  au_action v' = au_action v /\
  au_trigger v' = au_trigger v /\
  first_optional parse_dur (lit "DURATION") l (au_duration v) (au_duration v') /\
  first_optional parse_u32 (lit "REPEAT") l (au_repeat v) (au_repeat v') /\
  first_repeated parse_text (lit "ATTACH") l (au_attach v) (au_attach v') /\
  first_extensions audio_names l (au_x_prop v) (au_iana_prop v) (au_x_prop v') (au_iana_prop v').
Definition display_first (l : content_line) (v v' : display) : Prop :=
  di_action v' = di_action v /\
  di_trigger v' = di_trigger v /\
  di_description v' = di_description v /\
  first_optional parse_dur (lit "DURATION") l (di_duration v) (di_duration v') /\
  first_optional parse_u32 (lit "REPEAT") l (di_repeat v) (di_repeat v') /\
  first_extensions display_names l (di_x_prop v) (di_iana_prop v) (di_x_prop v') (di_iana_prop v').
Definition email_first (l : content_line) (v v' : email) : Prop :=
  em_action v' = em_action v /\
  em_trigger v' = em_trigger v /\
  em_description v' = em_description v /\
  em_summary v' = em_summary v /\
  first_repeated parse_uri (lit "ATTENDEE") l (em_attendee v) (em_attendee v') /\
  first_optional parse_dur (lit "DURATION") l (em_duration v) (em_duration v') /\
  first_optional parse_u32 (lit "REPEAT") l (em_repeat v) (em_repeat v') /\
  first_repeated parse_text (lit "ATTACH") l (em_attach v) (em_attach v') /\
  first_extensions email_names l (em_x_prop v) (em_iana_prop v) (em_x_prop v') (em_iana_prop v').
Definition vevent_first (l : content_line) (v v' : vevent) : Prop :=
  ev_dtstamp v' = ev_dtstamp v /\
  ev_uid v' = ev_uid v /\
  ev_dtstart v' = ev_dtstart v /\
  first_optional parse_class (lit "CLASS") l (ev_class v) (ev_class v') /\
  first_optional parse_datetime (lit "CREATED") l (ev_created v) (ev_created v') /\
  first_optional parse_text (lit "DESCRIPTION") l (ev_description v) (ev_description v') /\
  first_optional parse_geo (lit "GEO") l (ev_geo v) (ev_geo v') /\
  first_optional parse_datetime (lit "LAST-MODIFIED") l (ev_last_modified v) (ev_last_modified v') /\
  first_optional parse_text (lit "LOCATION") l (ev_location v) (ev_location v') /\
  first_optional parse_uri (lit "ORGANIZER") l (ev_organizer v) (ev_organizer v') /\
  first_optional parse_priority (lit "PRIORITY") l (ev_priority v) (ev_priority v') /\
  first_optional parse_u32 (lit "SEQUENCE") l (ev_sequence v) (ev_sequence v') /\
  first_optional parse_status (lit "STATUS") l (ev_status v) (ev_status v') /\
  first_optional parse_text (lit "SUMMARY") l (ev_summary v) (ev_summary v') /\
  first_optional parse_transp (lit "TRANSP") l (ev_transp v) (ev_transp v') /\
  first_optional parse_uri (lit "URL") l (ev_url v) (ev_url v') /\
  first_optional parse_date (lit "RECURID") l (ev_recurid v) (ev_recurid v') /\
  first_optional parse_rrule (lit "RRULE") l (ev_rrule v) (ev_rrule v') /\
  first_optional parse_date (lit "DTEND") l (ev_dtend v) (ev_dtend v') /\
  first_optional parse_dur (lit "DURATION") l (ev_duration v) (ev_duration v') /\
  first_repeated parse_text (lit "ATTACH") l (ev_attach v) (ev_attach v') /\
  first_repeated parse_uri (lit "ATTENDEE") l (ev_attendee v) (ev_attendee v') /\
  first_appended parse_texts (lit "CATEGORIES") l (ev_categories v) (ev_categories v') /\
  first_repeated parse_text (lit "COMMENT") l (ev_comment v) (ev_comment v') /\
  first_repeated parse_text (lit "CONTACT") l (ev_contact v) (ev_contact v') /\
  first_appended parse_exdate (lit "EXDATE") l (ev_exdate v) (ev_exdate v') /\
  first_repeated parse_rstatus (lit "RSTATUS") l (ev_rstatus v) (ev_rstatus v') /\
  first_repeated parse_text (lit "RELATED-TO") l (ev_related_to v) (ev_related_to v') /\
  first_appended parse_texts (lit "RESOURCES") l (ev_resources v) (ev_resources v') /\
  first_repeated parse_rdate (lit "RDATE") l (ev_rdate v) (ev_rdate v') /\
  ev_alarms v' = ev_alarms v /\
  first_extensions vevent_names l (ev_x_prop v) (ev_iana_prop v) (ev_x_prop v') (ev_iana_prop v').
Definition vfreebusy_first (l : content_line) (v v' : vfreebusy) : Prop :=
  fb_dtstamp v' = fb_dtstamp v /\
  fb_uid v' = fb_uid v /\
  first_optional parse_text (lit "CONTACT") l (fb_contact v) (fb_contact v') /\
  first_optional parse_date (lit "DTSTART") l (fb_dtstart v) (fb_dtstart v') /\
  first_optional parse_date (lit "DTEND") l (fb_dtend v) (fb_dtend v') /\
  first_optional parse_uri (lit "ORGANIZER") l (fb_organizer v) (fb_organizer v') /\
  first_optional parse_uri (lit "URL") l (fb_url v) (fb_url v') /\
  first_repeated parse_uri (lit "ATTENDEE") l (fb_attendee v) (fb_attendee v') /\
  first_repeated parse_text (lit "COMMENT") l (fb_comment v) (fb_comment v') /\
  first_appended parse_freebusy (lit "FREEBUSY") l (fb_freebusy v) (fb_freebusy v') /\
  first_repeated parse_rstatus (lit "RSTATUS") l (fb_rstatus v) (fb_rstatus v') /\
  first_extensions vfreebusy_names l (fb_x_prop v) (fb_iana_prop v) (fb_x_prop v') (fb_iana_prop v').
Definition vjournal_first (l : content_line) (v v' : vjournal) : Prop :=
  jo_dtstamp v' = jo_dtstamp v /\
  jo_uid v' = jo_uid v /\
  first_optional parse_class (lit "CLASS") l (jo_class v) (jo_class v') /\
  first_optional parse_datetime (lit "CREATED") l (jo_created v) (jo_created v') /\
  jo_dtstart v' = jo_dtstart v /\
  first_optional parse_datetime (lit "LAST-MODIFIED") l (jo_last_modified v) (jo_last_modified v') /\
  first_optional parse_uri (lit "ORGANIZER") l (jo_organizer v) (jo_organizer v') /\
  first_optional parse_date (lit "RECURID") l (jo_recurid v) (jo_recurid v') /\
  first_optional parse_u32 (lit "SEQUENCE") l (jo_sequence v) (jo_sequence v') /\
  first_optional parse_status (lit "STATUS") l (jo_status v) (jo_status v') /\
  first_optional parse_text (lit "SUMMARY") l (jo_summary v) (jo_summary v') /\
  first_optional parse_uri (lit "URL") l (jo_url v) (jo_url v') /\
  first_optional parse_rrule (lit "RRULE") l (jo_rrule v) (jo_rrule v') /\
  first_repeated parse_text (lit "ATTACH") l (jo_attach v) (jo_attach v') /\
  first_repeated parse_uri (lit "ATTENDEE") l (jo_attendee v) (jo_attendee v') /\
  first_appended parse_texts (lit "CATEGORIES") l (jo_categories v) (jo_categories v') /\
  first_repeated parse_text (lit "COMMENT") l (jo_comment v) (jo_comment v') /\
  first_repeated parse_text (lit "CONTACT") l (jo_contact v) (jo_contact v') /\
  first_repeated parse_text (lit "DESCRIPTION") l (jo_description v) (jo_description v') /\
  first_appended parse_exdate (lit "EXDATE") l (jo_exdate v) (jo_exdate v') /\
  first_repeated parse_text (lit "RELATED-TO") l (jo_related_to v) (jo_related_to v') /\
  first_repeated parse_rdate (lit "RDATE") l (jo_rdate v) (jo_rdate v') /\
  first_repeated parse_rstatus (lit "RSTATUS") l (jo_rstatus v) (jo_rstatus v') /\
  first_extensions vjournal_names l (jo_x_prop v) (jo_iana_prop v) (jo_x_prop v') (jo_iana_prop v').
Definition vtodo_first (l : content_line) (v v' : vtodo) : Prop :=
  to_dtstamp v' = to_dtstamp v /\
  to_uid v' = to_uid v /\
  first_optional parse_class (lit "CLASS") l (to_class v) (to_class v') /\
  first_optional parse_datetime (lit "COMPLETED") l (to_completed v) (to_completed v') /\
  first_optional parse_datetime (lit "CREATED") l (to_created v) (to_created v') /\
  first_optional parse_date (lit "DTSTART") l (to_dtstart v) (to_dtstart v') /\
  first_optional parse_geo (lit "GEO") l (to_geo v) (to_geo v') /\
  first_optional parse_datetime (lit "LAST-MODIFIED") l (to_last_modified v) (to_last_modified v') /\
  first_optional parse_text (lit "LOCATION") l (to_location v) (to_location v') /\
  first_optional parse_uri (lit "ORGANIZER") l (to_organizer v) (to_organizer v') /\
  first_optional parse_percent (lit "PERCENT-COMPLETE") l (to_percent_complete v) (to_percent_complete v') /\
  first_optional parse_priority (lit "PRIORITY") l (to_priority v) (to_priority v') /\
  first_optional parse_date (lit "RECURID") l (to_recurid v) (to_recurid v') /\
  first_optional parse_u32 (lit "SEQUENCE") l (to_sequence v) (to_sequence v') /\
  first_optional parse_status (lit "STATUS") l (to_status v) (to_status v') /\
  first_optional parse_text (lit "SUMMARY") l (to_summary v) (to_summary v') /\
  first_optional parse_uri (lit "URL") l (to_url v) (to_url v') /\
  first_optional parse_rrule (lit "RRULE") l (to_rrule v) (to_rrule v') /\
  first_optional parse_date (lit "DUE") l (to_due v) (to_due v') /\
  first_optional parse_dur (lit "DURATION") l (to_duration v) (to_duration v') /\
  first_repeated parse_text (lit "ATTACH") l (to_attach v) (to_attach v') /\
  first_repeated parse_uri (lit "ATTENDEE") l (to_attendee v) (to_attendee v') /\
  first_appended parse_texts (lit "CATEGORIES") l (to_categories v) (to_categories v') /\
  first_repeated parse_text (lit "COMMENT") l (to_comment v) (to_comment v') /\
  first_repeated parse_text (lit "CONTACT") l (to_contact v) (to_contact v') /\
  first_appended parse_exdate (lit "EXDATE") l (to_exdate v) (to_exdate v') /\
  first_repeated parse_rstatus (lit "RSTATUS") l (to_rstatus v) (to_rstatus v') /\
  first_repeated parse_text (lit "RELATED-TO") l (to_related_to v) (to_related_to v') /\
  first_appended parse_texts (lit "RESOURCES") l (to_resources v) (to_resources v') /\
  first_repeated parse_rdate (lit "RDATE") l (to_rdate v) (to_rdate v') /\
  first_extensions vtodo_names l (to_x_prop v) (to_iana_prop v) (to_x_prop v') (to_iana_prop v').
Definition standard_first (l : content_line) (v v' : standard) : Prop :=
  st_dtstart v' = st_dtstart v /\
  st_tzoffsetto v' = st_tzoffsetto v /\
  st_tzoffsetfrom v' = st_tzoffsetfrom v /\
  first_optional parse_rrule (lit "RRULE") l (st_rrule v) (st_rrule v') /\
  first_repeated parse_text (lit "COMMENT") l (st_comment v) (st_comment v') /\
  first_repeated parse_rdate (lit "RDATE") l (st_rdate v) (st_rdate v') /\
  first_repeated parse_text (lit "TZNAME") l (st_tzname v) (st_tzname v') /\
  first_extensions standard_names l (st_x_prop v) (st_iana_prop v) (st_x_prop v') (st_iana_prop v').
Definition daylight_first (l : content_line) (v v' : daylight) : Prop :=
  dl_dtstart v' = dl_dtstart v /\
  dl_tzoffsetto v' = dl_tzoffsetto v /\
  dl_tzoffsetfrom v' = dl_tzoffsetfrom v /\
  first_optional parse_rrule (lit "RRULE") l (dl_rrule v) (dl_rrule v') /\
  first_repeated parse_text (lit "COMMENT") l (dl_comment v) (dl_comment v') /\
  first_repeated parse_rdate (lit "RDATE") l (dl_rdate v) (dl_rdate v') /\
  first_repeated parse_text (lit "TZNAME") l (dl_tzname v) (dl_tzname v') /\
  first_extensions daylight_names l (dl_x_prop v) (dl_iana_prop v) (dl_x_prop v') (dl_iana_prop v').
Definition vtimezone_first (l : content_line) (v v' : vtimezone) : Prop :=
  tz_tzid v' = tz_tzid v /\
  first_optional parse_datetime (lit "LAST-MODIFIED") l (tz_last_modified v) (tz_last_modified v') /\
  first_optional parse_uri (lit "TZURL") l (tz_tzurl v) (tz_tzurl v') /\
  tz_standard v' = tz_standard v /\
  tz_daylight v' = tz_daylight v /\
  first_extensions vtimezone_names l (tz_x_prop v) (tz_iana_prop v) (tz_x_prop v') (tz_iana_prop v').
Definition vcalendar_first (l : content_line) (v v' : vcalendar) : Prop :=
  ca_prodid v' = ca_prodid v /\
  ca_version v' = ca_version v /\
  first_optional parse_text (lit "CALSCALE") l (ca_calscale v) (ca_calscale v') /\
  first_optional parse_text (lit "METHOD") l (ca_method v) (ca_method v') /\
  ca_alarms v' = ca_alarms v /\
  ca_events v' = ca_events v /\
  ca_freebusy v' = ca_freebusy v /\
  ca_journals v' = ca_journals v /\
  ca_todo v' = ca_todo v /\
  ca_timezones v' = ca_timezones v /\
  first_extensions vcalendar_names l (ca_x_prop v) (ca_iana_prop v) (ca_x_prop v') (ca_iana_prop v').
Definition audio_without (n : str) (v v' : audio) : Prop :=
  au_action v' = au_action v /\
  au_trigger v' = au_trigger v /\
  without_optional (lit "DURATION") n (au_duration v) (au_duration v') /\
  without_optional (lit "REPEAT") n (au_repeat v) (au_repeat v') /\
  without_repeated (lit "ATTACH") n (au_attach v) (au_attach v') /\
  without_extensions n (au_x_prop v) (au_iana_prop v) (au_x_prop v') (au_iana_prop v').
Definition display_without (n : str) (v v' : display) : Prop :=
  di_action v' = di_action v /\
  di_trigger v' = di_trigger v /\
  di_description v' = di_description v /\
  without_optional (lit "DURATION") n (di_duration v) (di_duration v') /\
  without_optional (lit "REPEAT") n (di_repeat v) (di_repeat v') /\
  without_extensions n (di_x_prop v) (di_iana_prop v) (di_x_prop v') (di_iana_prop v').
Definition email_without (n : str) (v v' : email) : Prop :=
  em_action v' = em_action v /\
  em_trigger v' = em_trigger v /\
  em_description v' = em_description v /\
  em_summary v' = em_summary v /\
  without_repeated (lit "ATTENDEE") n (em_attendee v) (em_attendee v') /\
  without_optional (lit "DURATION") n (em_duration v) (em_duration v') /\
  without_optional (lit "REPEAT") n (em_repeat v) (em_repeat v') /\
  without_repeated (lit "ATTACH") n (em_attach v) (em_attach v') /\
  without_extensions n (em_x_prop v) (em_iana_prop v) (em_x_prop v') (em_iana_prop v').
Definition vevent_without (n : str) (v v' : vevent) : Prop :=
  ev_dtstamp v' = ev_dtstamp v /\
  ev_uid v' = ev_uid v /\
  ev_dtstart v' = ev_dtstart v /\
  without_optional (lit "CLASS") n (ev_class v) (ev_class v') /\
  without_optional (lit "CREATED") n (ev_created v) (ev_created v') /\
  without_optional (lit "DESCRIPTION") n (ev_description v) (ev_description v') /\
  without_optional (lit "GEO") n (ev_geo v) (ev_geo v') /\
  without_optional (lit "LAST-MODIFIED") n (ev_last_modified v) (ev_last_modified v') /\
  without_optional (lit "LOCATION") n (ev_location v) (ev_location v') /\
  without_optional (lit "ORGANIZER") n (ev_organizer v) (ev_organizer v') /\
  without_optional (lit "PRIORITY") n (ev_priority v) (ev_priority v') /\
  without_optional (lit "SEQUENCE") n (ev_sequence v) (ev_sequence v') /\
  without_optional (lit "STATUS") n (ev_status v) (ev_status v') /\
  without_optional (lit "SUMMARY") n (ev_summary v) (ev_summary v') /\
  without_optional (lit "TRANSP") n (ev_transp v) (ev_transp v') /\
  without_optional (lit "URL") n (ev_url v) (ev_url v') /\
  without_optional (lit "RECURID") n (ev_recurid v) (ev_recurid v') /\
  without_optional (lit "RRULE") n (ev_rrule v) (ev_rrule v') /\
  without_optional (lit "DTEND") n (ev_dtend v) (ev_dtend v') /\
  without_optional (lit "DURATION") n (ev_duration v) (ev_duration v') /\
  without_repeated (lit "ATTACH") n (ev_attach v) (ev_attach v') /\
  without_repeated (lit "ATTENDEE") n (ev_attendee v) (ev_attendee v') /\
  without_appended (lit "CATEGORIES") n (ev_categories v) (ev_categories v') /\
  without_repeated (lit "COMMENT") n (ev_comment v) (ev_comment v') /\
  without_repeated (lit "CONTACT") n (ev_contact v) (ev_contact v') /\
  without_appended (lit "EXDATE") n (ev_exdate v) (ev_exdate v') /\
  without_repeated (lit "RSTATUS") n (ev_rstatus v) (ev_rstatus v') /\
  without_repeated (lit "RELATED-TO") n (ev_related_to v) (ev_related_to v') /\
  without_appended (lit "RESOURCES") n (ev_resources v) (ev_resources v') /\
  without_repeated (lit "RDATE") n (ev_rdate v) (ev_rdate v') /\
  ev_alarms v' = ev_alarms v /\
  without_extensions n (ev_x_prop v) (ev_iana_prop v) (ev_x_prop v') (ev_iana_prop v').
Definition vfreebusy_without (n : str) (v v' : vfreebusy) : Prop :=
  fb_dtstamp v' = fb_dtstamp v /\
  fb_uid v' = fb_uid v /\
  without_optional (lit "CONTACT") n (fb_contact v) (fb_contact v') /\
  without_optional (lit "DTSTART") n (fb_dtstart v) (fb_dtstart v') /\
  without_optional (lit "DTEND") n (fb_dtend v) (fb_dtend v') /\
  without_optional (lit "ORGANIZER") n (fb_organizer v) (fb_organizer v') /\
  without_optional (lit "URL") n (fb_url v) (fb_url v') /\
  without_repeated (lit "ATTENDEE") n (fb_attendee v) (fb_attendee v') /\
  without_repeated (lit "COMMENT") n (fb_comment v) (fb_comment v') /\
  without_appended (lit "FREEBUSY") n (fb_freebusy v) (fb_freebusy v') /\
  without_repeated (lit "RSTATUS") n (fb_rstatus v) (fb_rstatus v') /\
  without_extensions n (fb_x_prop v) (fb_iana_prop v) (fb_x_prop v') (fb_iana_prop v').
Definition vjournal_without (n : str) (v v' : vjournal) : Prop :=
  jo_dtstamp v' = jo_dtstamp v /\
  jo_uid v' = jo_uid v /\
  without_optional (lit "CLASS") n (jo_class v) (jo_class v') /\
  without_optional (lit "CREATED") n (jo_created v) (jo_created v') /\
  jo_dtstart v' = jo_dtstart v /\
  without_optional (lit "LAST-MODIFIED") n (jo_last_modified v) (jo_last_modified v') /\
  without_optional (lit "ORGANIZER") n (jo_organizer v) (jo_organizer v') /\
  without_optional (lit "RECURID") n (jo_recurid v) (jo_recurid v') /\
  without_optional (lit "SEQUENCE") n (jo_sequence v) (jo_sequence v') /\
  without_optional (lit "STATUS") n (jo_status v) (jo_status v') /\
  without_optional (lit "SUMMARY") n (jo_summary v) (jo_summary v') /\
  without_optional (lit "URL") n (jo_url v) (jo_url v') /\
  without_optional (lit "RRULE") n (jo_rrule v) (jo_rrule v') /\
  without_repeated (lit "ATTACH") n (jo_attach v) (jo_attach v') /\
  without_repeated (lit "ATTENDEE") n (jo_attendee v) (jo_attendee v') /\
  without_appended (lit "CATEGORIES") n (jo_categories v) (jo_categories v') /\
  without_repeated (lit "COMMENT") n (jo_comment v) (jo_comment v') /\
  without_repeated (lit "CONTACT") n (jo_contact v) (jo_contact v') /\
  without_repeated (lit "DESCRIPTION") n (jo_description v) (jo_description v') /\
  without_appended (lit "EXDATE") n (jo_exdate v) (jo_exdate v') /\
  without_repeated (lit "RELATED-TO") n (jo_related_to v) (jo_related_to v') /\
  without_repeated (lit "RDATE") n (jo_rdate v) (jo_rdate v') /\
  without_repeated (lit "RSTATUS") n (jo_rstatus v) (jo_rstatus v') /\
  without_extensions n (jo_x_prop v) (jo_iana_prop v) (jo_x_prop v') (jo_iana_prop v').
Definition vtodo_without (n : str) (v v' : vtodo) : Prop :=
  to_dtstamp v' = to_dtstamp v /\
  to_uid v' = to_uid v /\
  without_optional (lit "CLASS") n (to_class v) (to_class v') /\
  without_optional (lit "COMPLETED") n (to_completed v) (to_completed v') /\
  without_optional (lit "CREATED") n (to_created v) (to_created v') /\
  without_optional (lit "DTSTART") n (to_dtstart v) (to_dtstart v') /\
  without_optional (lit "GEO") n (to_geo v) (to_geo v') /\
  without_optional (lit "LAST-MODIFIED") n (to_last_modified v) (to_last_modified v') /\
  without_optional (lit "LOCATION") n (to_location v) (to_location v') /\
  without_optional (lit "ORGANIZER") n (to_organizer v) (to_organizer v') /\
  without_optional (lit "PERCENT-COMPLETE") n (to_percent_complete v) (to_percent_complete v') /\
  without_optional (lit "PRIORITY") n (to_priority v) (to_priority v') /\
  without_optional (lit "RECURID") n (to_recurid v) (to_recurid v') /\
  without_optional (lit "SEQUENCE") n (to_sequence v) (to_sequence v') /\
  without_optional (lit "STATUS") n (to_status v) (to_status v') /\
  without_optional (lit "SUMMARY") n (to_summary v) (to_summary v') /\
  without_optional (lit "URL") n (to_url v) (to_url v') /\
  without_optional (lit "RRULE") n (to_rrule v) (to_rrule v') /\
  without_optional (lit "DUE") n (to_due v) (to_due v') /\
  without_optional (lit "DURATION") n (to_duration v) (to_duration v') /\
  without_repeated (lit "ATTACH") n (to_attach v) (to_attach v') /\
  without_repeated (lit "ATTENDEE") n (to_attendee v) (to_attendee v') /\
  without_appended (lit "CATEGORIES") n (to_categories v) (to_categories v') /\
  without_repeated (lit "COMMENT") n (to_comment v) (to_comment v') /\
  without_repeated (lit "CONTACT") n (to_contact v) (to_contact v') /\
  without_appended (lit "EXDATE") n (to_exdate v) (to_exdate v') /\
  without_repeated (lit "RSTATUS") n (to_rstatus v) (to_rstatus v') /\
  without_repeated (lit "RELATED-TO") n (to_related_to v) (to_related_to v') /\
  without_appended (lit "RESOURCES") n (to_resources v) (to_resources v') /\
  without_repeated (lit "RDATE") n (to_rdate v) (to_rdate v') /\
  without_extensions n (to_x_prop v) (to_iana_prop v) (to_x_prop v') (to_iana_prop v').
Definition standard_without (n : str) (v v' : standard) : Prop :=
  st_dtstart v' = st_dtstart v /\
  st_tzoffsetto v' = st_tzoffsetto v /\
  st_tzoffsetfrom v' = st_tzoffsetfrom v /\
  without_optional (lit "RRULE") n (st_rrule v) (st_rrule v') /\
  without_repeated (lit "COMMENT") n (st_comment v) (st_comment v') /\
  without_repeated (lit "RDATE") n (st_rdate v) (st_rdate v') /\
  without_repeated (lit "TZNAME") n (st_tzname v) (st_tzname v') /\
  without_extensions n (st_x_prop v) (st_iana_prop v) (st_x_prop v') (st_iana_prop v').
Definition daylight_without (n : str) (v v' : daylight) : Prop :=
  dl_dtstart v' = dl_dtstart v /\
  dl_tzoffsetto v' = dl_tzoffsetto v /\
  dl_tzoffsetfrom v' = dl_tzoffsetfrom v /\
  without_optional (lit "RRULE") n (dl_rrule v) (dl_rrule v') /\
  without_repeated (lit "COMMENT") n (dl_comment v) (dl_comment v') /\
  without_repeated (lit "RDATE") n (dl_rdate v) (dl_rdate v') /\
  without_repeated (lit "TZNAME") n (dl_tzname v) (dl_tzname v') /\
  without_extensions n (dl_x_prop v) (dl_iana_prop v) (dl_x_prop v') (dl_iana_prop v').
Definition vtimezone_without (n : str) (v v' : vtimezone) : Prop :=
  tz_tzid v' = tz_tzid v /\
  without_optional (lit "LAST-MODIFIED") n (tz_last_modified v) (tz_last_modified v') /\
  without_optional (lit "TZURL") n (tz_tzurl v) (tz_tzurl v') /\
  tz_standard v' = tz_standard v /\
  tz_daylight v' = tz_daylight v /\
  without_extensions n (tz_x_prop v) (tz_iana_prop v) (tz_x_prop v') (tz_iana_prop v').
Definition vcalendar_without (n : str) (v v' : vcalendar) : Prop :=
  ca_prodid v' = ca_prodid v /\
  ca_version v' = ca_version v /\
  without_optional (lit "CALSCALE") n (ca_calscale v) (ca_calscale v') /\
  without_optional (lit "METHOD") n (ca_method v) (ca_method v') /\
  ca_alarms v' = ca_alarms v /\
  ca_events v' = ca_events v /\
  ca_freebusy v' = ca_freebusy v /\
  ca_journals v' = ca_journals v /\
  ca_todo v' = ca_todo v /\
  ca_timezones v' = ca_timezones v /\
  without_extensions n (ca_x_prop v) (ca_iana_prop v) (ca_x_prop v') (ca_iana_prop v').
(** An alarm remains an audio, display or email alarm. *)
Definition valarm_last (l : content_line) (a a' : valarm) : Prop :=
  match a, a' with
  | AAudio x, AAudio y => audio_last l x y | ADisplay x, ADisplay y => display_last l x y | AEmail x, AEmail y => email_last l x y
  | _, _ => False
  end.
Definition valarm_first (l : content_line) (a a' : valarm) : Prop :=
  match a, a' with
  | AAudio x, AAudio y => audio_first l x y | ADisplay x, ADisplay y => display_first l x y | AEmail x, AEmail y => email_first l x y
  | _, _ => False
  end.
Definition valarm_without (n : str) (a a' : valarm) : Prop :=
  match a, a' with
  | AAudio x, AAudio y => audio_without n x y | ADisplay x, ADisplay y => display_without n x y | AEmail x, AEmail y => email_without n x y
  | _, _ => False
  end.
(** The own properties [w] with the children of [v]. *)
Definition event_own (w v : vevent) : vevent := set_ev_alarms w (ev_alarms v).
Definition timezone_own (w v : vtimezone) : vtimezone := set_tz_daylight (set_tz_standard w (tz_standard v)) (tz_daylight v).
Definition calendar_own (w v : vcalendar) : vcalendar :=
  mk_vcalendar (ca_prodid w) (ca_version w) (ca_calscale w) (ca_method w) (ca_alarms v) (ca_events v) (ca_freebusy v) (ca_journals v) (ca_todo v) (ca_timezones v)
    (ca_x_prop w) (ca_iana_prop w).
(** ** Texts *)
(** [o] is, its folds undone, the text of the content line [l] and nothing more, without a double quote. *)
Definition line_exact (o : str) (l : content_line) : Prop :=
  is_line (unfold_lines o) l [] /\ sorted_map (cl_params l) /\ ~ In QUOTE o.
(** The texts of the lines that are not named [n]. *)
Definition kept_lines (n : str) (ls : list content_line) : list content_line := filter (fun l => negb (str_eqb (cl_key l) n)) ls.
Definition kept (n : str) (outs : list str) (ls : list content_line) : list str :=
  map fst (filter (fun p => negb (str_eqb (cl_key (snd p)) n)) (combine outs ls)).
(** The text [s] of [v] is its BEGIN line, then its own content lines [outs], then the rest:
    other lines can be put in their place, and a line added after them or before them, and
    lines taken away; [loads s v] is how the text is read. *)
Definition editable {A} (name : str) (loads : str -> A -> Prop) (read : list content_line -> A -> Prop) (last first : content_line -> A -> A -> Prop)
  (without : str -> A -> A -> Prop) (needed : list str) (s : str) (v : A) : Prop :=
  exists head outs fin ls,
    s = head ++ concat outs ++ fin /\ unfold_lines head = lit "BEGIN:" ++ name ++ CRLF /\
    (begins (lit "BEGIN:") (unfold_lines fin) \/ begins (lit "END:" ++ name) (unfold_lines fin)) /\ Forall2 line_exact outs ls /\
    (forall outs' ls', Forall2 line_exact outs' ls' -> forall v', loads (head ++ concat outs' ++ fin) v' <-> read ls' v') /\
    (forall o l, line_exact o l -> forall v', loads (head ++ concat outs ++ o ++ fin) v' <-> last l v v') /\
    (forall o l, line_exact o l -> forall v', loads (head ++ o ++ concat outs ++ fin) v' <-> first l v v') /\
    (forall n, ~ In n needed -> forall v', loads (head ++ concat (kept n outs ls) ++ fin) v' <-> without n v v').
End Env.
