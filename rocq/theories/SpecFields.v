(** * What a parsed component holds, field by field.

    For each component, [X_read ls v] says what the fields of [v] are, in terms of
    the content lines [ls] and of the readers of single values (parse_text,
    parse_date, ...), using only the notions of SpecComp.v. The property names are
    those of the text format, not taken from the generated code. *)
From Verif Require Import Base Env Types Parser SpecComp Components.

Section Fields.
Context {E : Env}.

(** src/components/valarm.rs:73-84 *)
Definition audio_names : list str := [lit "ACTION"; lit "TRIGGER"; lit "DURATION"; lit "REPEAT"; lit "ATTACH"].
Definition audio_required : list str := [lit "ACTION"; lit "TRIGGER"].
Definition audio_read (ls : list content_line) (v : audio) : Prop :=
  required parse_text (lit "ACTION") ls (au_action v) /\
  required parse_trigger (lit "TRIGGER") ls (au_trigger v) /\
  optional parse_dur (lit "DURATION") ls (au_duration v) /\
  optional parse_u32 (lit "REPEAT") ls (au_repeat v) /\
  repeated parse_text (lit "ATTACH") ls (au_attach v) /\
  extensions audio_names ls (au_x_prop v) (au_iana_prop v).

(** src/components/valarm.rs:101-112 *)
Definition display_names : list str := [lit "ACTION"; lit "TRIGGER"; lit "DESCRIPTION"; lit "DURATION"; lit "REPEAT"].
Definition display_required : list str := [lit "ACTION"; lit "TRIGGER"; lit "DESCRIPTION"].
Definition display_read (ls : list content_line) (v : display) : Prop :=
  required parse_text (lit "ACTION") ls (di_action v) /\
  required parse_trigger (lit "TRIGGER") ls (di_trigger v) /\
  required parse_text (lit "DESCRIPTION") ls (di_description v) /\
  optional parse_dur (lit "DURATION") ls (di_duration v) /\
  optional parse_u32 (lit "REPEAT") ls (di_repeat v) /\
  extensions display_names ls (di_x_prop v) (di_iana_prop v).

(** src/components/valarm.rs:129-143 *)
Definition email_names : list str := [lit "ACTION"; lit "TRIGGER"; lit "DESCRIPTION"; lit "SUMMARY"; lit "ATTENDEE"; lit "DURATION"; lit "REPEAT"; lit "ATTACH"].
Definition email_required : list str := [lit "ACTION"; lit "TRIGGER"; lit "DESCRIPTION"; lit "SUMMARY"].
Definition email_read (ls : list content_line) (v : email) : Prop :=
  required parse_text (lit "ACTION") ls (em_action v) /\
  required parse_trigger (lit "TRIGGER") ls (em_trigger v) /\
  required parse_text (lit "DESCRIPTION") ls (em_description v) /\
  required parse_text (lit "SUMMARY") ls (em_summary v) /\
  repeated parse_uri (lit "ATTENDEE") ls (em_attendee v) /\
  optional parse_dur (lit "DURATION") ls (em_duration v) /\
  optional parse_u32 (lit "REPEAT") ls (em_repeat v) /\
  repeated parse_text (lit "ATTACH") ls (em_attach v) /\
  extensions email_names ls (em_x_prop v) (em_iana_prop v).

(** src/components/vevent.rs:4-45 *)
Definition vevent_names : list str := [lit "DTSTAMP"; lit "UID"; lit "DTSTART"; lit "CLASS"; lit "CREATED"; lit "DESCRIPTION"; lit "GEO"; lit "LAST-MODIFIED"; lit "LOCATION"; lit "ORGANIZER"; lit "PRIORITY"; lit "SEQUENCE"; lit "STATUS"; lit "SUMMARY"; lit "TRANSP"; lit "URL"; lit "RECURID"; lit "RRULE"; lit "DTEND"; lit "DURATION"; lit "ATTACH"; lit "ATTENDEE"; lit "CATEGORIES"; lit "COMMENT"; lit "CONTACT"; lit "EXDATE"; lit "RSTATUS"; lit "RELATED-TO"; lit "RESOURCES"; lit "RDATE"].
Definition vevent_required : list str := [lit "DTSTAMP"; lit "UID"; lit "DTSTART"].
Definition vevent_read (ls : list content_line) (v : vevent) : Prop :=
  required parse_datetime (lit "DTSTAMP") ls (ev_dtstamp v) /\
  required parse_text (lit "UID") ls (ev_uid v) /\
  required parse_date (lit "DTSTART") ls (ev_dtstart v) /\
  optional parse_class (lit "CLASS") ls (ev_class v) /\
  optional parse_datetime (lit "CREATED") ls (ev_created v) /\
  optional parse_text (lit "DESCRIPTION") ls (ev_description v) /\
  optional parse_geo (lit "GEO") ls (ev_geo v) /\
  optional parse_datetime (lit "LAST-MODIFIED") ls (ev_last_modified v) /\
  optional parse_text (lit "LOCATION") ls (ev_location v) /\
  optional parse_uri (lit "ORGANIZER") ls (ev_organizer v) /\
  optional parse_priority (lit "PRIORITY") ls (ev_priority v) /\
  optional parse_u32 (lit "SEQUENCE") ls (ev_sequence v) /\
  optional parse_status (lit "STATUS") ls (ev_status v) /\
  optional parse_text (lit "SUMMARY") ls (ev_summary v) /\
  optional parse_transp (lit "TRANSP") ls (ev_transp v) /\
  optional parse_uri (lit "URL") ls (ev_url v) /\
  optional parse_date (lit "RECURID") ls (ev_recurid v) /\
  optional parse_rrule (lit "RRULE") ls (ev_rrule v) /\
  optional parse_date (lit "DTEND") ls (ev_dtend v) /\
  optional parse_dur (lit "DURATION") ls (ev_duration v) /\
  repeated parse_text (lit "ATTACH") ls (ev_attach v) /\
  repeated parse_uri (lit "ATTENDEE") ls (ev_attendee v) /\
  appended parse_texts (lit "CATEGORIES") ls (ev_categories v) /\
  repeated parse_text (lit "COMMENT") ls (ev_comment v) /\
  repeated parse_text (lit "CONTACT") ls (ev_contact v) /\
  appended parse_exdate (lit "EXDATE") ls (ev_exdate v) /\
  repeated parse_rstatus (lit "RSTATUS") ls (ev_rstatus v) /\
  repeated parse_text (lit "RELATED-TO") ls (ev_related_to v) /\
  appended parse_texts (lit "RESOURCES") ls (ev_resources v) /\
  repeated parse_rdate (lit "RDATE") ls (ev_rdate v) /\
  ev_alarms v = [] /\
  extensions vevent_names ls (ev_x_prop v) (ev_iana_prop v).

(** src/components/vfreebusy.rs:4-22 *)
Definition vfreebusy_names : list str := [lit "DTSTAMP"; lit "UID"; lit "CONTACT"; lit "DTSTART"; lit "DTEND"; lit "ORGANIZER"; lit "URL"; lit "ATTENDEE"; lit "COMMENT"; lit "FREEBUSY"; lit "RSTATUS"].
Definition vfreebusy_required : list str := [lit "DTSTAMP"; lit "UID"].
Definition vfreebusy_read (ls : list content_line) (v : vfreebusy) : Prop :=
  required parse_datetime (lit "DTSTAMP") ls (fb_dtstamp v) /\
  required parse_text (lit "UID") ls (fb_uid v) /\
  optional parse_text (lit "CONTACT") ls (fb_contact v) /\
  optional parse_date (lit "DTSTART") ls (fb_dtstart v) /\
  optional parse_date (lit "DTEND") ls (fb_dtend v) /\
  optional parse_uri (lit "ORGANIZER") ls (fb_organizer v) /\
  optional parse_uri (lit "URL") ls (fb_url v) /\
  repeated parse_uri (lit "ATTENDEE") ls (fb_attendee v) /\
  repeated parse_text (lit "COMMENT") ls (fb_comment v) /\
  appended parse_freebusy (lit "FREEBUSY") ls (fb_freebusy v) /\
  repeated parse_rstatus (lit "RSTATUS") ls (fb_rstatus v) /\
  extensions vfreebusy_names ls (fb_x_prop v) (fb_iana_prop v).

(** src/components/vjournal.rs:4-35 *)
Definition vjournal_names : list str := [lit "DTSTAMP"; lit "UID"; lit "CLASS"; lit "CREATED"; lit "DTSTART"; lit "LAST-MODIFIED"; lit "ORGANIZER"; lit "RECURID"; lit "SEQUENCE"; lit "STATUS"; lit "SUMMARY"; lit "URL"; lit "RRULE"; lit "ATTACH"; lit "ATTENDEE"; lit "CATEGORIES"; lit "COMMENT"; lit "CONTACT"; lit "DESCRIPTION"; lit "EXDATE"; lit "RELATED-TO"; lit "RDATE"; lit "RSTATUS"].
Definition vjournal_required : list str := [lit "DTSTAMP"; lit "UID"; lit "DTSTART"].
Definition vjournal_read (ls : list content_line) (v : vjournal) : Prop :=
  required parse_datetime (lit "DTSTAMP") ls (jo_dtstamp v) /\
  required parse_text (lit "UID") ls (jo_uid v) /\
  optional parse_class (lit "CLASS") ls (jo_class v) /\
  optional parse_datetime (lit "CREATED") ls (jo_created v) /\
  required parse_date (lit "DTSTART") ls (jo_dtstart v) /\
  optional parse_datetime (lit "LAST-MODIFIED") ls (jo_last_modified v) /\
  optional parse_uri (lit "ORGANIZER") ls (jo_organizer v) /\
  optional parse_date (lit "RECURID") ls (jo_recurid v) /\
  optional parse_u32 (lit "SEQUENCE") ls (jo_sequence v) /\
  optional parse_status (lit "STATUS") ls (jo_status v) /\
  optional parse_text (lit "SUMMARY") ls (jo_summary v) /\
  optional parse_uri (lit "URL") ls (jo_url v) /\
  optional parse_rrule (lit "RRULE") ls (jo_rrule v) /\
  repeated parse_text (lit "ATTACH") ls (jo_attach v) /\
  repeated parse_uri (lit "ATTENDEE") ls (jo_attendee v) /\
  appended parse_texts (lit "CATEGORIES") ls (jo_categories v) /\
  repeated parse_text (lit "COMMENT") ls (jo_comment v) /\
  repeated parse_text (lit "CONTACT") ls (jo_contact v) /\
  repeated parse_text (lit "DESCRIPTION") ls (jo_description v) /\
  appended parse_exdate (lit "EXDATE") ls (jo_exdate v) /\
  repeated parse_text (lit "RELATED-TO") ls (jo_related_to v) /\
  repeated parse_rdate (lit "RDATE") ls (jo_rdate v) /\
  repeated parse_rstatus (lit "RSTATUS") ls (jo_rstatus v) /\
  extensions vjournal_names ls (jo_x_prop v) (jo_iana_prop v).

(** src/components/vtodo.rs:4-43 *)
Definition vtodo_names : list str := [lit "DTSTAMP"; lit "UID"; lit "CLASS"; lit "COMPLETED"; lit "CREATED"; lit "DTSTART"; lit "GEO"; lit "LAST-MODIFIED"; lit "LOCATION"; lit "ORGANIZER"; lit "PERCENT-COMPLETE"; lit "PRIORITY"; lit "RECURID"; lit "SEQUENCE"; lit "STATUS"; lit "SUMMARY"; lit "URL"; lit "RRULE"; lit "DUE"; lit "DURATION"; lit "ATTACH"; lit "ATTENDEE"; lit "CATEGORIES"; lit "COMMENT"; lit "CONTACT"; lit "EXDATE"; lit "RSTATUS"; lit "RELATED-TO"; lit "RESOURCES"; lit "RDATE"].
Definition vtodo_required : list str := [lit "DTSTAMP"; lit "UID"].
Definition vtodo_read (ls : list content_line) (v : vtodo) : Prop :=
  required parse_datetime (lit "DTSTAMP") ls (to_dtstamp v) /\
  required parse_text (lit "UID") ls (to_uid v) /\
  optional parse_class (lit "CLASS") ls (to_class v) /\
  optional parse_datetime (lit "COMPLETED") ls (to_completed v) /\
  optional parse_datetime (lit "CREATED") ls (to_created v) /\
  optional parse_date (lit "DTSTART") ls (to_dtstart v) /\
  optional parse_geo (lit "GEO") ls (to_geo v) /\
  optional parse_datetime (lit "LAST-MODIFIED") ls (to_last_modified v) /\
  optional parse_text (lit "LOCATION") ls (to_location v) /\
  optional parse_uri (lit "ORGANIZER") ls (to_organizer v) /\
  optional parse_percent (lit "PERCENT-COMPLETE") ls (to_percent_complete v) /\
  optional parse_priority (lit "PRIORITY") ls (to_priority v) /\
  optional parse_date (lit "RECURID") ls (to_recurid v) /\
  optional parse_u32 (lit "SEQUENCE") ls (to_sequence v) /\
  optional parse_status (lit "STATUS") ls (to_status v) /\
  optional parse_text (lit "SUMMARY") ls (to_summary v) /\
  optional parse_uri (lit "URL") ls (to_url v) /\
  optional parse_rrule (lit "RRULE") ls (to_rrule v) /\
  optional parse_date (lit "DUE") ls (to_due v) /\
  optional parse_dur (lit "DURATION") ls (to_duration v) /\
  repeated parse_text (lit "ATTACH") ls (to_attach v) /\
  repeated parse_uri (lit "ATTENDEE") ls (to_attendee v) /\
  appended parse_texts (lit "CATEGORIES") ls (to_categories v) /\
  repeated parse_text (lit "COMMENT") ls (to_comment v) /\
  repeated parse_text (lit "CONTACT") ls (to_contact v) /\
  appended parse_exdate (lit "EXDATE") ls (to_exdate v) /\
  repeated parse_rstatus (lit "RSTATUS") ls (to_rstatus v) /\
  repeated parse_text (lit "RELATED-TO") ls (to_related_to v) /\
  appended parse_texts (lit "RESOURCES") ls (to_resources v) /\
  repeated parse_rdate (lit "RDATE") ls (to_rdate v) /\
  extensions vtodo_names ls (to_x_prop v) (to_iana_prop v).

(** src/components/vtimezone.rs:34-49,76 *)
Definition standard_names : list str := [lit "DTSTART"; lit "TZOFFSETTO"; lit "TZOFFSETFROM"; lit "RRULE"; lit "COMMENT"; lit "RDATE"; lit "TZNAME"].
Definition standard_required : list str := [lit "DTSTART"; lit "TZOFFSETTO"; lit "TZOFFSETFROM"].
Definition standard_read (ls : list content_line) (v : standard) : Prop :=
  required parse_date (lit "DTSTART") ls (st_dtstart v) /\
  required parse_offset (lit "TZOFFSETTO") ls (st_tzoffsetto v) /\
  required parse_offset (lit "TZOFFSETFROM") ls (st_tzoffsetfrom v) /\
  optional parse_rrule (lit "RRULE") ls (st_rrule v) /\
  repeated parse_text (lit "COMMENT") ls (st_comment v) /\
  repeated parse_rdate (lit "RDATE") ls (st_rdate v) /\
  repeated parse_text (lit "TZNAME") ls (st_tzname v) /\
  extensions standard_names ls (st_x_prop v) (st_iana_prop v).

(** src/components/vtimezone.rs:34-49,77 *)
Definition daylight_names : list str := [lit "DTSTART"; lit "TZOFFSETTO"; lit "TZOFFSETFROM"; lit "RRULE"; lit "COMMENT"; lit "RDATE"; lit "TZNAME"].
Definition daylight_required : list str := [lit "DTSTART"; lit "TZOFFSETTO"; lit "TZOFFSETFROM"].
Definition daylight_read (ls : list content_line) (v : daylight) : Prop :=
  required parse_date (lit "DTSTART") ls (dl_dtstart v) /\
  required parse_offset (lit "TZOFFSETTO") ls (dl_tzoffsetto v) /\
  required parse_offset (lit "TZOFFSETFROM") ls (dl_tzoffsetfrom v) /\
  optional parse_rrule (lit "RRULE") ls (dl_rrule v) /\
  repeated parse_text (lit "COMMENT") ls (dl_comment v) /\
  repeated parse_rdate (lit "RDATE") ls (dl_rdate v) /\
  repeated parse_text (lit "TZNAME") ls (dl_tzname v) /\
  extensions daylight_names ls (dl_x_prop v) (dl_iana_prop v).

(** src/components/vtimezone.rs:6-19 *)
Definition vtimezone_names : list str := [lit "TZID"; lit "LAST-MODIFIED"; lit "TZURL"].
Definition vtimezone_required : list str := [lit "TZID"].
Definition vtimezone_read (ls : list content_line) (v : vtimezone) : Prop :=
  required parse_text (lit "TZID") ls (tz_tzid v) /\
  optional parse_datetime (lit "LAST-MODIFIED") ls (tz_last_modified v) /\
  optional parse_uri (lit "TZURL") ls (tz_tzurl v) /\
  tz_standard v = [] /\
  tz_daylight v = [] /\
  extensions vtimezone_names ls (tz_x_prop v) (tz_iana_prop v).

(** src/components/vcalendar.rs:4-26 *)
Definition vcalendar_names : list str := [lit "PRODID"; lit "VERSION"; lit "CALSCALE"; lit "METHOD"].
Definition vcalendar_required : list str := [lit "PRODID"; lit "VERSION"].
Definition vcalendar_read (ls : list content_line) (v : vcalendar) : Prop :=
  required parse_text (lit "PRODID") ls (ca_prodid v) /\
  required parse_text (lit "VERSION") ls (ca_version v) /\
  optional parse_text (lit "CALSCALE") ls (ca_calscale v) /\
  optional parse_text (lit "METHOD") ls (ca_method v) /\
  ca_alarms v = [] /\
  ca_events v = [] /\
  ca_freebusy v = [] /\
  ca_journals v = [] /\
  ca_todo v = [] /\
  ca_timezones v = [] /\
  extensions vcalendar_names ls (ca_x_prop v) (ca_iana_prop v).
End Fields.
