(** * What a file means: the values that a text stands for, end to end, without any of the parsers.

    Texts, numbers, dates and the other single values are those of SpecValue.v, SpecCal.v, SpecDur.v and of the grammars of C27-C34;
    lines are those of SpecLine.v. *)
From Verif Require Import Base Env Chrono Types SpecText SpecLine SpecComp SpecFields SpecFile SpecCal SpecDur SpecValue Parser Components PropVocab PropValue.

(** ** The value of a content line *)
Definition says_text (c : content_line) (t : text) : Prop := t_params t = cl_params c /\ t_text t = cl_value c.
Definition says_uri (c : content_line) (u : uri) : Prop := u_params u = cl_params c /\ u_uri u = cl_value c.
Definition says_datetime (c : content_line) (t : datetime) : Prop := reads_datetime (cl_value c) t.
Definition says_date (c : content_line) (d : date) : Prop := reads_date (cl_value c) d.
Definition says_duration (c : content_line) (d : tdelta) : Prop := reads_duration (cl_value c) d.
Definition says_trigger (c : content_line) (t : trigger) : Prop :=
  match t with TrDuration d => reads_duration (cl_value c) d | TrDateTime d => reads_datetime (cl_value c) d end.
Definition says_number (most : Z) (c : content_line) (n : Z) : Prop := unsigned_text (cl_value c) n /\ n <= most.
Definition says_texts (c : content_line) (l : list text) : Prop := commas_of (fun s t => t_params t = [] /\ t_text t = s) (cl_value c) l.
Definition says_dates (c : content_line) (l : list date) : Prop := commas_of reads_date (cl_value c) l.
Definition says_periods (c : content_line) (l : list period) : Prop := commas_of reads_period (cl_value c) l.
Definition says_rdate (c : content_line) (r : rdate) : Prop :=
  match r with
  | RPeriods l => mget (lit "VALUE") (cl_params c) = Some (lit "PERIOD") /\ says_periods c l
  | RDates l => mget (lit "VALUE") (cl_params c) <> Some (lit "PERIOD") /\ says_dates c l
  end.
Definition says_offset (c : content_line) (o : Z) : Prop := reads_offset (cl_value c) o.
(** Names are case-sensitive; any other class is a custom one, any other status or transparency is none. *)
Definition says_class (c : content_line) (k : class) : Prop :=
  match k with
  | Public => cl_value c = lit "PUBLIC" | Private => cl_value c = lit "PRIVATE" | Confidential => cl_value c = lit "CONFIDENTIAL"
  | Custom s => s = cl_value c /\ s <> lit "PUBLIC" /\ s <> lit "PRIVATE" /\ s <> lit "CONFIDENTIAL"
  end.
Definition says_status (c : content_line) (s : status) : Prop :=
  cl_value c = match s with
  | Tentative => lit "TENTATIVE" | Confirmed => lit "CONFIRMED" | Cancelled => lit "CANCELLED" | NeedsAction => lit "NEEDS-ACTION"
  | Completed => lit "COMPLETED" | InProcess => lit "IN-PROCESS" | Draft => lit "DRAFT" | Final => lit "FINAL"
  end.
Definition says_transp (c : content_line) (t : transparency) : Prop :=
  cl_value c = match t with Opaque => lit "OPAQUE" | Transparent => lit "TRANSPARENT" end.
Definition says_rule (c : content_line) (r : recur) : Prop := exists l, rule_parts (cl_value c) l /\ rule_says l r.

(** ** Which lines a field takes its value from *)
Section Kinds.
  Context {T : Type}.
  (** A required property: its last line. *)
  Definition must (says : content_line -> T -> Prop) (n : str) (ls : list content_line) (v : T) : Prop := exists l, last_line n ls l /\ says l v.
  (** An optional one: no line at all, or its last line, all being valid. *)
  Definition may (says : content_line -> T -> Prop) (n : str) (ls : list content_line) (o : option T) : Prop :=
    (forall l, In l ls -> cl_key l = n -> exists v, says l v) /\ match o with Some v => must says n ls v | None => absent n ls end.
  (** A repeated one: each line, in order. *)
  Definition each (says : content_line -> T -> Prop) (n : str) (ls : list content_line) (vs : list T) : Prop := Forall2 says (lines_named n ls) vs.
  (** A list: the entries of all the lines, in order. *)
  Definition joined (says : content_line -> list T -> Prop) (n : str) (ls : list content_line) (vs : list T) : Prop :=
    exists vss, Forall2 says (lines_named n ls) vss /\ vs = concat vss.
End Kinds.

(** ** Unfolding: a text made of parts without CRLF SPACE, with CRLF SPACE between them, stands for the parts put together *)
Definition unfolds (s t : str) : Prop :=
  exists parts, parts <> [] /\ Forall (fun p => ~ contains FOLD p) parts /\ s = folded parts /\ t = concat parts.

Section Meaning.
Context {E : Env}.
(** Two numbers as nom reads them (the one thing about texts that the model leaves open), the ';' between. *)
Definition says_geo (c : content_line) (g : geo) : Prop :=
  exists rest rest', f32_parse (cl_value c) = Some (59 :: rest, g_lat g) /\ f32_parse rest = Some (rest', g_lon g).
(** A number, ';', a description up to the next ';' if there is one, and what follows. *)
Definition says_rstatus (c : content_line) (r : request_status) : Prop :=
  exists rest, f32_parse (cl_value c) = Some (59 :: rest, rs_code r) /\ ~ In 59 (rs_desc r) /\
    match rs_ext r with None => rest = rs_desc r | Some x => rest = rs_desc r ++ [59] ++ x end.

(** ** Components: the same names of properties as in SpecFields.v *)
(** src/components/valarm.rs:73-84 *)
Definition audio_means (ls : list content_line) (v : audio) : Prop :=
  must says_text (lit "ACTION") ls (au_action v) /\
  must says_trigger (lit "TRIGGER") ls (au_trigger v) /\
  may says_duration (lit "DURATION") ls (au_duration v) /\
  may (says_number 4294967295) (lit "REPEAT") ls (au_repeat v) /\
  each says_text (lit "ATTACH") ls (au_attach v) /\
  extensions audio_names ls (au_x_prop v) (au_iana_prop v).
(** src/components/valarm.rs:101-112 *)
Definition display_means (ls : list content_line) (v : display) : Prop :=
  must says_text (lit "ACTION") ls (di_action v) /\
  must says_trigger (lit "TRIGGER") ls (di_trigger v) /\
  must says_text (lit "DESCRIPTION") ls (di_description v) /\
  may says_duration (lit "DURATION") ls (di_duration v) /\
  may (says_number 4294967295) (lit "REPEAT") ls (di_repeat v) /\
  extensions display_names ls (di_x_prop v) (di_iana_prop v).
(** src/components/valarm.rs:129-143 *)
Definition email_means (ls : list content_line) (v : email) : Prop :=
  must says_text (lit "ACTION") ls (em_action v) /\
  must says_trigger (lit "TRIGGER") ls (em_trigger v) /\
  must says_text (lit "DESCRIPTION") ls (em_description v) /\
  must says_text (lit "SUMMARY") ls (em_summary v) /\
  each says_uri (lit "ATTENDEE") ls (em_attendee v) /\
  may says_duration (lit "DURATION") ls (em_duration v) /\
  may (says_number 4294967295) (lit "REPEAT") ls (em_repeat v) /\
  each says_text (lit "ATTACH") ls (em_attach v) /\
  extensions email_names ls (em_x_prop v) (em_iana_prop v).
(** src/components/vevent.rs:4-45 *)
Definition vevent_means (ls : list content_line) (v : vevent) : Prop :=
  must says_datetime (lit "DTSTAMP") ls (ev_dtstamp v) /\
  must says_text (lit "UID") ls (ev_uid v) /\
  must says_date (lit "DTSTART") ls (ev_dtstart v) /\
  may says_class (lit "CLASS") ls (ev_class v) /\
  may says_datetime (lit "CREATED") ls (ev_created v) /\
  may says_text (lit "DESCRIPTION") ls (ev_description v) /\
  may says_geo (lit "GEO") ls (ev_geo v) /\
  may says_datetime (lit "LAST-MODIFIED") ls (ev_last_modified v) /\
  may says_text (lit "LOCATION") ls (ev_location v) /\
  may says_uri (lit "ORGANIZER") ls (ev_organizer v) /\
  may (says_number 9) (lit "PRIORITY") ls (ev_priority v) /\
  may (says_number 4294967295) (lit "SEQUENCE") ls (ev_sequence v) /\
  may says_status (lit "STATUS") ls (ev_status v) /\
  may says_text (lit "SUMMARY") ls (ev_summary v) /\
  may says_transp (lit "TRANSP") ls (ev_transp v) /\
  may says_uri (lit "URL") ls (ev_url v) /\
  may says_date (lit "RECURID") ls (ev_recurid v) /\
  may says_rule (lit "RRULE") ls (ev_rrule v) /\
  may says_date (lit "DTEND") ls (ev_dtend v) /\
  may says_duration (lit "DURATION") ls (ev_duration v) /\
  each says_text (lit "ATTACH") ls (ev_attach v) /\
  each says_uri (lit "ATTENDEE") ls (ev_attendee v) /\
  joined says_texts (lit "CATEGORIES") ls (ev_categories v) /\
  each says_text (lit "COMMENT") ls (ev_comment v) /\
  each says_text (lit "CONTACT") ls (ev_contact v) /\
  joined says_dates (lit "EXDATE") ls (ev_exdate v) /\
  each says_rstatus (lit "RSTATUS") ls (ev_rstatus v) /\
  each says_text (lit "RELATED-TO") ls (ev_related_to v) /\
  joined says_texts (lit "RESOURCES") ls (ev_resources v) /\
  each says_rdate (lit "RDATE") ls (ev_rdate v) /\
  ev_alarms v = [] /\
  extensions vevent_names ls (ev_x_prop v) (ev_iana_prop v).
(** src/components/vfreebusy.rs:4-22 *)
Definition vfreebusy_means (ls : list content_line) (v : vfreebusy) : Prop :=
  must says_datetime (lit "DTSTAMP") ls (fb_dtstamp v) /\
  must says_text (lit "UID") ls (fb_uid v) /\
  may says_text (lit "CONTACT") ls (fb_contact v) /\
  may says_date (lit "DTSTART") ls (fb_dtstart v) /\
  may says_date (lit "DTEND") ls (fb_dtend v) /\
  may says_uri (lit "ORGANIZER") ls (fb_organizer v) /\
  may says_uri (lit "URL") ls (fb_url v) /\
  each says_uri (lit "ATTENDEE") ls (fb_attendee v) /\
  each says_text (lit "COMMENT") ls (fb_comment v) /\
  joined says_periods (lit "FREEBUSY") ls (fb_freebusy v) /\
  each says_rstatus (lit "RSTATUS") ls (fb_rstatus v) /\
  extensions vfreebusy_names ls (fb_x_prop v) (fb_iana_prop v).
(** src/components/vjournal.rs:4-35 *)
Definition vjournal_means (ls : list content_line) (v : vjournal) : Prop :=
  must says_datetime (lit "DTSTAMP") ls (jo_dtstamp v) /\
  must says_text (lit "UID") ls (jo_uid v) /\
  may says_class (lit "CLASS") ls (jo_class v) /\
  may says_datetime (lit "CREATED") ls (jo_created v) /\
  must says_date (lit "DTSTART") ls (jo_dtstart v) /\
  may says_datetime (lit "LAST-MODIFIED") ls (jo_last_modified v) /\
  may says_uri (lit "ORGANIZER") ls (jo_organizer v) /\
  may says_date (lit "RECURID") ls (jo_recurid v) /\
  may (says_number 4294967295) (lit "SEQUENCE") ls (jo_sequence v) /\
  may says_status (lit "STATUS") ls (jo_status v) /\
  may says_text (lit "SUMMARY") ls (jo_summary v) /\
  may says_uri (lit "URL") ls (jo_url v) /\
  may says_rule (lit "RRULE") ls (jo_rrule v) /\
  each says_text (lit "ATTACH") ls (jo_attach v) /\
  each says_uri (lit "ATTENDEE") ls (jo_attendee v) /\
  joined says_texts (lit "CATEGORIES") ls (jo_categories v) /\
  each says_text (lit "COMMENT") ls (jo_comment v) /\
  each says_text (lit "CONTACT") ls (jo_contact v) /\
  each says_text (lit "DESCRIPTION") ls (jo_description v) /\
  joined says_dates (lit "EXDATE") ls (jo_exdate v) /\
  each says_text (lit "RELATED-TO") ls (jo_related_to v) /\
  each says_rdate (lit "RDATE") ls (jo_rdate v) /\
  each says_rstatus (lit "RSTATUS") ls (jo_rstatus v) /\
  extensions vjournal_names ls (jo_x_prop v) (jo_iana_prop v).
(** src/components/vtodo.rs:4-43 *)
Definition vtodo_means (ls : list content_line) (v : vtodo) : Prop :=
  must says_datetime (lit "DTSTAMP") ls (to_dtstamp v) /\
  must says_text (lit "UID") ls (to_uid v) /\
  may says_class (lit "CLASS") ls (to_class v) /\
  may says_datetime (lit "COMPLETED") ls (to_completed v) /\
  may says_datetime (lit "CREATED") ls (to_created v) /\
  may says_date (lit "DTSTART") ls (to_dtstart v) /\
  may says_geo (lit "GEO") ls (to_geo v) /\
  may says_datetime (lit "LAST-MODIFIED") ls (to_last_modified v) /\
  may says_text (lit "LOCATION") ls (to_location v) /\
  may says_uri (lit "ORGANIZER") ls (to_organizer v) /\
  may (says_number 255) (lit "PERCENT-COMPLETE") ls (to_percent_complete v) /\
  may (says_number 9) (lit "PRIORITY") ls (to_priority v) /\
  may says_date (lit "RECURID") ls (to_recurid v) /\
  may (says_number 4294967295) (lit "SEQUENCE") ls (to_sequence v) /\
  may says_status (lit "STATUS") ls (to_status v) /\
  may says_text (lit "SUMMARY") ls (to_summary v) /\
  may says_uri (lit "URL") ls (to_url v) /\
  may says_rule (lit "RRULE") ls (to_rrule v) /\
  may says_date (lit "DUE") ls (to_due v) /\
  may says_duration (lit "DURATION") ls (to_duration v) /\
  each says_text (lit "ATTACH") ls (to_attach v) /\
  each says_uri (lit "ATTENDEE") ls (to_attendee v) /\
  joined says_texts (lit "CATEGORIES") ls (to_categories v) /\
  each says_text (lit "COMMENT") ls (to_comment v) /\
  each says_text (lit "CONTACT") ls (to_contact v) /\
  joined says_dates (lit "EXDATE") ls (to_exdate v) /\
  each says_rstatus (lit "RSTATUS") ls (to_rstatus v) /\
  each says_text (lit "RELATED-TO") ls (to_related_to v) /\
  joined says_texts (lit "RESOURCES") ls (to_resources v) /\
  each says_rdate (lit "RDATE") ls (to_rdate v) /\
  extensions vtodo_names ls (to_x_prop v) (to_iana_prop v).
(** src/components/vtimezone.rs:34-49,76 *)
Definition standard_means (ls : list content_line) (v : standard) : Prop :=
  must says_date (lit "DTSTART") ls (st_dtstart v) /\
  must says_offset (lit "TZOFFSETTO") ls (st_tzoffsetto v) /\
  must says_offset (lit "TZOFFSETFROM") ls (st_tzoffsetfrom v) /\
  may says_rule (lit "RRULE") ls (st_rrule v) /\
  each says_text (lit "COMMENT") ls (st_comment v) /\
  each says_rdate (lit "RDATE") ls (st_rdate v) /\
  each says_text (lit "TZNAME") ls (st_tzname v) /\
  extensions standard_names ls (st_x_prop v) (st_iana_prop v).
(** src/components/vtimezone.rs:34-49,77 *)
Definition daylight_means (ls : list content_line) (v : daylight) : Prop :=
  must says_date (lit "DTSTART") ls (dl_dtstart v) /\
  must says_offset (lit "TZOFFSETTO") ls (dl_tzoffsetto v) /\
  must says_offset (lit "TZOFFSETFROM") ls (dl_tzoffsetfrom v) /\
  may says_rule (lit "RRULE") ls (dl_rrule v) /\
  each says_text (lit "COMMENT") ls (dl_comment v) /\
  each says_rdate (lit "RDATE") ls (dl_rdate v) /\
  each says_text (lit "TZNAME") ls (dl_tzname v) /\
  extensions daylight_names ls (dl_x_prop v) (dl_iana_prop v).
(** src/components/vtimezone.rs:6-19 *)
Definition vtimezone_means (ls : list content_line) (v : vtimezone) : Prop :=
  must says_text (lit "TZID") ls (tz_tzid v) /\
  may says_datetime (lit "LAST-MODIFIED") ls (tz_last_modified v) /\
  may says_uri (lit "TZURL") ls (tz_tzurl v) /\
  tz_standard v = [] /\
  tz_daylight v = [] /\
  extensions vtimezone_names ls (tz_x_prop v) (tz_iana_prop v).
(** src/components/vcalendar.rs:4-26 *)
Definition vcalendar_means (ls : list content_line) (v : vcalendar) : Prop :=
  must says_text (lit "PRODID") ls (ca_prodid v) /\
  must says_text (lit "VERSION") ls (ca_version v) /\
  may says_text (lit "CALSCALE") ls (ca_calscale v) /\
  may says_text (lit "METHOD") ls (ca_method v) /\
  ca_alarms v = [] /\
  ca_events v = [] /\
  ca_freebusy v = [] /\
  ca_journals v = [] /\
  ca_todo v = [] /\
  ca_timezones v = [] /\
  extensions vcalendar_names ls (ca_x_prop v) (ca_iana_prop v).

(** ** Texts *)
Definition valarm_means (ls : list content_line) (a : valarm) : Prop :=
  exists l, first_line (lit "ACTION") ls l /\
  match a with
  | AAudio x => cl_value l = lit "AUDIO" /\ audio_means ls x
  | ADisplay x => cl_value l = lit "DISPLAY" /\ display_means ls x
  | AEmail x => cl_value l = lit "EMAIL" /\ email_means ls x
  end.
Definition alarm_stands := simple_text (lit "VALARM") valarm_means.
Definition event_stands (s : str) (v : vevent) (rest : str) : Prop :=
  exists t ls t2 v0, s = lit "BEGIN:VEVENT" ++ [CR; LF] ++ t /\
    lines_text t ls t2 /\
    seq_text alarm_stands t2 (ev_alarms v) (lit "END:VEVENT" ++ [CR; LF] ++ rest) /\
    vevent_means ls v0 /\ v = set_ev_alarms v0 (ev_alarms v).
Definition tz_part_stands (s : str) (c : tz_part) (rest : str) : Prop :=
  match c with
  | TStandard x => simple_text (lit "STANDARD") standard_means s x rest
  | TDaylight x => simple_text (lit "DAYLIGHT") daylight_means s x rest
  end.
Definition timezone_stands (s : str) (v : vtimezone) (rest : str) : Prop :=
  exists t ls t2 cs v0, s = lit "BEGIN:VTIMEZONE" ++ [CR; LF] ++ t /\
    lines_text t ls t2 /\
    seq_text tz_part_stands t2 cs (lit "END:VTIMEZONE" ++ [CR; LF] ++ rest) /\
    vtimezone_means ls v0 /\ v = set_tz_daylight (set_tz_standard v0 (tz_standard v)) (tz_daylight v) /\
    tz_standard v = flat_map (fun c => match c with TStandard x => [x] | _ => [] end) cs /\
    tz_daylight v = flat_map (fun c => match c with TDaylight x => [x] | _ => [] end) cs.
Definition child_stands (s : str) (c : component) (rest : str) : Prop :=
  match c with
  | CAlarm x => alarm_stands s x rest
  | CEvent x => event_stands s x rest
  | CFreebusy x => simple_text (lit "VFREEBUSY") vfreebusy_means s x rest
  | CJournal x => simple_text (lit "VJOURNAL") vjournal_means s x rest
  | CTimezone x => timezone_stands s x rest
  | CTodo x => simple_text (lit "VTODO") vtodo_means s x rest
  end.
Definition calendar_stands (s : str) (v : vcalendar) (rest : str) : Prop :=
  exists t ls t2 cs v0, s = lit "BEGIN:VCALENDAR" ++ [CR; LF] ++ t /\ lines_text t ls t2 /\
    seq_text child_stands t2 cs (lit "END:VCALENDAR" ++ rest) /\ vcalendar_means ls v0 /\
    ca_alarms v = alarms_of cs /\ ca_events v = events_of cs /\ ca_freebusy v = freebusy_of cs /\
    ca_journals v = journals_of cs /\ ca_timezones v = timezones_of cs /\ ca_todo v = todos_of cs /\
    ca_prodid v = ca_prodid v0 /\ ca_version v = ca_version v0 /\ ca_calscale v = ca_calscale v0 /\
    ca_method v = ca_method v0 /\ ca_x_prop v = ca_x_prop v0 /\ ca_iana_prop v = ca_iana_prop v0.
(** A file stands for [v]: unfolded, it is the text of a value and whatever comes after. *)
Definition file_of {A} (stands : str -> A -> str -> Prop) (s : str) (v : A) : Prop := exists t rest, unfolds s t /\ stands t v rest.
End Meaning.
