(** * Components: src/components and src/parser/components.rs.

    For each component: the record, its schema (property names and kinds of
    fields, in order, as the derive macro reads them), the conversions between
    the record and the generic form of Derive.v, and the generated functions.
    The records, schemas and conversions are generated from the same list. *)
From Verif Require Import Base Env Chrono Nom Types Ser Parser Derive.

Section Components.
Context {E : Env}.

(** src/components/valarm.rs:73-84 *)
Record audio := mk_audio {
  au_action : text;
  au_trigger : trigger;
  au_duration : option tdelta;
  au_repeat : option Z;
  au_attach : list text;
  au_x_prop : smap content_line;
  au_iana_prop : smap content_line;
}.
(** The fields of src/components/valarm.rs:73-84, as derive/src/component.rs:33-97 reads them. *)
Definition audio_schema : schema := [
  (lit "ACTION", FReq ser_text parse_text);
  (lit "TRIGGER", FReq ser_trigger parse_trigger);
  (lit "DURATION", FOpt ser_td parse_dur);
  (lit "REPEAT", FOpt ser_u32 parse_u32);
  (lit "ATTACH", FVec ser_text parse_text)].
(** Record to generic form and back; no counterpart in /repo, where the macro
    works on the struct of src/components/valarm.rs:73-84 itself. *)
Definition audio_to (v : audio) : comp audio_schema :=
  @mk_comp audio_schema
    (au_action v, (au_trigger v, (au_duration v, (au_repeat v, (au_attach v, tt)))))
    (au_x_prop v) (au_iana_prop v).
Definition audio_of (c : comp audio_schema) : audio :=
  match c with mk_comp vs x i =>
    match vs with (x0, (x1, (x2, (x3, (x4, _))))) =>
    mk_audio x0 x1 x2 x3 x4 x i
    end
  end.
Lemma audio_of_to v : audio_of (audio_to v) = v.
Proof. destruct v; reflexivity. Qed.
Lemma audio_to_of c : audio_to (audio_of c) = c.
Proof. destruct c as [vs x i]; cbn in vs. repeat match goal with v : (_ * _)%type |- _ => destruct v | v : unit |- _ => destruct v end. reflexivity. Qed.
(** derive/src/component.rs:102-126 for this struct *)
Definition audio_of_lines (ls : list content_line) : outcome audio :=
  omap audio_of (comp_of_lines audio_schema ls).
(** derive/src/component.rs:157-177 for this struct *)
Definition ser_audio : serialize audio := ser_iso (lit "AUDIO") audio_schema audio_to.
(** Assignment to a field of the struct of src/components/valarm.rs:73-84. *)
Definition set_au_action (v : audio) (x : text) : audio :=
  mk_audio x (au_trigger v) (au_duration v) (au_repeat v) (au_attach v) (au_x_prop v) (au_iana_prop v).

(** src/components/valarm.rs:101-112 *)
Record display := mk_display {
  di_action : text;
  di_trigger : trigger;
  di_description : text;
  di_duration : option tdelta;
  di_repeat : option Z;
  di_x_prop : smap content_line;
  di_iana_prop : smap content_line;
}.
(** The fields of src/components/valarm.rs:101-112, as derive/src/component.rs:33-97 reads them. *)
Definition display_schema : schema := [
  (lit "ACTION", FReq ser_text parse_text);
  (lit "TRIGGER", FReq ser_trigger parse_trigger);
  (lit "DESCRIPTION", FReq ser_text parse_text);
  (lit "DURATION", FOpt ser_td parse_dur);
  (lit "REPEAT", FOpt ser_u32 parse_u32)].
(** Record to generic form and back; no counterpart in /repo, where the macro
    works on the struct of src/components/valarm.rs:101-112 itself. *)
Definition display_to (v : display) : comp display_schema :=
  @mk_comp display_schema
    (di_action v, (di_trigger v, (di_description v, (di_duration v, (di_repeat v, tt)))))
    (di_x_prop v) (di_iana_prop v).
Definition display_of (c : comp display_schema) : display :=
  match c with mk_comp vs x i =>
    match vs with (x0, (x1, (x2, (x3, (x4, _))))) =>
    mk_display x0 x1 x2 x3 x4 x i
    end
  end.
Lemma display_of_to v : display_of (display_to v) = v.
Proof. destruct v; reflexivity. Qed.
Lemma display_to_of c : display_to (display_of c) = c.
Proof. destruct c as [vs x i]; cbn in vs. repeat match goal with v : (_ * _)%type |- _ => destruct v | v : unit |- _ => destruct v end. reflexivity. Qed.
(** derive/src/component.rs:102-126 for this struct *)
Definition display_of_lines (ls : list content_line) : outcome display :=
  omap display_of (comp_of_lines display_schema ls).
(** derive/src/component.rs:157-177 for this struct *)
Definition ser_display_alarm : serialize display := ser_iso (lit "DISPLAY") display_schema display_to.
(** Assignment to a field of the struct of src/components/valarm.rs:101-112. *)
Definition set_di_action (v : display) (x : text) : display :=
  mk_display x (di_trigger v) (di_description v) (di_duration v) (di_repeat v) (di_x_prop v) (di_iana_prop v).

(** src/components/valarm.rs:129-143 *)
Record email := mk_email {
  em_action : text;
  em_trigger : trigger;
  em_description : text;
  em_summary : text;
  em_attendee : list uri;
  em_duration : option tdelta;
  em_repeat : option Z;
  em_attach : list text;
  em_x_prop : smap content_line;
  em_iana_prop : smap content_line;
}.
(** The fields of src/components/valarm.rs:129-143, as derive/src/component.rs:33-97 reads them. *)
Definition email_schema : schema := [
  (lit "ACTION", FReq ser_text parse_text);
  (lit "TRIGGER", FReq ser_trigger parse_trigger);
  (lit "DESCRIPTION", FReq ser_text parse_text);
  (lit "SUMMARY", FReq ser_text parse_text);
  (lit "ATTENDEE", FVec ser_uri parse_uri);
  (lit "DURATION", FOpt ser_td parse_dur);
  (lit "REPEAT", FOpt ser_u32 parse_u32);
  (lit "ATTACH", FVec ser_text parse_text)].
(** Record to generic form and back; no counterpart in /repo, where the macro
    works on the struct of src/components/valarm.rs:129-143 itself. *)
Definition email_to (v : email) : comp email_schema :=
  @mk_comp email_schema
    (em_action v, (em_trigger v, (em_description v, (em_summary v, (em_attendee v, (em_duration v, (em_repeat v, (em_attach v, tt))))))))
    (em_x_prop v) (em_iana_prop v).
Definition email_of (c : comp email_schema) : email :=
  match c with mk_comp vs x i =>
    match vs with (x0, (x1, (x2, (x3, (x4, (x5, (x6, (x7, _)))))))) =>
    mk_email x0 x1 x2 x3 x4 x5 x6 x7 x i
    end
  end.
Lemma email_of_to v : email_of (email_to v) = v.
Proof. destruct v; reflexivity. Qed.
Lemma email_to_of c : email_to (email_of c) = c.
Proof. destruct c as [vs x i]; cbn in vs. repeat match goal with v : (_ * _)%type |- _ => destruct v | v : unit |- _ => destruct v end. reflexivity. Qed.
(** derive/src/component.rs:102-126 for this struct *)
Definition email_of_lines (ls : list content_line) : outcome email :=
  omap email_of (comp_of_lines email_schema ls).
(** derive/src/component.rs:157-177 for this struct *)
Definition ser_email : serialize email := ser_iso (lit "EMAIL") email_schema email_to.
(** Assignment to a field of the struct of src/components/valarm.rs:129-143. *)
Definition set_em_action (v : email) (x : text) : email :=
  mk_email x (em_trigger v) (em_description v) (em_summary v) (em_attendee v) (em_duration v) (em_repeat v) (em_attach v) (em_x_prop v) (em_iana_prop v).


(** src/components/valarm.rs:4-9 *)
Inductive valarm := AAudio (a : audio) | ADisplay (a : display) | AEmail (a : email).

(** src/components/valarm.rs:11-27 [TryFrom<Vec<ContentLine>> for VAlarm]: the
    kind is read from the first ACTION line, whose absence panics. *)
Definition valarm_of_lines (ls : list content_line) : outcome valarm :=
  match find (fun l => str_eqb (cl_key l) (lit "ACTION")) ls with
  | None => Panic
  | Some l =>
      if str_eqb (cl_value l) (lit "AUDIO") then omap AAudio (audio_of_lines ls)
      else if str_eqb (cl_value l) (lit "DISPLAY") then omap ADisplay (display_of_lines ls)
      else if str_eqb (cl_value l) (lit "EMAIL") then omap AEmail (email_of_lines ls)
      else Err (EAlarm (cl_value l))
  end.
(** src/components/valarm.rs:63-69: [split("\n")], first line replaced, last two
    dropped, END pushed, [join("\n")] *)
Definition reframe (s : str) : str :=
  let lines := split_on LF s in
  let lines := match lines with [] => [] | _ :: r => (lit "BEGIN:VALARM" ++ [CR]) :: r end in
  join [LF] (pop (pop lines) ++ [lit "END:VALARM" ++ CRLF]).
(** src/components/valarm.rs:55-71; [component()] is the default [None]. *)
Definition valarm_ical (a : valarm) : outcome str :=
  let* s := match a with
            | AAudio a => s_ical ser_audio a
            | ADisplay a => s_ical ser_display_alarm a
            | AEmail a => s_ical ser_email a
            end in
  Ok (reframe s).
Definition ser_valarm : serialize valarm := mk_ser None (fun _ => None) valarm_ical.
(** src/components/valarm.rs:93-99,121-127,153-159 [From<Audio|Display|Email> for VAlarm] *)
Definition valarm_of_audio (a : audio) : valarm := AAudio (set_au_action a (text_of_str (lit "AUDIO"))).
Definition valarm_of_display (a : display) : valarm := ADisplay (set_di_action a (text_of_str (lit "DISPLAY"))).
Definition valarm_of_email (a : email) : valarm := AEmail (set_em_action a (text_of_str (lit "EMAIL"))).

(** src/components/vevent.rs:4-45 *)
Record vevent := mk_vevent {
  ev_dtstamp : datetime;
  ev_uid : text;
  ev_dtstart : date;
  ev_class : option class;
  ev_created : option datetime;
  ev_description : option text;
  ev_geo : option geo;
  ev_last_modified : option datetime;
  ev_location : option text;
  ev_organizer : option uri;
  ev_priority : option Z;
  ev_sequence : option Z;
  ev_status : option status;
  ev_summary : option text;
  ev_transp : option transparency;
  ev_url : option uri;
  ev_recurid : option date;
  ev_rrule : option recur;
  ev_dtend : option date;
  ev_duration : option tdelta;
  ev_attach : list text;
  ev_attendee : list uri;
  ev_categories : list text;
  ev_comment : list text;
  ev_contact : list text;
  ev_exdate : list date;
  ev_rstatus : list request_status;
  ev_related_to : list text;
  ev_resources : list text;
  ev_rdate : list rdate;
  ev_alarms : list valarm;
  ev_x_prop : smap content_line;
  ev_iana_prop : smap content_line;
}.
(** The fields of src/components/vevent.rs:4-45, as derive/src/component.rs:33-97 reads them. *)
Definition vevent_schema : schema := [
  (lit "DTSTAMP", FReq ser_datetime parse_datetime);
  (lit "UID", FReq ser_text parse_text);
  (lit "DTSTART", FReq ser_date parse_date);
  (lit "CLASS", FOpt ser_class parse_class);
  (lit "CREATED", FOpt ser_datetime parse_datetime);
  (lit "DESCRIPTION", FOpt ser_text parse_text);
  (lit "GEO", FOpt ser_geo parse_geo);
  (lit "LAST-MODIFIED", FOpt ser_datetime parse_datetime);
  (lit "LOCATION", FOpt ser_text parse_text);
  (lit "ORGANIZER", FOpt ser_uri parse_uri);
  (lit "PRIORITY", FOpt ser_u8 parse_priority);
  (lit "SEQUENCE", FOpt ser_u32 parse_u32);
  (lit "STATUS", FOpt ser_status parse_status);
  (lit "SUMMARY", FOpt ser_text parse_text);
  (lit "TRANSP", FOpt ser_transp parse_transp);
  (lit "URL", FOpt ser_uri parse_uri);
  (lit "RECURID", FOpt ser_date parse_date);
  (lit "RRULE", FOpt ser_recur parse_rrule);
  (lit "DTEND", FOpt ser_date parse_date);
  (lit "DURATION", FOpt ser_td parse_dur);
  (lit "ATTACH", FVec ser_text parse_text);
  (lit "ATTENDEE", FVec ser_uri parse_uri);
  (lit "CATEGORIES", FApp ser_text parse_texts);
  (lit "COMMENT", FVec ser_text parse_text);
  (lit "CONTACT", FVec ser_text parse_text);
  (lit "EXDATE", FApp ser_date parse_exdate);
  (lit "RSTATUS", FVec ser_rs parse_rstatus);
  (lit "RELATED-TO", FVec ser_text parse_text);
  (lit "RESOURCES", FApp ser_text parse_texts);
  (lit "RDATE", FVec ser_rdate parse_rdate);
  (lit "ALARMS", FIgn ser_valarm)].
(** Record to generic form and back; no counterpart in /repo, where the macro
    works on the struct of src/components/vevent.rs:4-45 itself. *)
Definition vevent_to (v : vevent) : comp vevent_schema :=
  @mk_comp vevent_schema
    (ev_dtstamp v, (ev_uid v, (ev_dtstart v, (ev_class v, (ev_created v, (ev_description v, (ev_geo v, (ev_last_modified v, (ev_location v, (ev_organizer v, (ev_priority v, (ev_sequence v, (ev_status v, (ev_summary v, (ev_transp v, (ev_url v, (ev_recurid v, (ev_rrule v, (ev_dtend v, (ev_duration v, (ev_attach v, (ev_attendee v, (ev_categories v, (ev_comment v, (ev_contact v, (ev_exdate v, (ev_rstatus v, (ev_related_to v, (ev_resources v, (ev_rdate v, (ev_alarms v, tt)))))))))))))))))))))))))))))))
    (ev_x_prop v) (ev_iana_prop v).
Definition vevent_of (c : comp vevent_schema) : vevent :=
  match c with mk_comp vs x i =>
    match vs with (x0, (x1, (x2, (x3, (x4, (x5, (x6, (x7, (x8, (x9, (x10, (x11, (x12, (x13, (x14, (x15, (x16, (x17, (x18, (x19, (x20, (x21, (x22, (x23, (x24, (x25, (x26, (x27, (x28, (x29, (x30, _))))))))))))))))))))))))))))))) =>
    mk_vevent x0 x1 x2 x3 x4 x5 x6 x7 x8 x9 x10 x11 x12 x13 x14 x15 x16 x17 x18 x19 x20 x21 x22 x23 x24 x25 x26 x27 x28 x29 x30 x i
    end
  end.
Lemma vevent_of_to v : vevent_of (vevent_to v) = v.
Proof. destruct v; reflexivity. Qed.
Lemma vevent_to_of c : vevent_to (vevent_of c) = c.
Proof. destruct c as [vs x i]; cbn in vs. repeat match goal with v : (_ * _)%type |- _ => destruct v | v : unit |- _ => destruct v end. reflexivity. Qed.
(** derive/src/component.rs:102-126 for this struct *)
Definition vevent_of_lines (ls : list content_line) : outcome vevent :=
  omap vevent_of (comp_of_lines vevent_schema ls).
(** derive/src/component.rs:157-177 for this struct *)
Definition ser_vevent : serialize vevent := ser_iso (lit "VEVENT") vevent_schema vevent_to.
(** Assignment to a field of the struct of src/components/vevent.rs:4-45. *)
Definition set_ev_dtstart (v : vevent) (x : date) : vevent :=
  mk_vevent (ev_dtstamp v) (ev_uid v) x (ev_class v) (ev_created v) (ev_description v) (ev_geo v) (ev_last_modified v) (ev_location v) (ev_organizer v) (ev_priority v) (ev_sequence v) (ev_status v) (ev_summary v) (ev_transp v) (ev_url v) (ev_recurid v) (ev_rrule v) (ev_dtend v) (ev_duration v) (ev_attach v) (ev_attendee v) (ev_categories v) (ev_comment v) (ev_contact v) (ev_exdate v) (ev_rstatus v) (ev_related_to v) (ev_resources v) (ev_rdate v) (ev_alarms v) (ev_x_prop v) (ev_iana_prop v).
(** Assignment to a field of the struct of src/components/vevent.rs:4-45. *)
Definition set_ev_dtend (v : vevent) (x : option date) : vevent :=
  mk_vevent (ev_dtstamp v) (ev_uid v) (ev_dtstart v) (ev_class v) (ev_created v) (ev_description v) (ev_geo v) (ev_last_modified v) (ev_location v) (ev_organizer v) (ev_priority v) (ev_sequence v) (ev_status v) (ev_summary v) (ev_transp v) (ev_url v) (ev_recurid v) (ev_rrule v) x (ev_duration v) (ev_attach v) (ev_attendee v) (ev_categories v) (ev_comment v) (ev_contact v) (ev_exdate v) (ev_rstatus v) (ev_related_to v) (ev_resources v) (ev_rdate v) (ev_alarms v) (ev_x_prop v) (ev_iana_prop v).
(** Assignment to a field of the struct of src/components/vevent.rs:4-45. *)
Definition set_ev_rrule (v : vevent) (x : option recur) : vevent :=
  mk_vevent (ev_dtstamp v) (ev_uid v) (ev_dtstart v) (ev_class v) (ev_created v) (ev_description v) (ev_geo v) (ev_last_modified v) (ev_location v) (ev_organizer v) (ev_priority v) (ev_sequence v) (ev_status v) (ev_summary v) (ev_transp v) (ev_url v) (ev_recurid v) x (ev_dtend v) (ev_duration v) (ev_attach v) (ev_attendee v) (ev_categories v) (ev_comment v) (ev_contact v) (ev_exdate v) (ev_rstatus v) (ev_related_to v) (ev_resources v) (ev_rdate v) (ev_alarms v) (ev_x_prop v) (ev_iana_prop v).
(** Assignment to a field of the struct of src/components/vevent.rs:4-45. *)
Definition set_ev_alarms (v : vevent) (x : list valarm) : vevent :=
  mk_vevent (ev_dtstamp v) (ev_uid v) (ev_dtstart v) (ev_class v) (ev_created v) (ev_description v) (ev_geo v) (ev_last_modified v) (ev_location v) (ev_organizer v) (ev_priority v) (ev_sequence v) (ev_status v) (ev_summary v) (ev_transp v) (ev_url v) (ev_recurid v) (ev_rrule v) (ev_dtend v) (ev_duration v) (ev_attach v) (ev_attendee v) (ev_categories v) (ev_comment v) (ev_contact v) (ev_exdate v) (ev_rstatus v) (ev_related_to v) (ev_resources v) (ev_rdate v) x (ev_x_prop v) (ev_iana_prop v).

(** src/components/vfreebusy.rs:4-22 *)
Record vfreebusy := mk_vfreebusy {
  fb_dtstamp : datetime;
  fb_uid : text;
  fb_contact : option text;
  fb_dtstart : option date;
  fb_dtend : option date;
  fb_organizer : option uri;
  fb_url : option uri;
  fb_attendee : list uri;
  fb_comment : list text;
  fb_freebusy : list period;
  fb_rstatus : list request_status;
  fb_x_prop : smap content_line;
  fb_iana_prop : smap content_line;
}.
(** The fields of src/components/vfreebusy.rs:4-22, as derive/src/component.rs:33-97 reads them. *)
Definition vfreebusy_schema : schema := [
  (lit "DTSTAMP", FReq ser_datetime parse_datetime);
  (lit "UID", FReq ser_text parse_text);
  (lit "CONTACT", FOpt ser_text parse_text);
  (lit "DTSTART", FOpt ser_date parse_date);
  (lit "DTEND", FOpt ser_date parse_date);
  (lit "ORGANIZER", FOpt ser_uri parse_uri);
  (lit "URL", FOpt ser_uri parse_uri);
  (lit "ATTENDEE", FVec ser_uri parse_uri);
  (lit "COMMENT", FVec ser_text parse_text);
  (lit "FREEBUSY", FApp ser_period parse_freebusy);
  (lit "RSTATUS", FVec ser_rs parse_rstatus)].
(** Record to generic form and back; no counterpart in /repo, where the macro
    works on the struct of src/components/vfreebusy.rs:4-22 itself. *)
Definition vfreebusy_to (v : vfreebusy) : comp vfreebusy_schema :=
  @mk_comp vfreebusy_schema
    (fb_dtstamp v, (fb_uid v, (fb_contact v, (fb_dtstart v, (fb_dtend v, (fb_organizer v, (fb_url v, (fb_attendee v, (fb_comment v, (fb_freebusy v, (fb_rstatus v, tt)))))))))))
    (fb_x_prop v) (fb_iana_prop v).
Definition vfreebusy_of (c : comp vfreebusy_schema) : vfreebusy :=
  match c with mk_comp vs x i =>
    match vs with (x0, (x1, (x2, (x3, (x4, (x5, (x6, (x7, (x8, (x9, (x10, _))))))))))) =>
    mk_vfreebusy x0 x1 x2 x3 x4 x5 x6 x7 x8 x9 x10 x i
    end
  end.
Lemma vfreebusy_of_to v : vfreebusy_of (vfreebusy_to v) = v.
Proof. destruct v; reflexivity. Qed.
Lemma vfreebusy_to_of c : vfreebusy_to (vfreebusy_of c) = c.
Proof. destruct c as [vs x i]; cbn in vs. repeat match goal with v : (_ * _)%type |- _ => destruct v | v : unit |- _ => destruct v end. reflexivity. Qed.
(** derive/src/component.rs:102-126 for this struct *)
Definition vfreebusy_of_lines (ls : list content_line) : outcome vfreebusy :=
  omap vfreebusy_of (comp_of_lines vfreebusy_schema ls).
(** derive/src/component.rs:157-177 for this struct *)
Definition ser_vfreebusy : serialize vfreebusy := ser_iso (lit "VFREEBUSY") vfreebusy_schema vfreebusy_to.

(** src/components/vjournal.rs:4-35 *)
Record vjournal := mk_vjournal {
  jo_dtstamp : datetime;
  jo_uid : text;
  jo_class : option class;
  jo_created : option datetime;
  jo_dtstart : date;
  jo_last_modified : option datetime;
  jo_organizer : option uri;
  jo_recurid : option date;
  jo_sequence : option Z;
  jo_status : option status;
  jo_summary : option text;
  jo_url : option uri;
  jo_rrule : option recur;
  jo_attach : list text;
  jo_attendee : list uri;
  jo_categories : list text;
  jo_comment : list text;
  jo_contact : list text;
  jo_description : list text;
  jo_exdate : list date;
  jo_related_to : list text;
  jo_rdate : list rdate;
  jo_rstatus : list request_status;
  jo_x_prop : smap content_line;
  jo_iana_prop : smap content_line;
}.
(** The fields of src/components/vjournal.rs:4-35, as derive/src/component.rs:33-97 reads them. *)
Definition vjournal_schema : schema := [
  (lit "DTSTAMP", FReq ser_datetime parse_datetime);
  (lit "UID", FReq ser_text parse_text);
  (lit "CLASS", FOpt ser_class parse_class);
  (lit "CREATED", FOpt ser_datetime parse_datetime);
  (lit "DTSTART", FReq ser_date parse_date);
  (lit "LAST-MODIFIED", FOpt ser_datetime parse_datetime);
  (lit "ORGANIZER", FOpt ser_uri parse_uri);
  (lit "RECURID", FOpt ser_date parse_date);
  (lit "SEQUENCE", FOpt ser_u32 parse_u32);
  (lit "STATUS", FOpt ser_status parse_status);
  (lit "SUMMARY", FOpt ser_text parse_text);
  (lit "URL", FOpt ser_uri parse_uri);
  (lit "RRULE", FOpt ser_recur parse_rrule);
  (lit "ATTACH", FVec ser_text parse_text);
  (lit "ATTENDEE", FVec ser_uri parse_uri);
  (lit "CATEGORIES", FApp ser_text parse_texts);
  (lit "COMMENT", FVec ser_text parse_text);
  (lit "CONTACT", FVec ser_text parse_text);
  (lit "DESCRIPTION", FVec ser_text parse_text);
  (lit "EXDATE", FApp ser_date parse_exdate);
  (lit "RELATED-TO", FVec ser_text parse_text);
  (lit "RDATE", FVec ser_rdate parse_rdate);
  (lit "RSTATUS", FVec ser_rs parse_rstatus)].
(** Record to generic form and back; no counterpart in /repo, where the macro
    works on the struct of src/components/vjournal.rs:4-35 itself. *)
Definition vjournal_to (v : vjournal) : comp vjournal_schema :=
  @mk_comp vjournal_schema
    (jo_dtstamp v, (jo_uid v, (jo_class v, (jo_created v, (jo_dtstart v, (jo_last_modified v, (jo_organizer v, (jo_recurid v, (jo_sequence v, (jo_status v, (jo_summary v, (jo_url v, (jo_rrule v, (jo_attach v, (jo_attendee v, (jo_categories v, (jo_comment v, (jo_contact v, (jo_description v, (jo_exdate v, (jo_related_to v, (jo_rdate v, (jo_rstatus v, tt)))))))))))))))))))))))
    (jo_x_prop v) (jo_iana_prop v).
Definition vjournal_of (c : comp vjournal_schema) : vjournal :=
  match c with mk_comp vs x i =>
    match vs with (x0, (x1, (x2, (x3, (x4, (x5, (x6, (x7, (x8, (x9, (x10, (x11, (x12, (x13, (x14, (x15, (x16, (x17, (x18, (x19, (x20, (x21, (x22, _))))))))))))))))))))))) =>
    mk_vjournal x0 x1 x2 x3 x4 x5 x6 x7 x8 x9 x10 x11 x12 x13 x14 x15 x16 x17 x18 x19 x20 x21 x22 x i
    end
  end.
Lemma vjournal_of_to v : vjournal_of (vjournal_to v) = v.
Proof. destruct v; reflexivity. Qed.
Lemma vjournal_to_of c : vjournal_to (vjournal_of c) = c.
Proof. destruct c as [vs x i]; cbn in vs. repeat match goal with v : (_ * _)%type |- _ => destruct v | v : unit |- _ => destruct v end. reflexivity. Qed.
(** derive/src/component.rs:102-126 for this struct *)
Definition vjournal_of_lines (ls : list content_line) : outcome vjournal :=
  omap vjournal_of (comp_of_lines vjournal_schema ls).
(** derive/src/component.rs:157-177 for this struct *)
Definition ser_vjournal : serialize vjournal := ser_iso (lit "VJOURNAL") vjournal_schema vjournal_to.
(** Assignment to a field of the struct of src/components/vjournal.rs:4-35. *)
Definition set_jo_dtstart (v : vjournal) (x : date) : vjournal :=
  mk_vjournal (jo_dtstamp v) (jo_uid v) (jo_class v) (jo_created v) x (jo_last_modified v) (jo_organizer v) (jo_recurid v) (jo_sequence v) (jo_status v) (jo_summary v) (jo_url v) (jo_rrule v) (jo_attach v) (jo_attendee v) (jo_categories v) (jo_comment v) (jo_contact v) (jo_description v) (jo_exdate v) (jo_related_to v) (jo_rdate v) (jo_rstatus v) (jo_x_prop v) (jo_iana_prop v).
(** Assignment to a field of the struct of src/components/vjournal.rs:4-35. *)
Definition set_jo_rrule (v : vjournal) (x : option recur) : vjournal :=
  mk_vjournal (jo_dtstamp v) (jo_uid v) (jo_class v) (jo_created v) (jo_dtstart v) (jo_last_modified v) (jo_organizer v) (jo_recurid v) (jo_sequence v) (jo_status v) (jo_summary v) (jo_url v) x (jo_attach v) (jo_attendee v) (jo_categories v) (jo_comment v) (jo_contact v) (jo_description v) (jo_exdate v) (jo_related_to v) (jo_rdate v) (jo_rstatus v) (jo_x_prop v) (jo_iana_prop v).

(** src/components/vtodo.rs:4-43 *)
Record vtodo := mk_vtodo {
  to_dtstamp : datetime;
  to_uid : text;
  to_class : option class;
  to_completed : option datetime;
  to_created : option datetime;
  to_dtstart : option date;
  to_geo : option geo;
  to_last_modified : option datetime;
  to_location : option text;
  to_organizer : option uri;
  to_percent_complete : option Z;
  to_priority : option Z;
  to_recurid : option date;
  to_sequence : option Z;
  to_status : option status;
  to_summary : option text;
  to_url : option uri;
  to_rrule : option recur;
  to_due : option date;
  to_duration : option tdelta;
  to_attach : list text;
  to_attendee : list uri;
  to_categories : list text;
  to_comment : list text;
  to_contact : list text;
  to_exdate : list date;
  to_rstatus : list request_status;
  to_related_to : list text;
  to_resources : list text;
  to_rdate : list rdate;
  to_x_prop : smap content_line;
  to_iana_prop : smap content_line;
}.
(** The fields of src/components/vtodo.rs:4-43, as derive/src/component.rs:33-97 reads them. *)
Definition vtodo_schema : schema := [
  (lit "DTSTAMP", FReq ser_datetime parse_datetime);
  (lit "UID", FReq ser_text parse_text);
  (lit "CLASS", FOpt ser_class parse_class);
  (lit "COMPLETED", FOpt ser_datetime parse_datetime);
  (lit "CREATED", FOpt ser_datetime parse_datetime);
  (lit "DTSTART", FOpt ser_date parse_date);
  (lit "GEO", FOpt ser_geo parse_geo);
  (lit "LAST-MODIFIED", FOpt ser_datetime parse_datetime);
  (lit "LOCATION", FOpt ser_text parse_text);
  (lit "ORGANIZER", FOpt ser_uri parse_uri);
  (lit "PERCENT-COMPLETE", FOpt ser_u8 parse_percent);
  (lit "PRIORITY", FOpt ser_u8 parse_priority);
  (lit "RECURID", FOpt ser_date parse_date);
  (lit "SEQUENCE", FOpt ser_u32 parse_u32);
  (lit "STATUS", FOpt ser_status parse_status);
  (lit "SUMMARY", FOpt ser_text parse_text);
  (lit "URL", FOpt ser_uri parse_uri);
  (lit "RRULE", FOpt ser_recur parse_rrule);
  (lit "DUE", FOpt ser_date parse_date);
  (lit "DURATION", FOpt ser_td parse_dur);
  (lit "ATTACH", FVec ser_text parse_text);
  (lit "ATTENDEE", FVec ser_uri parse_uri);
  (lit "CATEGORIES", FApp ser_text parse_texts);
  (lit "COMMENT", FVec ser_text parse_text);
  (lit "CONTACT", FVec ser_text parse_text);
  (lit "EXDATE", FApp ser_date parse_exdate);
  (lit "RSTATUS", FVec ser_rs parse_rstatus);
  (lit "RELATED-TO", FVec ser_text parse_text);
  (lit "RESOURCES", FApp ser_text parse_texts);
  (lit "RDATE", FVec ser_rdate parse_rdate)].
(** Record to generic form and back; no counterpart in /repo, where the macro
    works on the struct of src/components/vtodo.rs:4-43 itself. *)
Definition vtodo_to (v : vtodo) : comp vtodo_schema :=
  @mk_comp vtodo_schema
    (to_dtstamp v, (to_uid v, (to_class v, (to_completed v, (to_created v, (to_dtstart v, (to_geo v, (to_last_modified v, (to_location v, (to_organizer v, (to_percent_complete v, (to_priority v, (to_recurid v, (to_sequence v, (to_status v, (to_summary v, (to_url v, (to_rrule v, (to_due v, (to_duration v, (to_attach v, (to_attendee v, (to_categories v, (to_comment v, (to_contact v, (to_exdate v, (to_rstatus v, (to_related_to v, (to_resources v, (to_rdate v, tt))))))))))))))))))))))))))))))
    (to_x_prop v) (to_iana_prop v).
Definition vtodo_of (c : comp vtodo_schema) : vtodo :=
  match c with mk_comp vs x i =>
    match vs with (x0, (x1, (x2, (x3, (x4, (x5, (x6, (x7, (x8, (x9, (x10, (x11, (x12, (x13, (x14, (x15, (x16, (x17, (x18, (x19, (x20, (x21, (x22, (x23, (x24, (x25, (x26, (x27, (x28, (x29, _)))))))))))))))))))))))))))))) =>
    mk_vtodo x0 x1 x2 x3 x4 x5 x6 x7 x8 x9 x10 x11 x12 x13 x14 x15 x16 x17 x18 x19 x20 x21 x22 x23 x24 x25 x26 x27 x28 x29 x i
    end
  end.
Lemma vtodo_of_to v : vtodo_of (vtodo_to v) = v.
Proof. destruct v; reflexivity. Qed.
Lemma vtodo_to_of c : vtodo_to (vtodo_of c) = c.
Proof. destruct c as [vs x i]; cbn in vs. repeat match goal with v : (_ * _)%type |- _ => destruct v | v : unit |- _ => destruct v end. reflexivity. Qed.
(** derive/src/component.rs:102-126 for this struct *)
Definition vtodo_of_lines (ls : list content_line) : outcome vtodo :=
  omap vtodo_of (comp_of_lines vtodo_schema ls).
(** derive/src/component.rs:157-177 for this struct *)
Definition ser_vtodo : serialize vtodo := ser_iso (lit "VTODO") vtodo_schema vtodo_to.
(** Assignment to a field of the struct of src/components/vtodo.rs:4-43. *)
Definition set_to_dtstart (v : vtodo) (x : option date) : vtodo :=
  mk_vtodo (to_dtstamp v) (to_uid v) (to_class v) (to_completed v) (to_created v) x (to_geo v) (to_last_modified v) (to_location v) (to_organizer v) (to_percent_complete v) (to_priority v) (to_recurid v) (to_sequence v) (to_status v) (to_summary v) (to_url v) (to_rrule v) (to_due v) (to_duration v) (to_attach v) (to_attendee v) (to_categories v) (to_comment v) (to_contact v) (to_exdate v) (to_rstatus v) (to_related_to v) (to_resources v) (to_rdate v) (to_x_prop v) (to_iana_prop v).
(** Assignment to a field of the struct of src/components/vtodo.rs:4-43. *)
Definition set_to_due (v : vtodo) (x : option date) : vtodo :=
  mk_vtodo (to_dtstamp v) (to_uid v) (to_class v) (to_completed v) (to_created v) (to_dtstart v) (to_geo v) (to_last_modified v) (to_location v) (to_organizer v) (to_percent_complete v) (to_priority v) (to_recurid v) (to_sequence v) (to_status v) (to_summary v) (to_url v) (to_rrule v) x (to_duration v) (to_attach v) (to_attendee v) (to_categories v) (to_comment v) (to_contact v) (to_exdate v) (to_rstatus v) (to_related_to v) (to_resources v) (to_rdate v) (to_x_prop v) (to_iana_prop v).
(** Assignment to a field of the struct of src/components/vtodo.rs:4-43. *)
Definition set_to_rrule (v : vtodo) (x : option recur) : vtodo :=
  mk_vtodo (to_dtstamp v) (to_uid v) (to_class v) (to_completed v) (to_created v) (to_dtstart v) (to_geo v) (to_last_modified v) (to_location v) (to_organizer v) (to_percent_complete v) (to_priority v) (to_recurid v) (to_sequence v) (to_status v) (to_summary v) (to_url v) x (to_due v) (to_duration v) (to_attach v) (to_attendee v) (to_categories v) (to_comment v) (to_contact v) (to_exdate v) (to_rstatus v) (to_related_to v) (to_resources v) (to_rdate v) (to_x_prop v) (to_iana_prop v).

(** src/components/vtimezone.rs:34-49,76 *)
Record standard := mk_standard {
  st_dtstart : date;
  st_tzoffsetto : Z;
  st_tzoffsetfrom : Z;
  st_rrule : option recur;
  st_comment : list text;
  st_rdate : list rdate;
  st_tzname : list text;
  st_x_prop : smap content_line;
  st_iana_prop : smap content_line;
}.
(** The fields of src/components/vtimezone.rs:34-49,76, as derive/src/component.rs:33-97 reads them. *)
Definition standard_schema : schema := [
  (lit "DTSTART", FReq ser_date parse_date);
  (lit "TZOFFSETTO", FReq ser_offset parse_offset);
  (lit "TZOFFSETFROM", FReq ser_offset parse_offset);
  (lit "RRULE", FOpt ser_recur parse_rrule);
  (lit "COMMENT", FVec ser_text parse_text);
  (lit "RDATE", FVec ser_rdate parse_rdate);
  (lit "TZNAME", FVec ser_text parse_text)].
(** Record to generic form and back; no counterpart in /repo, where the macro
    works on the struct of src/components/vtimezone.rs:34-49,76 itself. *)
Definition standard_to (v : standard) : comp standard_schema :=
  @mk_comp standard_schema
    (st_dtstart v, (st_tzoffsetto v, (st_tzoffsetfrom v, (st_rrule v, (st_comment v, (st_rdate v, (st_tzname v, tt)))))))
    (st_x_prop v) (st_iana_prop v).
Definition standard_of (c : comp standard_schema) : standard :=
  match c with mk_comp vs x i =>
    match vs with (x0, (x1, (x2, (x3, (x4, (x5, (x6, _))))))) =>
    mk_standard x0 x1 x2 x3 x4 x5 x6 x i
    end
  end.
Lemma standard_of_to v : standard_of (standard_to v) = v.
Proof. destruct v; reflexivity. Qed.
Lemma standard_to_of c : standard_to (standard_of c) = c.
Proof. destruct c as [vs x i]; cbn in vs. repeat match goal with v : (_ * _)%type |- _ => destruct v | v : unit |- _ => destruct v end. reflexivity. Qed.
(** derive/src/component.rs:102-126 for this struct *)
Definition standard_of_lines (ls : list content_line) : outcome standard :=
  omap standard_of (comp_of_lines standard_schema ls).
(** derive/src/component.rs:157-177 for this struct *)
Definition ser_standard : serialize standard := ser_iso (lit "STANDARD") standard_schema standard_to.

(** src/components/vtimezone.rs:34-49,77 *)
Record daylight := mk_daylight {
  dl_dtstart : date;
  dl_tzoffsetto : Z;
  dl_tzoffsetfrom : Z;
  dl_rrule : option recur;
  dl_comment : list text;
  dl_rdate : list rdate;
  dl_tzname : list text;
  dl_x_prop : smap content_line;
  dl_iana_prop : smap content_line;
}.
(** The fields of src/components/vtimezone.rs:34-49,77, as derive/src/component.rs:33-97 reads them. *)
Definition daylight_schema : schema := [
  (lit "DTSTART", FReq ser_date parse_date);
  (lit "TZOFFSETTO", FReq ser_offset parse_offset);
  (lit "TZOFFSETFROM", FReq ser_offset parse_offset);
  (lit "RRULE", FOpt ser_recur parse_rrule);
  (lit "COMMENT", FVec ser_text parse_text);
  (lit "RDATE", FVec ser_rdate parse_rdate);
  (lit "TZNAME", FVec ser_text parse_text)].
(** Record to generic form and back; no counterpart in /repo, where the macro
    works on the struct of src/components/vtimezone.rs:34-49,77 itself. *)
Definition daylight_to (v : daylight) : comp daylight_schema :=
  @mk_comp daylight_schema
    (dl_dtstart v, (dl_tzoffsetto v, (dl_tzoffsetfrom v, (dl_rrule v, (dl_comment v, (dl_rdate v, (dl_tzname v, tt)))))))
    (dl_x_prop v) (dl_iana_prop v).
Definition daylight_of (c : comp daylight_schema) : daylight :=
  match c with mk_comp vs x i =>
    match vs with (x0, (x1, (x2, (x3, (x4, (x5, (x6, _))))))) =>
    mk_daylight x0 x1 x2 x3 x4 x5 x6 x i
    end
  end.
Lemma daylight_of_to v : daylight_of (daylight_to v) = v.
Proof. destruct v; reflexivity. Qed.
Lemma daylight_to_of c : daylight_to (daylight_of c) = c.
Proof. destruct c as [vs x i]; cbn in vs. repeat match goal with v : (_ * _)%type |- _ => destruct v | v : unit |- _ => destruct v end. reflexivity. Qed.
(** derive/src/component.rs:102-126 for this struct *)
Definition daylight_of_lines (ls : list content_line) : outcome daylight :=
  omap daylight_of (comp_of_lines daylight_schema ls).
(** derive/src/component.rs:157-177 for this struct *)
Definition ser_daylight : serialize daylight := ser_iso (lit "DAYLIGHT") daylight_schema daylight_to.

(** src/components/vtimezone.rs:6-19 *)
Record vtimezone := mk_vtimezone {
  tz_tzid : text;
  tz_last_modified : option datetime;
  tz_tzurl : option uri;
  tz_standard : list standard;
  tz_daylight : list daylight;
  tz_x_prop : smap content_line;
  tz_iana_prop : smap content_line;
}.
(** The fields of src/components/vtimezone.rs:6-19, as derive/src/component.rs:33-97 reads them. *)
Definition vtimezone_schema : schema := [
  (lit "TZID", FReq ser_text parse_text);
  (lit "LAST-MODIFIED", FOpt ser_datetime parse_datetime);
  (lit "TZURL", FOpt ser_uri parse_uri);
  (lit "STANDARD", FIgn ser_standard);
  (lit "DAYLIGHT", FIgn ser_daylight)].
(** Record to generic form and back; no counterpart in /repo, where the macro
    works on the struct of src/components/vtimezone.rs:6-19 itself. *)
Definition vtimezone_to (v : vtimezone) : comp vtimezone_schema :=
  @mk_comp vtimezone_schema
    (tz_tzid v, (tz_last_modified v, (tz_tzurl v, (tz_standard v, (tz_daylight v, tt)))))
    (tz_x_prop v) (tz_iana_prop v).
Definition vtimezone_of (c : comp vtimezone_schema) : vtimezone :=
  match c with mk_comp vs x i =>
    match vs with (x0, (x1, (x2, (x3, (x4, _))))) =>
    mk_vtimezone x0 x1 x2 x3 x4 x i
    end
  end.
Lemma vtimezone_of_to v : vtimezone_of (vtimezone_to v) = v.
Proof. destruct v; reflexivity. Qed.
Lemma vtimezone_to_of c : vtimezone_to (vtimezone_of c) = c.
Proof. destruct c as [vs x i]; cbn in vs. repeat match goal with v : (_ * _)%type |- _ => destruct v | v : unit |- _ => destruct v end. reflexivity. Qed.
(** derive/src/component.rs:102-126 for this struct *)
Definition vtimezone_of_lines (ls : list content_line) : outcome vtimezone :=
  omap vtimezone_of (comp_of_lines vtimezone_schema ls).
(** derive/src/component.rs:157-177 for this struct *)
Definition ser_vtimezone : serialize vtimezone := ser_iso (lit "VTIMEZONE") vtimezone_schema vtimezone_to.
(** Assignment to a field of the struct of src/components/vtimezone.rs:6-19. *)
Definition set_tz_standard (v : vtimezone) (x : list standard) : vtimezone :=
  mk_vtimezone (tz_tzid v) (tz_last_modified v) (tz_tzurl v) x (tz_daylight v) (tz_x_prop v) (tz_iana_prop v).
(** Assignment to a field of the struct of src/components/vtimezone.rs:6-19. *)
Definition set_tz_daylight (v : vtimezone) (x : list daylight) : vtimezone :=
  mk_vtimezone (tz_tzid v) (tz_last_modified v) (tz_tzurl v) (tz_standard v) x (tz_x_prop v) (tz_iana_prop v).

(** src/components/vcalendar.rs:4-26 *)
Record vcalendar := mk_vcalendar {
  ca_prodid : text;
  ca_version : text;
  ca_calscale : option text;
  ca_method : option text;
  ca_alarms : list valarm;
  ca_events : list vevent;
  ca_freebusy : list vfreebusy;
  ca_journals : list vjournal;
  ca_todo : list vtodo;
  ca_timezones : list vtimezone;
  ca_x_prop : smap content_line;
  ca_iana_prop : smap content_line;
}.
(** The fields of src/components/vcalendar.rs:4-26, as derive/src/component.rs:33-97 reads them. *)
Definition vcalendar_schema : schema := [
  (lit "PRODID", FReq ser_text parse_text);
  (lit "VERSION", FReq ser_text parse_text);
  (lit "CALSCALE", FOpt ser_text parse_text);
  (lit "METHOD", FOpt ser_text parse_text);
  (lit "ALARMS", FIgn ser_valarm);
  (lit "EVENTS", FIgn ser_vevent);
  (lit "FREEBUSY", FIgn ser_vfreebusy);
  (lit "JOURNALS", FIgn ser_vjournal);
  (lit "TODO", FIgn ser_vtodo);
  (lit "TIMEZONES", FIgn ser_vtimezone)].
(** Record to generic form and back; no counterpart in /repo, where the macro
    works on the struct of src/components/vcalendar.rs:4-26 itself. *)
Definition vcalendar_to (v : vcalendar) : comp vcalendar_schema :=
  @mk_comp vcalendar_schema
    (ca_prodid v, (ca_version v, (ca_calscale v, (ca_method v, (ca_alarms v, (ca_events v, (ca_freebusy v, (ca_journals v, (ca_todo v, (ca_timezones v, tt))))))))))
    (ca_x_prop v) (ca_iana_prop v).
Definition vcalendar_of (c : comp vcalendar_schema) : vcalendar :=
  match c with mk_comp vs x i =>
    match vs with (x0, (x1, (x2, (x3, (x4, (x5, (x6, (x7, (x8, (x9, _)))))))))) =>
    mk_vcalendar x0 x1 x2 x3 x4 x5 x6 x7 x8 x9 x i
    end
  end.
Lemma vcalendar_of_to v : vcalendar_of (vcalendar_to v) = v.
Proof. destruct v; reflexivity. Qed.
Lemma vcalendar_to_of c : vcalendar_to (vcalendar_of c) = c.
Proof. destruct c as [vs x i]; cbn in vs. repeat match goal with v : (_ * _)%type |- _ => destruct v | v : unit |- _ => destruct v end. reflexivity. Qed.
(** derive/src/component.rs:102-126 for this struct *)
Definition vcalendar_of_lines (ls : list content_line) : outcome vcalendar :=
  omap vcalendar_of (comp_of_lines vcalendar_schema ls).
(** derive/src/component.rs:157-177 for this struct *)
Definition ser_vcalendar : serialize vcalendar := ser_iso (lit "VCALENDAR") vcalendar_schema vcalendar_to.
(** Assignment to a field of the struct of src/components/vcalendar.rs:4-26. *)
Definition set_ca_alarms (v : vcalendar) (x : list valarm) : vcalendar :=
  mk_vcalendar (ca_prodid v) (ca_version v) (ca_calscale v) (ca_method v) x (ca_events v) (ca_freebusy v) (ca_journals v) (ca_todo v) (ca_timezones v) (ca_x_prop v) (ca_iana_prop v).
(** Assignment to a field of the struct of src/components/vcalendar.rs:4-26. *)
Definition set_ca_events (v : vcalendar) (x : list vevent) : vcalendar :=
  mk_vcalendar (ca_prodid v) (ca_version v) (ca_calscale v) (ca_method v) (ca_alarms v) x (ca_freebusy v) (ca_journals v) (ca_todo v) (ca_timezones v) (ca_x_prop v) (ca_iana_prop v).
(** Assignment to a field of the struct of src/components/vcalendar.rs:4-26. *)
Definition set_ca_freebusy (v : vcalendar) (x : list vfreebusy) : vcalendar :=
  mk_vcalendar (ca_prodid v) (ca_version v) (ca_calscale v) (ca_method v) (ca_alarms v) (ca_events v) x (ca_journals v) (ca_todo v) (ca_timezones v) (ca_x_prop v) (ca_iana_prop v).
(** Assignment to a field of the struct of src/components/vcalendar.rs:4-26. *)
Definition set_ca_journals (v : vcalendar) (x : list vjournal) : vcalendar :=
  mk_vcalendar (ca_prodid v) (ca_version v) (ca_calscale v) (ca_method v) (ca_alarms v) (ca_events v) (ca_freebusy v) x (ca_todo v) (ca_timezones v) (ca_x_prop v) (ca_iana_prop v).
(** Assignment to a field of the struct of src/components/vcalendar.rs:4-26. *)
Definition set_ca_todo (v : vcalendar) (x : list vtodo) : vcalendar :=
  mk_vcalendar (ca_prodid v) (ca_version v) (ca_calscale v) (ca_method v) (ca_alarms v) (ca_events v) (ca_freebusy v) (ca_journals v) x (ca_timezones v) (ca_x_prop v) (ca_iana_prop v).
(** Assignment to a field of the struct of src/components/vcalendar.rs:4-26. *)
Definition set_ca_timezones (v : vcalendar) (x : list vtimezone) : vcalendar :=
  mk_vcalendar (ca_prodid v) (ca_version v) (ca_calscale v) (ca_method v) (ca_alarms v) (ca_events v) (ca_freebusy v) (ca_journals v) (ca_todo v) x (ca_x_prop v) (ca_iana_prop v).


(** ** src/parser/components.rs *)
(** src/parser/components.rs:9-25 [component!] *)
Definition p_component {A} (name : str) (of_lines : list content_line -> outcome A) : parser A :=
  pmap_res
    (delimited (tag (lit "BEGIN:" ++ name ++ CRLF)) p_content_lines (tag (lit "END:" ++ name ++ CRLF)))
    of_lines.
(** src/parser/components.rs:27-32 *)
Definition p_valarm : parser valarm := p_component (lit "VALARM") valarm_of_lines.
Definition p_vfreebusy : parser vfreebusy := p_component (lit "VFREEBUSY") vfreebusy_of_lines.
Definition p_vtodo : parser vtodo := p_component (lit "VTODO") vtodo_of_lines.
Definition p_vjournal : parser vjournal := p_component (lit "VJOURNAL") vjournal_of_lines.
Definition p_standard : parser standard := p_component (lit "STANDARD") standard_of_lines.
Definition p_daylight : parser daylight := p_component (lit "DAYLIGHT") daylight_of_lines.
(** src/parser/components.rs:34-44: [unreachable!()] *)
Definition p_audio : parser audio := fun _ => PPanic.
Definition p_display : parser display := fun _ => PPanic.
Definition p_email : parser email := fun _ => PPanic.

(** src/parser/components.rs:46-64 *)
Definition p_vevent : parser vevent :=
  pmap_res
    (delimited (tag (lit "BEGIN:VEVENT" ++ CRLF))
       (do ls <- p_content_lines ;; do al <- many0 p_valarm ;; pret (ls, al))
       (tag (lit "END:VEVENT" ++ CRLF)))
    (fun '(ls, al) => let* v := vevent_of_lines ls in Ok (set_ev_alarms v al)).

(** src/components/vtimezone.rs:28-32 *)
Inductive tz_part := TStandard (s : standard) | TDaylight (d : daylight).
(** src/parser/components.rs:84-93 *)
Definition push_tz (v : vtimezone) (c : tz_part) : vtimezone :=
  match c with
  | TStandard s => set_tz_standard v (tz_standard v ++ [s])
  | TDaylight d => set_tz_daylight v (tz_daylight v ++ [d])
  end.
(** src/parser/components.rs:66-100 *)
Definition p_vtimezone : parser vtimezone :=
  pmap_res
    (delimited (tag (lit "BEGIN:VTIMEZONE" ++ CRLF))
       (do ls <- p_content_lines ;;
        do cs <- many0 (palt (pmap p_standard TStandard) (pmap p_daylight TDaylight)) ;;
        pret (ls, cs))
       (tag (lit "END:VTIMEZONE" ++ CRLF)))
    (fun '(ls, cs) => let* v := vtimezone_of_lines ls in Ok (fold_left push_tz cs v)).

(** src/components/mod.rs:21-29 *)
Inductive component :=
| CAlarm (a : valarm) | CEvent (e : vevent) | CFreebusy (f : vfreebusy)
| CJournal (j : vjournal) | CTimezone (t : vtimezone) | CTodo (t : vtodo).
(** src/parser/components.rs:102-115 *)
Definition p_any_component : parser component :=
  palt (pmap p_valarm CAlarm) (palt (pmap p_vevent CEvent) (palt (pmap p_vfreebusy CFreebusy)
    (palt (pmap p_vjournal CJournal) (palt (pmap p_vtimezone CTimezone) (pmap p_vtodo CTodo))))).
(** src/parser/components.rs:117-119 *)
Definition p_components : parser (list component) := many0 p_any_component.
(** src/parser/components.rs:139-148 *)
Definition push_component (v : vcalendar) (c : component) : vcalendar :=
  match c with
  | CAlarm a => set_ca_alarms v (ca_alarms v ++ [a])
  | CEvent e => set_ca_events v (ca_events v ++ [e])
  | CFreebusy f => set_ca_freebusy v (ca_freebusy v ++ [f])
  | CJournal j => set_ca_journals v (ca_journals v ++ [j])
  | CTodo t => set_ca_todo v (ca_todo v ++ [t])
  | CTimezone t => set_ca_timezones v (ca_timezones v ++ [t])
  end.
(** src/parser/components.rs:121-155; the END tag has no line ending. *)
Definition p_vcalendar : parser vcalendar :=
  pmap_res
    (delimited (tag (lit "BEGIN:VCALENDAR" ++ CRLF))
       (do ls <- p_content_lines ;; do cs <- p_components ;; pret (ls, cs))
       (tag (lit "END:VCALENDAR")))
    (fun '(ls, cs) => let* v := vcalendar_of_lines ls in Ok (fold_left push_component cs v)).

(** ** [FromStr]: derive/src/component.rs:146-155, src/components/valarm.rs:45-53 *)
Definition vcalendar_of_str : str -> outcome vcalendar := from_str p_vcalendar.
Definition vevent_of_str : str -> outcome vevent := from_str p_vevent.
Definition vfreebusy_of_str : str -> outcome vfreebusy := from_str p_vfreebusy.
Definition vjournal_of_str : str -> outcome vjournal := from_str p_vjournal.
Definition vtodo_of_str : str -> outcome vtodo := from_str p_vtodo.
Definition vtimezone_of_str : str -> outcome vtimezone := from_str p_vtimezone.
Definition standard_of_str : str -> outcome standard := from_str p_standard.
Definition daylight_of_str : str -> outcome daylight := from_str p_daylight.
Definition valarm_of_str : str -> outcome valarm := from_str p_valarm.
Definition audio_of_str : str -> outcome audio := from_str p_audio.
Definition display_of_str : str -> outcome display := from_str p_display.
Definition email_of_str : str -> outcome email := from_str p_email.
End Components.
