(** * When two values are equal: numbers, and what holds them. *)
From Verif Require Import Base Env Chrono Types Components.
(** IEEE 754 binary32: sign, 8 bits of exponent, 23 of fraction. *)
Definition not_a_number (x : f32) : Prop := (x / 2 ^ 23) mod 2 ^ 8 = 255 /\ x mod 2 ^ 23 <> 0.
Definition is_zero (x : f32) : Prop := (x / 2 ^ 23) mod 2 ^ 8 = 0 /\ x mod 2 ^ 23 = 0.
(** Equal as numbers: the two zeros are, what is not a number is not even equal to itself. *)
Definition same_number (x y : f32) : Prop := ~ not_a_number x /\ ~ not_a_number y /\ (x = y \/ is_zero x /\ is_zero y).
Definition same_geo (a b : geo) : Prop := same_number (g_lat a) (g_lat b) /\ same_number (g_lon a) (g_lon b).
Definition same_status (a b : request_status) : Prop := same_number (rs_code a) (rs_code b) /\ rs_desc a = rs_desc b /\ rs_ext a = rs_ext b.
Definition both_or_neither {A} (R : A -> A -> Prop) (a b : option A) : Prop := match a, b with Some x, Some y => R x y | None, None => True | _, _ => False end.
(** The same but for the numbers (GEO, REQUEST-STATUS). *)
Definition event_with (g : option geo) (s : list request_status) (v : vevent) : vevent := mk_vevent (ev_dtstamp v) (ev_uid v) (ev_dtstart v) (ev_class v) (ev_created v) (ev_description v) g (ev_last_modified v) (ev_location v) (ev_organizer v) (ev_priority v) (ev_sequence v) (ev_status v) (ev_summary v) (ev_transp v) (ev_url v) (ev_recurid v) (ev_rrule v) (ev_dtend v) (ev_duration v) (ev_attach v) (ev_attendee v) (ev_categories v) (ev_comment v) (ev_contact v) (ev_exdate v) s (ev_related_to v) (ev_resources v) (ev_rdate v) (ev_alarms v) (ev_x_prop v) (ev_iana_prop v).
Definition todo_with (g : option geo) (s : list request_status) (v : vtodo) : vtodo := mk_vtodo (to_dtstamp v) (to_uid v) (to_class v) (to_completed v) (to_created v) (to_dtstart v) g (to_last_modified v) (to_location v) (to_organizer v) (to_percent_complete v) (to_priority v) (to_recurid v) (to_sequence v) (to_status v) (to_summary v) (to_url v) (to_rrule v) (to_due v) (to_duration v) (to_attach v) (to_attendee v) (to_categories v) (to_comment v) (to_contact v) (to_exdate v) s (to_related_to v) (to_resources v) (to_rdate v) (to_x_prop v) (to_iana_prop v).
Definition journal_with (s : list request_status) (v : vjournal) : vjournal := mk_vjournal (jo_dtstamp v) (jo_uid v) (jo_class v) (jo_created v) (jo_dtstart v) (jo_last_modified v) (jo_organizer v) (jo_recurid v) (jo_sequence v) (jo_status v) (jo_summary v) (jo_url v) (jo_rrule v) (jo_attach v) (jo_attendee v) (jo_categories v) (jo_comment v) (jo_contact v) (jo_description v) (jo_exdate v) (jo_related_to v) (jo_rdate v) s (jo_x_prop v) (jo_iana_prop v).
Definition freebusy_with (s : list request_status) (v : vfreebusy) : vfreebusy := mk_vfreebusy (fb_dtstamp v) (fb_uid v) (fb_contact v) (fb_dtstart v) (fb_dtend v) (fb_organizer v) (fb_url v) (fb_attendee v) (fb_comment v) (fb_freebusy v) s (fb_x_prop v) (fb_iana_prop v).
Definition calendar_with (e : list vevent) (f : list vfreebusy) (j : list vjournal) (t : list vtodo) (v : vcalendar) : vcalendar := mk_vcalendar (ca_prodid v) (ca_version v) (ca_calscale v) (ca_method v) (ca_alarms v) e f j t (ca_timezones v) (ca_x_prop v) (ca_iana_prop v).
(** Two components alike: all the fields the same, but the numbers only as numbers. *)
Definition alike_event (a b : vevent) : Prop := exists g s, both_or_neither same_geo (ev_geo a) g /\ Forall2 same_status (ev_rstatus a) s /\ b = event_with g s a.
Definition alike_todo (a b : vtodo) : Prop := exists g s, both_or_neither same_geo (to_geo a) g /\ Forall2 same_status (to_rstatus a) s /\ b = todo_with g s a.
Definition alike_journal (a b : vjournal) : Prop := exists s, Forall2 same_status (jo_rstatus a) s /\ b = journal_with s a.
Definition alike_freebusy (a b : vfreebusy) : Prop := exists s, Forall2 same_status (fb_rstatus a) s /\ b = freebusy_with s a.
Definition alike_calendar (a b : vcalendar) : Prop := exists e f j t,
  Forall2 alike_event (ca_events a) e /\ Forall2 alike_freebusy (ca_freebusy a) f /\ Forall2 alike_journal (ca_journals a) j /\ Forall2 alike_todo (ca_todo a) t /\ b = calendar_with e f j t a.
(** All the numbers in a component. *)
Definition geo_numbers (g : option geo) : list f32 := match g with Some g => [g_lat g; g_lon g] | None => [] end.
Definition event_numbers (v : vevent) : list f32 := geo_numbers (ev_geo v) ++ map rs_code (ev_rstatus v).
Definition todo_numbers (v : vtodo) : list f32 := geo_numbers (to_geo v) ++ map rs_code (to_rstatus v).
Definition journal_numbers (v : vjournal) : list f32 := map rs_code (jo_rstatus v).
Definition freebusy_numbers (v : vfreebusy) : list f32 := map rs_code (fb_rstatus v).
Definition calendar_numbers (v : vcalendar) : list f32 :=
  flat_map event_numbers (ca_events v) ++ flat_map freebusy_numbers (ca_freebusy v) ++ flat_map journal_numbers (ca_journals v) ++ flat_map todo_numbers (ca_todo v).
(** A comparison [q] that comes out true exactly when [R] holds. *)
Definition decides {A} (q : A -> A -> bool) (R : A -> A -> Prop) : Prop := forall a b, q a b = true <-> R a b.
(** What is equal to a value can take its place in any comparison. *)
Definition lawful {A} (q : A -> A -> bool) : Prop := (forall a b, q a b = q b a) /\ (forall a b c, q a b = true -> q b c = true -> q a c = true).
Definition finite_in (l : list f32) : Prop := forall x, In x l -> ~ not_a_number x.
Definition no_zero_in (l : list f32) : Prop := forall x, In x l -> ~ is_zero x.
(** [q] holds of a value and itself exactly if its numbers are; of a value without zeros and no other. *)
Definition by_numbers {A} (q : A -> A -> bool) (num : A -> list f32) : Prop :=
  (forall v, q v v = true <-> finite_in (num v)) /\ (forall v w, q v w = true -> no_zero_in (num v) -> w = v).
(** Two components alike, of whatever kind: alarms and time zones hold no numbers. *)
Definition alike_component (a b : component) : Prop :=
  match a, b with
  | CAlarm x, CAlarm y => x = y | CTimezone x, CTimezone y => x = y
  | CEvent x, CEvent y => alike_event x y | CFreebusy x, CFreebusy y => alike_freebusy x y
  | CJournal x, CJournal y => alike_journal x y | CTodo x, CTodo y => alike_todo x y
  | _, _ => False
  end.
Definition component_numbers (c : component) : list f32 :=
  match c with CEvent v => event_numbers v | CFreebusy v => freebusy_numbers v | CJournal v => journal_numbers v | CTodo v => todo_numbers v | _ => [] end.
