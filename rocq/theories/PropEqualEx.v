(** * C99 on concrete values *)
From Verif Require Import Base Env Chrono Nom Types Ser Parser Derive Components Equality BaseFacts SpecLine SpecText SpecCal SpecDur SpecComp SpecFields SpecFile SpecRound PropRound PropRoundEx SpecEqual PropEqual SpecIter SpecKinds PropKinds SpecKeep PropAlike.
(** f32::NAN, 0.0, -0.0, 1.0, an infinity. *)
Definition nan : f32 := 2143289344.
Definition zero : f32 := 0.
Definition minus_zero : f32 := 2147483648.
Definition one : f32 := 1065353216.
Definition infinity : f32 := 2139095040.
Example C99_numbers_nonvacuous :
  not_a_number nan /\ is_zero zero /\ is_zero minus_zero /\ f32_eqb nan nan = false /\ f32_eqb zero minus_zero = true /\ zero <> minus_zero /\
  f32_eqb one one = true /\ f32_eqb one zero = false /\ f32_eqb infinity infinity = true /\ ~ not_a_number infinity.
Proof.
  repeat match goal with |- _ /\ _ => split end; try reflexivity; try (split; [reflexivity|vm_compute; discriminate]); try (split; reflexivity); try (vm_compute; discriminate).
  intros [_ H]. apply H. reflexivity.
Qed.
(** An environment where what is no number is written "NaN" and read back. *)
Definition nan_env : Env := {| tz_offset := fun _ => 3600; tz_local := fun _ => MSingle 3600;
  f32_show := fun x => if x =? nan then lit "NaN" else lit "0"; f32_show1 := fun x => if x =? nan then lit "NaN" else lit "0";
  f32_parse := fun s => match s with 78 :: 97 :: 78 :: r => Some (r, nan) | 48 :: r => Some (r, zero) | _ => None end; upper_nonascii := fun c => [c] |}.
#[local] Existing Instance nan_env.
Ltac no_in := let H := fresh in intros H; vm_compute in H; intuition discriminate.
Definition nowhere : geo := mk_geo nan zero.
Definition origin : geo := mk_geo zero zero.
Definition lost_event : vevent := event_with (Some nowhere) [] plain_event.
Definition placed_event : vevent := event_with (Some origin) [mk_rs zero (lit "ok") None] plain_event.
Definition mirrored_event : vevent := event_with (Some (mk_geo minus_zero zero)) [mk_rs minus_zero (lit "ok") None] plain_event.
Lemma nan_back : float_back f32_show nan.
Proof. split; [split; no_in|]. intros rest _. reflexivity. Qed.
Lemma zero_back : float_back f32_show zero.
Proof. split; [split; no_in|]. intros rest _. reflexivity. Qed.
Lemma moved_safe g : safe_geo g -> vevent_safe (event_with (Some g) [] plain_event).
Proof.
  intros G. pose proof plain_event_safe as T. unfold vevent_safe in *. unfold event_with.
  cbn [ev_dtstamp ev_uid ev_dtstart ev_class ev_created ev_description ev_geo ev_last_modified ev_location ev_organizer ev_priority ev_sequence ev_summary ev_url ev_recurid ev_rrule ev_dtend ev_duration ev_attach ev_attendee ev_categories ev_comment ev_contact ev_exdate ev_rstatus ev_related_to ev_resources ev_rdate ev_alarms ev_x_prop ev_iana_prop].
  assert (A : holds safe_geo (Some g)) by (intros x H; injection H as <-; exact G).
  assert (B : at_most_one safe_rs []) by (left; reflexivity). tauto.
Qed.
(** The event of nowhere is written and comes back as it was, yet not equal to what was written. *)
Example C99_loaded_nonvacuous :
  vevent_safe lost_event /\ (exists out, s_ical ser_vevent lost_event = Ok out /\ vevent_of_str out = Ok lost_event) /\ vevent_eqb lost_event lost_event = false /\
  vevent_safe plain_event /\ (exists out, s_ical ser_vevent plain_event = Ok out /\ vevent_of_str out = Ok plain_event) /\ vevent_eqb plain_event plain_event = true.
Proof.
  assert (K : vevent_safe lost_event) by (apply moved_safe; split; [apply nan_back|apply zero_back]).
  assert (X : exists out, s_ical ser_vevent lost_event = Ok out) by (eexists; vm_compute; reflexivity). destruct X as (out & X).
  assert (Y : exists out, s_ical ser_vevent plain_event = Ok out) by (eexists; vm_compute; reflexivity). destruct Y as (out' & Y).
  split; [exact K|]. split; [exists out; split; [exact X|exact (C53_vevent_round_trip _ _ K X)]|]. split; [reflexivity|].
  split; [apply plain_event_safe|]. split; [exists out'; split; [exact Y|exact (C53_vevent_round_trip _ _ plain_event_safe Y)]|reflexivity].
Qed.
(** Equal and not the same: the signs of their zeros differ; equal calendars of them. *)
Example C99_alike_nonvacuous :
  vevent_eqb placed_event mirrored_event = true /\ placed_event <> mirrored_event /\ alike_event placed_event mirrored_event /\ ~ no_zero_in (event_numbers placed_event) /\
  component_eqb (CEvent placed_event) (CEvent mirrored_event) = true /\ component_eqb (CAlarm (plain_alarm "DISPLAY")) (CEvent placed_event) = false /\
  vevent_eqb placed_event plain_event = false /\ no_zero_in (event_numbers plain_event) /\ finite_in (event_numbers placed_event) /\
  same_schedule (k := an_event) (k' := an_event) placed_event mirrored_event.
Proof.
  assert (Q : vevent_eqb placed_event mirrored_event = true) by reflexivity.
  repeat match goal with |- _ /\ _ => split end; try reflexivity.
  - intros H. apply (f_equal ev_geo) in H. discriminate H.
  - now apply event_decides.
  - intros H. apply (H zero); [now left|split; reflexivity].
  - intros x [].
  - apply event_by. reflexivity.
  - now apply C99_occurrences.
Qed.
(** Lists are compared item by item, and to the end. *)
Example C99_identity_nonvacuous :
  list_eqb text_eqb [tx "one"] [tx "one"; tx "two"] = false /\ list_eqb text_eqb [tx "one"; tx "two"] [tx "one"] = false /\
  text_eqb (mk_text [(lit "LANGUAGE", lit "en")] (lit "a")) (tx "a") = false /\ text_eqb (mk_text [(lit "LANGUAGE", lit "en")] (lit "a")) (mk_text [(lit "LANGUAGE", lit "en")] (lit "a")) = true /\
  dt_eqb stamp when = false /\ valarm_eqb (plain_alarm "DISPLAY") (plain_alarm "DISPLAY") = true /\ valarm_eqb (plain_alarm "DISPLAY") (plain_alarm "AUDIO") = false.
Proof. repeat split. Qed.
(** Two calendars, each written as the other is. *)
Example C99_written_nonvacuous : vcalendar_safe plain_calendar /\ no_zero_in (calendar_numbers plain_calendar) /\ vcalendar_eqb plain_calendar plain_calendar = true.
Proof. split; [apply C53_nonvacuous_calendar|]. split; [intros x []|reflexivity]. Qed.
