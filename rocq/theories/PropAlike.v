(** * C99: equal values: written alike, read back equal, and with the same occurrences *)
From Verif Require Import Base Env Chrono Nom Types Ser Parser Derive Components Iter Equality BaseFacts ChronoFacts SpecCal SpecIter IterFacts PropIter SpecKinds PropKinds PropSame SpecKeep PropKeep SpecRound PropRound SpecEqual PropEqual.
Section Env.
Context {E : Env}.
(** Equal, and no number of the first is a zero: written alike. *)
Theorem C99_written :
  (forall v w, vevent_eqb v w = true -> no_zero_in (event_numbers v) -> s_ical ser_vevent w = s_ical ser_vevent v) /\
  (forall v w, vtodo_eqb v w = true -> no_zero_in (todo_numbers v) -> s_ical ser_vtodo w = s_ical ser_vtodo v) /\
  (forall v w, vjournal_eqb v w = true -> no_zero_in (journal_numbers v) -> s_ical ser_vjournal w = s_ical ser_vjournal v) /\
  (forall v w, vfreebusy_eqb v w = true -> no_zero_in (freebusy_numbers v) -> s_ical ser_vfreebusy w = s_ical ser_vfreebusy v) /\
  (forall v w, vcalendar_eqb v w = true -> no_zero_in (calendar_numbers v) -> s_ical ser_vcalendar w = s_ical ser_vcalendar v).
Proof.
  repeat match goal with |- _ /\ _ => split end; intros v w H N;
  [rewrite (proj2 event_by v w H N)|rewrite (proj2 todo_by v w H N)|rewrite (proj2 journal_by v w H N)|rewrite (proj2 freebusy_by v w H N)|rewrite (proj2 calendar_by v w H N)]; reflexivity.
Qed.
(** A value of the crate's own making that comes back unharmed ([*_safe]) comes back equal to itself exactly when its numbers are numbers... *)
Theorem C99_loaded :
  (forall v out, vevent_safe v -> s_ical ser_vevent v = Ok out -> exists w, vevent_of_str out = Ok w /\ (vevent_eqb v w = true <-> finite_in (event_numbers v))) /\
  (forall v out, vtodo_safe v -> s_ical ser_vtodo v = Ok out -> exists w, vtodo_of_str out = Ok w /\ (vtodo_eqb v w = true <-> finite_in (todo_numbers v))) /\
  (forall v out, vjournal_safe v -> s_ical ser_vjournal v = Ok out -> exists w, vjournal_of_str out = Ok w /\ (vjournal_eqb v w = true <-> finite_in (journal_numbers v))) /\
  (forall v out, vfreebusy_safe v -> s_ical ser_vfreebusy v = Ok out -> exists w, vfreebusy_of_str out = Ok w /\ (vfreebusy_eqb v w = true <-> finite_in (freebusy_numbers v))) /\
  (forall v out, vcalendar_safe v -> s_ical ser_vcalendar v = Ok out -> exists w, vcalendar_of_str out = Ok w /\ (vcalendar_eqb v w = true <-> finite_in (calendar_numbers v))).
Proof.
  repeat match goal with |- _ /\ _ => split end; intros v out K H;
  [exists v; exact (conj (C53_vevent_round_trip v out K H) (proj1 event_by v))|exists v; exact (conj (C53_vtodo_round_trip v out K H) (proj1 todo_by v))|exists v; exact (conj (C53_vjournal_round_trip v out K H) (proj1 journal_by v))|exists v; exact (conj (C53_vfreebusy_round_trip v out K H) (proj1 freebusy_by v))|exists v; exact (conj (C53_vcalendar_round_trip v out K H) (proj1 calendar_by v))].
Qed.
(** ... and two such values written alike are one. *)
Theorem C99_same_text :
  (forall v w out, vevent_safe v -> vevent_safe w -> s_ical ser_vevent v = Ok out -> s_ical ser_vevent w = Ok out -> v = w) /\
  (forall v w out, vtodo_safe v -> vtodo_safe w -> s_ical ser_vtodo v = Ok out -> s_ical ser_vtodo w = Ok out -> v = w) /\
  (forall v w out, vjournal_safe v -> vjournal_safe w -> s_ical ser_vjournal v = Ok out -> s_ical ser_vjournal w = Ok out -> v = w) /\
  (forall v w out, vfreebusy_safe v -> vfreebusy_safe w -> s_ical ser_vfreebusy v = Ok out -> s_ical ser_vfreebusy w = Ok out -> v = w) /\
  (forall v w out, vcalendar_safe v -> vcalendar_safe w -> s_ical ser_vcalendar v = Ok out -> s_ical ser_vcalendar w = Ok out -> v = w).
Proof.
  repeat match goal with |- _ /\ _ => split end; intros v w out K L H G;
  [pose proof (C53_vevent_round_trip v out K H) as A; rewrite (C53_vevent_round_trip w out L G) in A|pose proof (C53_vtodo_round_trip v out K H) as A; rewrite (C53_vtodo_round_trip w out L G) in A|pose proof (C53_vjournal_round_trip v out K H) as A; rewrite (C53_vjournal_round_trip w out L G) in A|pose proof (C53_vfreebusy_round_trip v out K H) as A; rewrite (C53_vfreebusy_round_trip w out L G) in A|pose proof (C53_vcalendar_round_trip v out K H) as A; rewrite (C53_vcalendar_round_trip w out L G) in A]; congruence.
Qed.
(** Equal events, to-dos and journals have the same occurrences, whatever their numbers. *)
Theorem C99_occurrences :
  (forall v w, vevent_eqb v w = true -> same_schedule (k := an_event) (k' := an_event) v w) /\
  (forall v w, vtodo_eqb v w = true -> same_schedule (k := a_todo) (k' := a_todo) v w) /\
  (forall v w, vjournal_eqb v w = true -> same_schedule (k := a_journal) (k' := a_journal) v w).
Proof.
  repeat match goal with |- _ /\ _ => split end; intros v w H.
  - apply event_decides in H as (g & s & _ & _ & ->). apply same_fields; reflexivity.
  - apply todo_decides in H as (g & s & _ & _ & ->). apply same_fields; reflexivity.
  - apply journal_decides in H as (s & _ & ->). apply same_fields; reflexivity.
Qed.
End Env.
