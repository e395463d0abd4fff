(** * Saving and loading a schedule; what its dates must satisfy to survive. *)
From Verif Require Import Base Env Chrono Types Components Iter SpecIter SpecKinds SpecRound SpecHistory.

Section Env.
Context {E : Env}.
(** A date that the written form can hold: a plain date; a whole second of the wall clock; a whole second of an
    instant, where the local zone is UTC. *)
Definition keeps (d : date) : Prop :=
  match d with
  | DDate _ => True
  | DDateTime (Naive n) => nd_nano n = 0
  | DDateTime (Local u) => nd_nano u = 0 /\ forall t, tz_offset t = 0
  end.
(** All of a component's dates that have a part in its schedule. *)
Definition schedule_keeps {k} (x : item k) : Prop :=
  (forall d, start_of x = Some d -> keeps d) /\ (forall d, end_of x = Some d -> keeps d) /\ (forall d, In d (excluded_of x) -> keeps d) /\
  (forall r, rule_of x = Some r -> rule_numbers r /\ forall d, r_until r = Some d -> keeps d).
(** Whatever repeated calls of [next()] show of one iterator, they show of the other: the same starts and ends, and the same last word. *)
Definition shows_as {k k'} (seen : list (item k) -> fate -> Prop) (seen' : list (item k') -> fate -> Prop) : Prop :=
  forall l f, seen l f -> exists l', seen' l' f /\ map start_of l' = map start_of l /\ map end_of l' = map end_of l.
(** Of all occurrences, of those after [a], and of those between [a] and [b]. *)
Definition same_schedule {k k'} (x : item k) (x' : item k') : Prop :=
  (shows_as (series x) (series x') /\ shows_as (series x') (series x)) /\
  (forall a, shows_as (series_after a x) (series_after a x') /\ shows_as (series_after a x') (series_after a x)) /\
  (forall a b, shows_as (series_between a b x) (series_between a b x') /\ shows_as (series_between a b x') (series_between a b x)).
(** The schedule of [x] is written in instants, to the second, without UNTIL, and its rule is one of fixed length. *)
Definition instants (d : date) : Prop := exists u, d = DDateTime (Local u) /\ nd_nano u = 0.
Definition zoned_schedule {k} (x : item k) : Prop :=
  (exists d, start_of x = Some d /\ instants d) /\ (forall d, end_of x = Some d -> instants d) /\ (forall d, In d (excluded_of x) -> instants d) /\
  (exists r, rule_of x = Some r /\ rule_numbers r /\ r_until r = None /\ unit_seconds (r_freq r) <> None).
(** [d'] is [s] seconds after [d]. *)
Definition put_off (s : Z) (d d' : date) : Prop :=
  exists u u', d = DDateTime (Local u) /\ d' = DDateTime (Local u') /\ seconds u' = seconds u + s /\ nd_nano u' = nd_nano u.
Definition put_off_end (s : Z) (o o' : option date) : Prop :=
  match o, o' with Some d, Some d' => put_off s d d' | None, None => True | _, _ => False end.
(** The same occurrences, each [s] seconds later, for as far as both series are followed. *)
Definition put_off_series {k} (s : Z) (x x' : item k) : Prop :=
  forall l f l' f', series x l f -> series x' l' f' -> forall i y y', nth_error l i = Some y -> nth_error l' i = Some y' ->
  exists d d', start_of y = Some d /\ start_of y' = Some d' /\ put_off s d d' /\ put_off_end s (end_of y) (end_of y').
End Env.
