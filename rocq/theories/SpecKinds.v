(** * The iterator, kind by kind: events, journals and to-dos, and the fields that hold their schedule *)
From Verif Require Import Base Env Chrono Types Components Iter SpecIter.

Inductive kind := an_event | a_journal | a_todo.
Definition item (k : kind) : Type := match k with an_event => vevent | a_journal => vjournal | a_todo => vtodo end.
(** DTSTART, DTEND (of events only), EXDATE and RRULE of a component. *)
Definition start_of {k} : item k -> option date :=
  match k with an_event => fun x => Some (ev_dtstart x) | a_journal => fun x => Some (jo_dtstart x) | a_todo => to_dtstart end.
Definition end_of {k} : item k -> option date :=
  match k with an_event => ev_dtend | a_journal => fun _ => None | a_todo => fun _ => None end.
Definition excluded_of {k} : item k -> list date :=
  match k with an_event => ev_exdate | a_journal => jo_exdate | a_todo => to_exdate end.
Definition rule_of {k} : item k -> option recur :=
  match k with an_event => ev_rrule | a_journal => jo_rrule | a_todo => to_rrule end.
(** The component with another rule, everything else as it was. *)
Definition with_rule {k} : item k -> recur -> item k :=
  match k with
  | an_event => fun x r => set_ev_rrule x (Some r)
  | a_journal => fun x r => set_jo_rrule x (Some r)
  | a_todo => fun x r => set_to_rrule x (Some r)
  end.

(** The code's iterators: [x.recurrent()], [x.after(a)] and [x.between(a, b)] of a component, and what
    repeated calls of [next()] on them show. *)
Definition code (k : kind) : recurring (item k) :=
  match k with an_event => rec_vevent | a_journal => rec_vjournal | a_todo => rec_vtodo end.
Definition series {E : Env} {k} (x : item k) : list (item k) -> fate -> Prop := run (recur_next (code k)) x.
Definition series_after {E : Env} {k} (a : date) (x : item k) : list (item k) -> fate -> Prop :=
  run (after_next (code k) a) (after_init x).
Definition series_between {E : Env} {k} (a b : date) (x : item k) : list (item k) -> fate -> Prop :=
  run (between_next (code k) a b) (between_init x).
(** The start of [y] is before [a], in the crate's order. *)
Definition starts_early {E : Env} {k} (a : date) (y : item k) : bool :=
  match start_of y with Some s => date_ltb s a | None => false end.
