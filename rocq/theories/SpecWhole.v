(** * The whole series of a component, in one formula. *)
From Verif Require Import Base Env Chrono Types Components Iter SpecIter SpecKinds SpecFinite.
(** A start and the end that goes with it, if any. *)
Definition slot : Type := date * option date.
Section Env.
Context {E : Env}.
(** The rule added to both. *)
Definition next_slot (r : recur) (a b : slot) : Prop :=
  recur_add r (fst a) = Ok (fst b) /\
  match snd a, snd b with Some e, Some e' => recur_add r e = Ok e' | None, None => True | _, _ => False end.
Definition no_next (r : recur) (a : slot) : Prop := recur_add r (fst a) = Panic \/ some_such (snd a) (fun e => recur_add r e = Panic).
(** [walk r a l f]: the slots after [a] are [l], one after the other; the last one (of [a] and [l])
    is the first past UNTIL ([f] is [Ended]) or cannot be stepped from ([f] is [Panicked]). *)
Inductive walk (r : recur) : slot -> list slot -> fate -> Prop :=
| walk_past a : past_until r (fst a) -> walk r a [] Ended
| walk_stuck a : ~ past_until r (fst a) -> no_next r a -> walk r a [] Panicked
| walk_on a b l f : ~ past_until r (fst a) -> next_slot r a b -> walk r b l f -> walk r a (b :: l) f.
(** Those that are not excluded. *)
Definition remaining (excluded : list date) (l : list slot) : list slot := filter (fun s => negb (existsb (date_eqb (fst s)) excluded)) l.
(** COUNT, or all. *)
Definition limit (r : recur) (n : nat) : nat := match r_count r with Some c => Nat.min (Z.to_nat c) n | None => n end.
Definition fate_of (r : recur) (n : nat) (f : fate) : fate := match r_count r with Some c => if c <? Z.of_nat n then Ended else f | None => f end.
(** The slots of the occurrences. *)
Definition slots_of {k} (l : list (item k)) : list (option date * option date) := map (fun y => (start_of y, end_of y)) l.
Definition as_found (l : list slot) : list (option date * option date) := map (fun s => (Some (fst s), snd s)) l.
(** [y] is [x] with more exclusions. *)
Definition more_excluded {k} (x y : item k) (ts : list date) : Prop :=
  start_of y = start_of x /\ end_of y = end_of x /\ rule_of y = rule_of x /\ excluded_of y = excluded_of x ++ ts.
(** Without those at the times [ts]. *)
Definition struck (ts : list date) (l : list (option date * option date)) : list (option date * option date) :=
  filter (fun s => match fst s with Some t => negb (existsb (date_eqb t) ts) | None => true end) l.
(** The event with another list of exclusions. *)
Definition event_excluding (v : vevent) (x : list date) : vevent :=
  mk_vevent (ev_dtstamp v) (ev_uid v) (ev_dtstart v) (ev_class v) (ev_created v) (ev_description v) (ev_geo v) (ev_last_modified v) (ev_location v) (ev_organizer v) (ev_priority v) (ev_sequence v) (ev_status v) (ev_summary v) (ev_transp v) (ev_url v) (ev_recurid v) (ev_rrule v) (ev_dtend v) (ev_duration v) (ev_attach v) (ev_attendee v) (ev_categories v) (ev_comment v) (ev_contact v) x (ev_rstatus v) (ev_related_to v) (ev_resources v) (ev_rdate v) (ev_alarms v) (ev_x_prop v) (ev_iana_prop v).
End Env.
