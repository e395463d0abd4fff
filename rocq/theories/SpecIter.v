(** * Running an iterator, and positions in time; independent of the iterator's code. *)
From Verif Require Import Base Env Chrono Types Components Iter.

(** ** What repeated calls of [next()] show *)
(** How a sequence of calls ends: the caller stops calling; [None] is returned; a
    panic; a call that never returns. *)
Inductive fate := Cut | Ended | Panicked | Hangs.
Section Run.
  Context {St A : Type} (next : nat -> St -> ires St A).
  (** [run s l f]: successive calls from the state [s] return the items [l], then [f].
      The first argument of [next] bounds the turns of its loop: a call returns when
      it does so for some bound, and never returns when it does for none. *)
  Inductive run : St -> list A -> fate -> Prop :=
  | run_cut s : run s [] Cut
  | run_end s s' n : next n s = IDone s' -> run s [] Ended
  | run_panic s n : next n s = IPanic -> run s [] Panicked
  | run_hang s : (forall n, next n s = IFuel) -> run s [] Hangs
  | run_more s n a s' l f : next n s = IYield a s' -> run s' l f -> run s (a :: l) f.
End Run.

(** The three kinds of recurring components, and the fields that hold their schedule: what the theorems mean by the start, the exclusions,
    the end, the due date and the rule of a component.  (Written out here, not taken from the model's own instances: that those are
    the same is [C38_three_kinds].) *)
Definition event_fields : recurring vevent :=
  mk_rec _ (fun x => Some (ev_dtstart x)) ev_exdate set_ev_dtstart ev_dtend (fun x d => set_ev_dtend x (Some d))
         (fun _ => None) (fun x _ => x) ev_rrule (fun x r => set_ev_rrule x (Some r)).
Definition journal_fields : recurring vjournal :=
  mk_rec _ (fun x => Some (jo_dtstart x)) jo_exdate set_jo_dtstart (fun _ => None) (fun x _ => x)
         (fun _ => None) (fun x _ => x) jo_rrule (fun x r => set_jo_rrule x (Some r)).
Definition todo_fields : recurring vtodo :=
  mk_rec _ to_dtstart to_exdate (fun x d => set_to_dtstart x (Some d)) (fun _ => None) (fun x _ => x)
         to_due (fun x d => set_to_due x (Some d)) to_rrule (fun x r => set_to_rrule x (Some r)).
Inductive recurs : forall T, recurring T -> Prop :=
| recurs_event : recurs vevent event_fields
| recurs_journal : recurs vjournal journal_fields
| recurs_todo : recurs vtodo todo_fields.
Arguments recurs {T}.

(** ** Time *)
(** The length of a frequency, when it has one. *)
Definition unit_seconds (f : freq) : option Z :=
  match f with
  | Secondly => Some 1 | Minutely => Some 60 | Hourly => Some 3600
  | Daily => Some 86400 | Weekly => Some 604800 | Monthly | Yearly => None
  end.
Definition daily_or_slower (f : freq) : Prop :=
  match f with Secondly | Minutely | Hourly => False | _ => True end.
(** Whole seconds since the epoch. *)
Definition seconds (n : ndt) : Z := nd_date n * 86400 + nd_secs n.
(** A time of day; the fraction is at least 10^9 inside a leap second. *)
Definition tidy_time (n : ndt) : Prop := 0 <= nd_secs n < 86400 /\ 0 <= nd_nano n < 2000000000.
Definition tidy (d : date) : Prop :=
  match d with DDate _ => True | DDateTime (Naive n) | DDateTime (Local n) => tidy_time n end.
(** The date-time [s] seconds after [n]; a leap second counts as the 59th second. *)
Definition later (n : ndt) (s : Z) (n' : ndt) : Prop :=
  s = 0 /\ n' = n \/
  0 < s /\ seconds n' = seconds n + s /\ 0 <= nd_secs n' < 86400 /\ nd_nano n' = nd_nano n mod 1000000000.
(** [d'] is [d] after [k] steps of a frequency [f], [s] seconds in all. *)
Definition moved (f : freq) (k : nat) (s : Z) (d d' : date) : Prop :=
  match d, d' with
  | DDate n, DDate n' => (k = O \/ daily_or_slower f) /\ n' * 86400 = n * 86400 + s
  | DDate n, DDateTime (Naive m) => k <> O /\ ~ daily_or_slower f /\ later (midnight n) s m
  | DDateTime (Naive n), DDateTime (Naive m) => later n s m
  | DDateTime (Local u), DDateTime (Local w) => later u s w
  | _, _ => False
  end.
(** Position in time, in whole seconds: of the wall clock for a date (midnight) or
    zone-less date-time, of the instant for a zoned one. *)
Definition second_of (d : date) : Z :=
  match d with DDate n => n * 86400 | DDateTime (Naive n) | DDateTime (Local n) => seconds n end.

(** The values of a rule that its Rust type allows. *)
Definition rule_ok (r : recur) : Prop :=
  0 <= r_interval r <= 255 /\ match r_count r with Some c => 0 <= c <= 255 | None => True end.
(** Offsets from UTC are less than a day. *)
Definition sane_zone (E : Env) : Prop :=
  forall t, -86400 < tz_offset t < 86400 /\
  match tz_local t with MSingle o => -86400 < o < 86400 | _ => True end.
(** [r + d] applied [k] times. *)
Inductive steps {E : Env} (r : recur) : nat -> date -> date -> Prop :=
| steps_0 d : steps r 0 d d
| steps_S k d d' d'' : recur_add r d = Ok d' -> steps r k d' d'' -> steps r (S k) d d''.
(** The same for an end that may be missing. *)
Definition steps_opt {E : Env} (r : recur) (k : nat) (e e' : option date) : Prop :=
  match e, e' with Some a, Some b => steps r k a b | None, None => True | _, _ => False end.
(** A date past UNTIL. *)
Definition past_until {E : Env} (r : recur) (d : date) : Prop :=
  match r_until r with Some u => date_naive u < date_naive d | None => False end.
(** A rule with its COUNT reduced by [i]. *)
Definition count_down (r : recur) (i : nat) : recur :=
  set_count r (option_map (fun c => c - Z.of_nat i) (r_count r)).
(** Rules that differ in their BY parts and WKST at most. *)
Definition same_but_by (r r' : recur) : Prop :=
  r_freq r = r_freq r' /\ r_until r = r_until r' /\ r_count r = r_count r' /\ r_interval r = r_interval r'.
(** Steps from [d] always exist for the zone-less ones; for a zoned date-time the
    offsets must make sense. *)
Definition zone_fits (E : Env) (d : date) : Prop := match d with DDateTime (Local _) => sane_zone E | _ => True end.
(** With a zero interval a step leaves these dates where they are. *)
Definition standing (r : recur) (d : date) : Prop :=
  match d with
  | DDate n => daily_or_slower (r_freq r) /\ date_ok n = true
  | DDateTime (Naive n) => ndt_wf n = true
  | DDateTime (Local n) => ndt_wf n = true /\ unit_seconds (r_freq r) <> None
  end.
(** Starts whose occurrences come in the crate's own order: all of one kind, and in a
    zone whose clocks are never set back. *)
Definition orderly {E : Env} (r : recur) (d : date) : Prop :=
  match d with
  | DDate _ => daily_or_slower (r_freq r)
  | DDateTime (Naive _) => True
  | DDateTime (Local _) => forall t t', t < t' -> t + tz_offset t < t' + tz_offset t'
  end.
(** The start of [y] is before [a], in the crate's order. *)
Definition start_before {E : Env} {T} (R : recurring T) (a : date) (y : T) : bool :=
  match rc_dtstart R y with Some s => date_ltb s a | None => false end.
(** Once an item is not before [a], none of the following ones is. *)
Definition stays_out {E : Env} {T} (R : recurring T) (a : date) (l : list T) : Prop :=
  forall before x between y after, l = before ++ x :: between ++ y :: after -> start_before R a y = true -> start_before R a x = true.
