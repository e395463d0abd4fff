(** * Two rules: the same steps, longer and shorter ones, every other one. *)
From Verif Require Import Base Env Chrono Types Components Iter SpecCal SpecIter SpecKinds SpecFinite SpecWhole.
Section Env.
Context {E : Env}.
(** [x] and [y] start, end and skip alike (their rules may differ). *)
Definition same_but_rule {k} (x y : item k) : Prop := start_of y = start_of x /\ end_of y = end_of x /\ excluded_of y = excluded_of x.
(** The rule [r'] steps as [r] does and goes at least as far: its UNTIL is no earlier, its COUNT no smaller. *)
Definition goes_on (r r' : recur) : Prop :=
  r_freq r' = r_freq r /\ r_interval r' = r_interval r /\
  match r_until r' with None => True | Some u' => exists u, r_until r = Some u /\ date_naive u <= date_naive u' end /\
  match r_count r' with None => True | Some c' => exists c, r_count r = Some c /\ c <= c' end.
(** UNTIL and COUNT are the same. *)
Definition same_limits (r r' : recur) : Prop := r_until r' = r_until r /\ r_count r' = r_count r.
(** The step of a rule in seconds, if it is the same for all dates. *)
Definition step_seconds (r : recur) : option Z := option_map (fun u => r_interval r * u) (unit_seconds (r_freq r)).
(** A date of the calendar. *)
Definition regular (d : date) : Prop := tidy d /\ in_calendar d.
Definition is_plain_date (d : date) : Prop := match d with DDate _ => True | DDateTime _ => False end.
(** A date or zone-less date-time on another day than 29 February. *)
Definition no_leap_day (d : date) : Prop :=
  match d with
  | DDate n => forall y, ymd_of_days n <> (y, 2, 29)
  | DDateTime (Naive n) => forall y, ymd_of_days (nd_date n) <> (y, 2, 29)
  | DDateTime (Local _) => False
  end.
(** The clocks of the zone are never set back (of no importance to dates without one). *)
Definition forward_zone (d : date) : Prop :=
  match d with DDateTime (Local _) => forall t t', t < t' -> t + tz_offset t < t' + tz_offset t' | _ => True end.
End Env.
