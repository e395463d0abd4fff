(** * The recurrence set of RFC 5545 (3.3.10 RRULE, 3.8.5.1 EXDATE) for rules without BY parts, written without the iterator *)
From Verif Require Import Base Env Chrono Types Components Iter SpecIter.

(** A rule that RFC 5545 allows and that has no BY parts: a positive interval, not both COUNT and UNTIL. *)
Definition rfc_rule (r : recur) : Prop :=
  1 <= r_interval r <= 255 /\ match r_count r with Some c => 0 <= c <= 255 | None => True end /\ (r_count r = None \/ r_until r = None) /\
  r_by_second r = [] /\ r_by_minute r = [] /\ r_by_hour r = [] /\ r_by_day r = [] /\ r_by_monthday r = [] /\ r_by_yearday r = [] /\
  r_by_weekno r = [] /\ r_by_month r = [] /\ r_by_setpos r = [].
(** A start for which the RFC's set is meant here: a date with a daily or slower rule, a floating date-time, or an instant (written in UTC)
    with a rule below monthly; in whole seconds. *)
Definition whole (n : ndt) : Prop := 0 <= nd_secs n < 86400 /\ nd_nano n = 0 /\ date_ok (nd_date n) = true.
Definition rfc_start (r : recur) (d : date) : Prop :=
  match d with
  | DDate n => daily_or_slower (r_freq r) /\ date_ok n = true
  | DDateTime (Naive n) => whole n
  | DDateTime (Local n) => whole n /\ unit_seconds (r_freq r) <> None
  end.
(** The same day of the month, [k] intervals of months or years later. *)
Definition same_day_later (r : recur) (k : nat) (n n' : ndate) : Prop :=
  exists y m d y' m', ymd_of_days n = (y, m, d) /\ ymd_of_days n' = (y', m', d) /\
    match r_freq r with
    | Monthly => 12 * y' + m' = 12 * y + m + Z.of_nat k * r_interval r
    | _ => m' = m /\ y' = y + Z.of_nat k * r_interval r
    end.
(** [d'] is the date [k] intervals after [d]. Not every [k] has one: there is no 31 April and no 29 February 2025. *)
Definition candidate (r : recur) (d : date) (k : nat) (d' : date) : Prop :=
  match unit_seconds (r_freq r) with
  | Some u => moved (r_freq r) k (Z.of_nat k * (r_interval r * u)) d d'
  | None =>
      match d, d' with
      | DDate n, DDate n' => same_day_later r k n n'
      | DDateTime (Naive n), DDateTime (Naive n') => same_day_later r k (nd_date n) (nd_date n') /\ nd_secs n' = nd_secs n /\ nd_nano n' = nd_nano n
      | _, _ => False
      end
  end.
(** UNTIL is the last moment allowed; COUNT is the number of the dates generated, of those that exist. *)
Definition generated (r : recur) (d : date) (d' : date) : Prop :=
  exists k, candidate r d k d' /\
    (forall u, r_until r = Some u -> second_of d' <= second_of u) /\
    (forall c, r_count r = Some c -> forall js, NoDup js -> (forall j, In j js -> (j < k)%nat /\ exists dj, candidate r d j dj) -> Z.of_nat (length js) < c).
(** EXDATE takes dates away from what the rule generated. *)
Definition rfc_set (r : recur) (d : date) (excluded : list date) (d' : date) : Prop := generated r d d' /\ ~ In d' excluded.

(** Schedules that the crate expands like the RFC: *)
Definition agreeable {E : Env} (r : recur) (d : date) (excluded : list date) : Prop :=
  (* the start is not excluded; *)
  ~ In d excluded /\
  (* a monthly rule does not start on a day that some months lack; *)
  (r_freq r = Monthly -> forall y m dd, ymd_of_days (match d with DDate n => n | DDateTime (Naive n) | DDateTime (Local n) => nd_date n end) = (y, m, dd) -> dd <= 28) /\
  (* with COUNT, none of the dates that COUNT counts is excluded; *)
  (forall c k d', r_count r = Some c -> Z.of_nat k < c -> candidate r d k d' -> ~ In d' excluded) /\
  (* with UNTIL, no date of the rule falls on the day of UNTIL after UNTIL (for instants: the wall clock tells days apart as the instants do), *)
  (forall u k d', r_until r = Some u -> candidate r d k d' -> (date_naive d' <= date_naive u <-> second_of d' <= second_of u)) /\
  (* and the first date past UNTIL is not excluded. *)
  (forall u k d', r_until r = Some u -> candidate r d k d' -> second_of u < second_of d' ->
     (forall j dj, (j < k)%nat -> candidate r d j dj -> second_of dj <= second_of u) -> ~ In d' excluded).
