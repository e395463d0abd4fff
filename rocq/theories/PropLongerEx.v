(** * C98 on concrete series *)
From Verif Require Import Base Env Chrono Types Components Iter BaseFacts ChronoFacts SpecCal SpecIter PropIterEx SpecKinds PropKinds SpecFinite PropFinite SpecWhole PropWhole PropWholeEx SpecLonger PropLonger.
Section Ex.
Context {E : Env}.
Definition event_of (d : date) (r : recur) : item an_event := plain_event d None (Some r) [].
Definition days_of (l : list (Z * Z * Z)) : list date := map (fun x => match x with (y, m, d) => day y m d end) l.
Ltac seen n := eexists; split; [eapply (collect_run _ n n); vm_compute; reflexivity|vm_compute; reflexivity].
(** Until the 4th and until the 6th. *)
Definition four' : recur := plain_rule Daily (Some (day 2024 1 6)) None 1.
Example C98_goes_on_nonvacuous : exists d, start_of (event_of (day 2024 1 1) four) = Some d /\ rule_of (event_of (day 2024 1 1) four) = Some four /\ rule_of (event_of (day 2024 1 1) four') = Some four' /\
  same_but_rule (event_of (day 2024 1 1) four) (event_of (day 2024 1 1) four') /\ goes_on four four' /\ ~ goes_on four' four /\ tidy d /\ zone_fits E d /\
  (exists l, series (event_of (day 2024 1 1) four) l Ended /\ starts l = days_of [(2024,1,1); (2024,1,2); (2024,1,3); (2024,1,4)]) /\
  (exists l, series (event_of (day 2024 1 1) four') l Ended /\ starts l = days_of [(2024,1,1); (2024,1,2); (2024,1,3); (2024,1,4); (2024,1,5); (2024,1,6)]).
Proof.
  eexists. split; [reflexivity|]. split; [reflexivity|]. split; [reflexivity|]. split; [repeat split|]. split; [|split; [|split; [exact Logic.I|split; [exact Logic.I|split; [seen 9%nat|seen 9%nat]]]]].
  - split; [reflexivity|]. split; [reflexivity|]. split; [|exact Logic.I]. eexists. split; [reflexivity|]. vm_compute. discriminate.
  - intros (_ & _ & (u & U & L) & _). injection U as <-. apply L. vm_compute. reflexivity.
Qed.
(** COUNT=2 and COUNT=3; a COUNT that ends a series before its UNTIL is not one that goes on. *)
Example C98_goes_on_count : goes_on (plain_rule Daily None (Some 2) 1) (plain_rule Daily None (Some 3) 1) /\ ~ goes_on four (plain_rule Daily (Some (day 2024 1 9)) (Some 2) 1).
Proof.
  split; [split; [reflexivity|split; [reflexivity|split; [exact Logic.I|exists 2; split; [reflexivity|lia]]]]|]. intros (_ & _ & _ & c & C & _). discriminate.
Qed.
(** A date is regular. *)
Lemma regular_day y m d : days_of_ymd (-262143) 1 1 <= days_of_ymd y m d -> regular (DDate (days_of_ymd y m d)).
Proof. intros H. split; [exact Logic.I|]. unfold in_calendar. cbn [second_of]. lia. Qed.
Definition weekly : recur := plain_rule Weekly (Some (day 2024 1 20)) None 1.
Definition sevens : recur := plain_rule Daily (Some (day 2024 1 20)) None 7.
Example C98_same_length_nonvacuous : exists d s, start_of (event_of (day 2024 1 1) weekly) = Some d /\ rule_of (event_of (day 2024 1 1) weekly) = Some weekly /\ rule_of (event_of (day 2024 1 1) sevens) = Some sevens /\
  same_but_rule (event_of (day 2024 1 1) weekly) (event_of (day 2024 1 1) sevens) /\ same_limits weekly sevens /\ step_seconds weekly = Some s /\ step_seconds sevens = Some s /\
  (forall e, Some e = Some d \/ end_of (event_of (day 2024 1 1) weekly) = Some e -> regular e /\ (is_plain_date e -> (daily_or_slower (r_freq weekly) <-> daily_or_slower (r_freq sevens)))) /\
  (exists l, series (event_of (day 2024 1 1) weekly) l Ended /\ starts l = days_of [(2024,1,1); (2024,1,8); (2024,1,15)]) /\
  (exists l, series (event_of (day 2024 1 1) sevens) l Ended /\ starts l = days_of [(2024,1,1); (2024,1,8); (2024,1,15)]).
Proof.
  do 2 eexists. split; [reflexivity|]. split; [reflexivity|]. split; [reflexivity|]. split; [repeat split|]. split; [split; reflexivity|]. split; [reflexivity|]. split; [reflexivity|]. split; [|split; seen 9%nat].
  intros e [Q|Q]; [|discriminate]. injection Q as ->. split; [apply regular_day; vm_compute; discriminate|]. intros _. cbn. tauto.
Qed.
(** But a date after 24 hours is a date-time, after a day a date: the series of the two are not the same. *)
Example C98_hours_differ : step_seconds (plain_rule Hourly (Some (day 2024 1 3)) None 24) = step_seconds (plain_rule Daily (Some (day 2024 1 3)) None 1) /\
  (exists l, series (event_of (day 2024 1 1) (plain_rule Hourly (Some (day 2024 1 3)) None 24)) l Ended /\ starts l = [day 2024 1 1; DDateTime (Naive (midnight (days_of_ymd 2024 1 2))); DDateTime (Naive (midnight (days_of_ymd 2024 1 3)))]) /\
  (exists l, series (event_of (day 2024 1 1) (plain_rule Daily (Some (day 2024 1 3)) None 1)) l Ended /\ starts l = [day 2024 1 1; day 2024 1 2; day 2024 1 3]).
Proof. split; [reflexivity|]. split; seen 9%nat. Qed.
(** Every year and every twelve months; from 29 February the former panics at once. *)
Definition yearly : recur := plain_rule Yearly None (Some 3) 1.
Definition twelves : recur := plain_rule Monthly None (Some 3) 12.
Example C98_years_nonvacuous : exists d, start_of (event_of (day 2024 2 28) yearly) = Some d /\ same_but_rule (event_of (day 2024 2 28) yearly) (event_of (day 2024 2 28) twelves) /\ same_limits yearly twelves /\
  r_interval twelves = 12 * r_interval yearly /\ (forall e, Some e = Some d \/ end_of (event_of (day 2024 2 28) yearly) = Some e -> no_leap_day e) /\
  (exists l, series (event_of (day 2024 2 28) yearly) l Ended /\ starts l = days_of [(2024,2,28); (2025,2,28); (2026,2,28)]) /\
  (exists l, series (event_of (day 2024 2 28) twelves) l Ended /\ starts l = days_of [(2024,2,28); (2025,2,28); (2026,2,28)]).
Proof.
  eexists. split; [reflexivity|]. split; [repeat split|]. split; [split; reflexivity|]. split; [reflexivity|]. split; [|split; seen 9%nat].
  intros e [Q|Q]; [|discriminate]. injection Q as ->. cbn [no_leap_day]. intros y. vm_compute. intros X. discriminate.
Qed.
Example C98_leap_day : series (event_of (day 2024 2 29) yearly) [] Panicked /\
  (exists l, series (event_of (day 2024 2 29) twelves) l Ended /\ starts l = days_of [(2024,2,29); (2025,2,28); (2026,2,28)]).
Proof. split; [apply (collect_run _ 9 9); vm_compute; reflexivity|seen 9%nat]. Qed.
(** Every other day. *)
Definition alternate : recur := plain_rule Daily (Some (day 2024 1 6)) None 2.
Example C98_every_other_nonvacuous : exists d, start_of (event_of (day 2024 1 1) four') = Some d /\ rule_of (event_of (day 2024 1 1) four') = Some four' /\ rule_of (event_of (day 2024 1 1) alternate) = Some alternate /\
  same_but_rule (event_of (day 2024 1 1) four') (event_of (day 2024 1 1) alternate) /\ excluded_of (event_of (day 2024 1 1) four') = [] /\ same_limits four' alternate /\ r_count four' = None /\
  r_freq alternate = r_freq four' /\ unit_seconds (r_freq four') <> None /\ r_interval alternate = Z.of_nat 2 * r_interval four' /\ regular d /\ zone_fits E d /\ forward_zone d /\
  (forall e, end_of (event_of (day 2024 1 1) four') = Some e -> regular e) /\
  (exists l, series (event_of (day 2024 1 1) four') l Ended /\ length l = 6%nat) /\
  (exists l, series (event_of (day 2024 1 1) alternate) l Ended /\ starts l = days_of [(2024,1,1); (2024,1,3); (2024,1,5)]).
Proof.
  eexists. split; [reflexivity|]. split; [reflexivity|]. split; [reflexivity|]. split; [repeat split|]. split; [reflexivity|]. split; [split; reflexivity|]. split; [reflexivity|]. split; [reflexivity|]. split; [discriminate|]. split; [reflexivity|].
  split; [apply regular_day; vm_compute; discriminate|]. split; [exact Logic.I|]. split; [exact Logic.I|]. split; [discriminate|]. split; [seen 9%nat|seen 9%nat].
Qed.
(** Every other month from the 31st is not every other of the months from the 31st, which are clamped one after the other. *)
Example C98_months_differ :
  (exists l, series (event_of (day 2024 1 31) (plain_rule Monthly (Some (day 2024 5 31)) None 1)) l Ended /\ starts l = days_of [(2024,1,31); (2024,2,29); (2024,3,29); (2024,4,29); (2024,5,29)]) /\
  (exists l, series (event_of (day 2024 1 31) (plain_rule Monthly (Some (day 2024 5 31)) None 2)) l Ended /\ starts l = days_of [(2024,1,31); (2024,3,31); (2024,5,31)]).
Proof. split; seen 9%nat. Qed.
End Ex.
