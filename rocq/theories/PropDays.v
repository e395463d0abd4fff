(** * C51 for windows of whole days *)
From Verif Require Import Base Env Chrono Types Components Iter BaseFacts ChronoFacts SpecCal PropDate SpecIter IterFacts PropIter PropIterEx TimeFacts PropTime PropWindow SpecKinds PropKinds SpecFinite PropFinite PropMixed.

(** The local day of the start of [y] is before [b]. *)
Definition day_before {E : Env} {k} (b : ndate) (y : item k) : bool :=
  match start_of y with Some s => day_of s <? b | None => false end.
(** ... is one of [a], ..., [b] - 1. *)
Definition in_days {E : Env} {k} (a b : ndate) (y : item k) : bool := negb (day_before a y) && day_before b y.

Section Days.
Context {E : Env}.
Lemma early_day k b (y : item k) : starts_early (DDate b) y = day_before b y.
Proof.
  unfold starts_early, day_before. destruct (start_of y) as [s|]; [|reflexivity]. unfold date_ltb.
  pose proof (C36_mixed_before s (DDate b)) as P. cbn [day_of] in P. destruct (Z.ltb_spec (day_of s) b).
  - rewrite (proj2 P) by auto. reflexivity.
  - destruct (date_cmp s (DDate b)); auto. destruct (proj1 P eq_refl) as [Q|(u & v & _ & Q & _)]; [lia|discriminate].
Qed.
(** When both bounds are dates, the window has the occurrences whose local day lies in it, at whatever time of day. *)
Theorem C51_days : forall k (x : item k) d r (a b : ndate) l f,
  start_of x = Some d -> rule_of x = Some r -> orderly r d -> tidy d -> zone_fits E d -> 1 <= r_interval r ->
  series x l f ->
  series_after (DDate a) x (filter (fun y => negb (day_before a y)) l) f /\
  exists g, series_between (DDate a) (DDate b) x (filter (in_days a b) l) g /\
    ((exists y, In y l /\ day_before a y = false /\ day_before b y = false) /\ g = Ended \/
     (forall y, In y l -> day_before a y = true \/ day_before b y = true) /\ g = f).
Proof.
  intros k x d r a b l f Hd Hr O Td Zf I H. destruct (C51_kind k x d r (DDate a) (DDate b) l f Hd Hr O Td Zf I H) as (A & g & B & C). split; [|exists g; split].
  - rewrite (filter_ext _ (fun y => negb (starts_early (DDate a) y))); [exact A|]. intros y. now rewrite early_day.
  - rewrite (filter_ext _ (fun y => negb (starts_early (DDate a) y) && starts_early (DDate b) y)); [exact B|]. intros y. unfold in_days. now rewrite !early_day.
  - destruct C as [[(y & P & Q & Q') ->]|[P ->]]; [left; split; [|reflexivity]; exists y; rewrite <- !early_day; auto|right; split; [|reflexivity]].
    intros y. rewrite <- !early_day. auto.
Qed.
Lemma filter_joins {A} (p q c : A -> bool) (l : list A) :
  (forall y, p y = true -> q y = true) -> (forall y, q y = true -> c y = true) ->
  (forall before x between y after, l = before ++ x :: between ++ y :: after -> q y = true -> q x = true) ->
  filter (fun y => negb (p y) && c y) l = filter (fun y => negb (p y) && q y) l ++ filter (fun y => negb (q y) && c y) l.
Proof.
  intros Pq Qc. induction l as [|h l IH]; intros S0; [reflexivity|]. cbn [filter].
  assert (S1 : forall before x between y after, l = before ++ x :: between ++ y :: after -> q y = true -> q x = true).
  { intros b x m y t -> . exact (S0 (h :: b) x m y t eq_refl). }
  specialize (IH S1). destruct (q h) eqn:Q.
  - rewrite (Qc _ Q). destruct (p h); cbn [negb andb]; rewrite IH; reflexivity.
  - assert (P : p h = false). { destruct (p h) eqn:P; [|reflexivity]. rewrite (Pq _ P) in Q. discriminate. }
    rewrite P. cbn [negb andb]. rewrite IH. assert (N : filter (fun y => negb (p y) && q y) l = []).
    { rewrite <- (filter_ext_in (fun _ => false)); [clear; induction l; auto|]. intros y Hy. destruct (q y) eqn:Qy; [|now rewrite andb_false_r].
      apply in_split in Hy as (m & t & ->). specialize (S0 [] h m y t eq_refl Qy). congruence. }
    rewrite N. reflexivity.
Qed.
(** Adjacent windows: what [between(a, c)] gives is what [between(a, b)] gives and then what [between(b, c)] gives; nothing is
    lost or given twice. *)
Theorem C51_days_join : forall k (x : item k) d r (a b c : ndate) l f,
  start_of x = Some d -> rule_of x = Some r -> orderly r d -> tidy d -> zone_fits E d -> 1 <= r_interval r -> a <= b <= c ->
  series x l f -> over f ->
  exists l1 l2 f1 f2 f3, series_between (DDate a) (DDate b) x l1 f1 /\ series_between (DDate b) (DDate c) x l2 f2 /\
    series_between (DDate a) (DDate c) x (l1 ++ l2) f3 /\ over f1 /\ over f2 /\ over f3 /\
    Forall (fun y => in_days a b y = true) l1 /\ Forall (fun y => in_days b c y = true) l2 /\
    (forall y, In y l -> in_days a c y = true -> In y (l1 ++ l2)).
Proof.
  intros k x d r a b c l f Hd Hr O Td Zf I L H Ov.
  destruct (C51_days k x d r a b l f Hd Hr O Td Zf I H) as (_ & f1 & R1 & G1). destruct (C51_days k x d r b c l f Hd Hr O Td Zf I H) as (_ & f2 & R2 & G2).
  destruct (C51_days k x d r a c l f Hd Hr O Td Zf I H) as (_ & f3 & R3 & G3).
  assert (J : filter (in_days a c) l = filter (in_days a b) l ++ filter (in_days b c) l).
  { unfold in_days. apply filter_joins.
    - intros y. unfold day_before. destruct (start_of y); [|auto]. rewrite !Z.ltb_lt. lia.
    - intros y. unfold day_before. destruct (start_of y); [|auto]. rewrite !Z.ltb_lt. lia.
    - intros p y m z q -> . rewrite <- !early_day, <- !code_early.
      exact (orderly_stays (code k) x d r (DDate b) _ f (code_recurs k) (eq_trans (code_start k x) Hd) (eq_trans (code_rule k x) Hr) O Td Zf I H p y m z q eq_refl). }
  exists (filter (in_days a b) l), (filter (in_days b c) l), f1, f2, f3. rewrite <- J.
  assert (W : forall g (P Q : Prop), P /\ g = Ended \/ Q /\ g = f -> over g) by (intros g P Q [[_ ->]|[_ ->]]; [left; reflexivity|exact Ov]).
  repeat match goal with |- _ /\ _ => split end; eauto.
  - apply Forall_forall. intros y Hy. now apply filter_In in Hy.
  - apply Forall_forall. intros y Hy. now apply filter_In in Hy.
  - intros y Hy Q. now apply filter_In.
Qed.
(** [at(day)]: the occurrences of that day, at whatever time. *)
Corollary C51_at_day : forall k (x : item k) d r (a : ndate) l f,
  start_of x = Some d -> rule_of x = Some r -> orderly r d -> tidy d -> zone_fits E d -> 1 <= r_interval r -> date_ok (a + 1) = true ->
  series x l f -> over f ->
  exists b g l', at_end (DDate a) = Ok b /\ series_between (DDate a) b x l' g /\ over g /\
    forall y, In y l' <-> In y l /\ exists s, start_of y = Some s /\ day_of s = a.
Proof.
  intros k x d r a l f Hd Hr O Td Zf I Ok1 H Ov. destruct (C51_days k x d r a (a + 1) l f Hd Hr O Td Zf I H) as (_ & g & R & G).
  exists (DDate (a + 1)), g, (filter (in_days a (a + 1)) l). split.
  { unfold at_end. change (td_days 1) with (Ok 86400000000000 : outcome tdelta). cbn [obind date_plus_td]. unfold date_add_td.
    change (Z.quot 86400000000000 (86400 * NANOS)) with 1. cbv zeta. rewrite Ok1. reflexivity. }
  split; [exact R|]. split; [destruct G as [[_ ->]|[_ ->]]; [left; reflexivity|exact Ov]|].
  intros y. rewrite filter_In. unfold in_days, day_before. split; intros [A B]; (split; [exact A|]).
  - destruct (start_of y) as [s|]; [|discriminate]. exists s. split; [reflexivity|]. apply andb_prop in B as [B C]. apply negb_true_iff in B. apply Z.ltb_ge in B. apply Z.ltb_lt in C. lia.
  - destruct B as (s & -> & D). rewrite (proj2 (Z.ltb_ge (day_of s) a)), (proj2 (Z.ltb_lt (day_of s) (a + 1))) by lia. reflexivity.
Qed.
End Days.
Definition every_six_hours : item an_event := plain_event (DDateTime (Naive (mk_ndt (days_of_ymd 2024 1 1) 43200 0))) None (Some (plain_rule Hourly None (Some 6) 6)) [].
(** From noon of 1 January every six hours, six times: 2 January has four of them, at 0:00, 6:00, 12:00 and 18:00. *)
Example C51_nonvacuous_days : forall E : Env, exists l,
  series every_six_hours l Ended /\ length l = 6%nat /\ start_of every_six_hours = Some (clock 2024 1 1 12 0 0) /\
  map start_of (filter (in_days (days_of_ymd 2024 1 2) (days_of_ymd 2024 1 3)) l) =
    [Some (clock 2024 1 2 0 0 0); Some (clock 2024 1 2 6 0 0); Some (clock 2024 1 2 12 0 0); Some (clock 2024 1 2 18 0 0)] /\
  exists l', series_between (day 2024 1 2) (day 2024 1 3) every_six_hours l' Ended /\ length l' = 4%nat.
Proof. intros E. eexists. split; [runs|]. split; [reflexivity|]. split; [reflexivity|]. split; [vm_compute; reflexivity|]. eexists. split; [runs|reflexivity]. Qed.
