(** * C39, C40, C43, C44, C47-C50, C52: occurrences in time *)
From Verif Require Import Base Env Chrono Types Components Iter BaseFacts ChronoFacts SpecCal PropDate SpecIter IterFacts PropIter TimeFacts.

Section PropTime.
Context {E : Env}.
(** ** C39 *)
Theorem C39_kth_occurrence : forall T (R : recurring T) x l f d r u k y,
  recurs R -> rc_dtstart R x = Some d -> rc_rrule R x = Some r -> rc_exdate R x = [] ->
  rule_ok r -> unit_seconds (r_freq r) = Some u ->
  tidy d -> (forall e, rc_dtend R x = Some e -> tidy e) ->
  run (recur_next R) x l f -> nth_error l k = Some y ->
  (exists d', rc_dtstart R y = Some d' /\ moved (r_freq r) k (Z.of_nat k * (r_interval r * u)) d d') /\
  match rc_dtend R x with
  | Some e => exists e', rc_dtend R y = Some e' /\ moved (r_freq r) k (Z.of_nat k * (r_interval r * u)) e e'
  | None => rc_dtend R y = None
  end.
Proof.
  intros T R x l f d r u k y K Hd Hr Hx [Hi _] Hu Td Te H Hk. destruct (run_track R x d r l f K Hd Hr H) as (kz & z & Tr & _).
  destruct (plain_nth R x d r l kz z K Hx Tr) as (_ & P). specialize (P k y Hk). apply item_fields in P as (d' & e' & S1 & S2 & _ & _ & B1 & B2 & _); auto. split.
  - exists d'. split; auto. apply (steps_moved r k d d' u); auto; lia.
  - rewrite B2. destruct (rc_dtend R x) as [e|], e' as [e'|]; cbn [steps_opt] in S2; try contradiction; auto.
    exists e'. split; auto. apply (steps_moved r k e e' u); auto. lia.
Qed.
(** The same in general: the [k]-th start and end are the first ones stepped [k] times. *)
Theorem C39_kth_steps : forall T (R : recurring T) x l f d r k y,
  recurs R -> rc_dtstart R x = Some d -> rc_rrule R x = Some r -> rc_exdate R x = [] ->
  run (recur_next R) x l f -> nth_error l k = Some y ->
  exists d', rc_dtstart R y = Some d' /\ steps r k d d' /\ steps_opt r k (rc_dtend R x) (rc_dtend R y).
Proof.
  intros T R x l f d r k y K Hd Hr Hx H Hk. destruct (run_track R x d r l f K Hd Hr H) as (kz & z & Tr & _).
  destruct (plain_nth R x d r l kz z K Hx Tr) as (_ & P). specialize (P k y Hk). apply item_fields in P as (d' & e' & S1 & S2 & _ & _ & B1 & B2 & _); auto.
  exists d'. rewrite B2. auto.
Qed.

(** ** C43 *)
Lemma steps_increase r k d d' : tidy d -> zone_fits E d -> 1 <= r_interval r -> steps r k d d' ->
  tidy d' /\ zone_fits E d' /\ second_of d <= second_of d' /\ (k <> O -> second_of d < second_of d').
Proof.
  intros Ht Hz Hi H. induction H as [d|k d d1 d2 A St IH]; [repeat split; auto; try lia; congruence|].
  destruct (recur_add_increases r d d1 Ht Hz Hi A) as (L & T1 & Z1). destruct (IH T1 Z1) as (T2 & Z2 & L2 & _). repeat split; auto; lia.
Qed.
Lemma track_positions {T} (R : recurring T) x d r i k l kz z : recurs R -> track R x d r i k l kz z -> forall a b ya yb, (a < b)%nat -> nth_error l a = Some ya -> nth_error l b = Some yb ->
  exists ka kb da db, (ka < kb)%nat /\ rc_dtstart R ya = Some da /\ rc_dtstart R yb = Some db /\ steps r ka d da /\ steps r kb d db.
Proof.
  intros K. induction 1 as [|i k k' y l kz z It C (H1 & H2 & H3 & H4) Tr IH]; intros a b ya yb L Ha Hb; [destruct b; discriminate|].
  destruct b as [|b]; [lia|]. cbn in Hb. destruct a as [|a]; cbn in Ha.
  - inv Ha. destruct (track_nth _ _ _ _ _ _ _ _ _ Tr _ _ Hb) as (kn & Q & _ & Itb & _). apply item_fields in It as (da & ea & S1 & _ & _ & _ & B1 & _); auto.
    apply item_fields in Itb as (db & eb & S2 & _ & _ & _ & B2 & _); auto. exists k, kn, da, db. split; [lia|]. auto.
  - apply (IH a b); auto. lia.
Qed.
Theorem C43_strictly_increasing : forall T (R : recurring T) x l f d r i j y z dy dz,
  recurs R -> rc_dtstart R x = Some d -> rc_rrule R x = Some r -> 1 <= r_interval r -> tidy d -> zone_fits E d ->
  run (recur_next R) x l f -> (i < j)%nat -> nth_error l i = Some y -> nth_error l j = Some z -> rc_dtstart R y = Some dy -> rc_dtstart R z = Some dz ->
  second_of dy < second_of dz.
Proof.
  intros T R x l f d r i j y z dy dz K Hd Hr Hi Ht Hz H L Hy Hj Hdy Hdz. destruct (run_track R x d r l f K Hd Hr H) as (kz & w & Tr & _).
  destruct (track_positions R x d r 0 0 l kz w K Tr i j y z L Hy Hj) as (ka & kb & da & db & Lk & A & B & Sa & Sb). rewrite A in Hdy. rewrite B in Hdz. inv Hdy. inv Hdz.
  replace kb with (ka + (kb - ka))%nat in Sb by lia. apply steps_split in Sb as (m & S1 & S2). rewrite <- (steps_det _ _ _ _ _ Sa S1) in S2.
  destruct (steps_increase r ka d dy Ht Hz Hi Sa) as (T1 & Z1 & _). destruct (steps_increase r _ _ _ T1 Z1 Hi S2) as (_ & _ & _ & G). apply G. lia.
Qed.

(** ** C44 *)
Lemma fuel_skips {T} (R : recurring T) r n : recurs R -> 1 <= r_interval r -> forall x d, rc_dtstart R x = Some d -> rc_rrule R x = Some r -> tidy d -> zone_fits E d ->
  next_loop R n x = IFuel -> exists ds, length ds = n /\ Forall (fun y => In y (rc_exdate R x) /\ second_of d < second_of y) ds /\ NoDup ds.
Proof.
  intros K Hi. induction n as [|n IH]; intros x d Hd Hr Ht Hz H; [exists []; repeat split; constructor|].
  cbn [next_loop] in H. rewrite (body_eq R x d r K Hd Hr) in H. destruct (until_over r d); [discriminate|].
  destruct (recur_add r d) as [d1| |] eqn:A; try discriminate. destruct (add_opt r (rc_dtend R x)) as [e1| |] eqn:A'; try discriminate.
  destruct (existsb (date_eqb d1) (rc_exdate R x)) eqn:X.
  2:{ destruct (r_count r) as [c|]; [destruct (c =? 0)|]; discriminate. }
  apply in_ex in X. pose proof (steps_opt_shaped _ _ _ _ _ (add_opt_steps _ _ _ A')) as Sh. destruct (occ_fields R x d1 e1 r K Sh) as (O1 & O2 & O3 & O4).
  destruct (recur_add_increases r d d1 Ht Hz Hi A) as (L & T1 & Z1). destruct (IH _ d1 O1 O3 T1 Z1 H) as (ds & Hl & F & N). rewrite O4 in F.
  exists (d1 :: ds). split; [cbn; auto|]. rewrite Forall_forall in *. split.
  - intros y [<-|Hy]; auto. destruct (F y Hy). split; auto. lia.
  - constructor; auto. intros Hin. destruct (F d1 Hin). lia.
Qed.
Theorem C44_returns : forall T (R : recurring T) x fuel,
  recurs R ->
  (forall d r, rc_dtstart R x = Some d -> rc_rrule R x = Some r -> 1 <= r_interval r /\ tidy d /\ zone_fits E d) ->
  (length (rc_exdate R x) < fuel)%nat -> recur_next R fuel x <> IFuel.
Proof.
  intros T R x fuel K H L F. unfold recur_next in F. destruct (next_loop R fuel x) eqn:N; try discriminate.
  assert (B0 : rc_dtstart R x = None \/ rc_rrule R x = None -> False).
  { intros B. destruct fuel; [lia|]. cbn [next_loop] in N. rewrite body_none in N by auto. discriminate. }
  destruct (rc_dtstart R x) as [d|] eqn:D; [|auto]. destruct (rc_rrule R x) as [r|] eqn:Rr; [|auto].
  destruct (H d r eq_refl eq_refl) as (Hi & Ht & Hz). destruct (fuel_skips R r fuel K Hi x d D Rr Ht Hz N) as (ds & Hl & Fa & Nd).
  assert (incl ds (rc_exdate R x)) by (intros y Hy; rewrite Forall_forall in Fa; now apply Fa). apply NoDup_incl_length in H0; auto. lia.
Qed.
Lemma zero_unit r n : ndt_wf n = true -> r_interval r = 0 -> unit_seconds (r_freq r) <> None -> recur_add_ndt r n = Ok n /\ recur_add_local r n = Ok n.
Proof.
  intros W Z0 U. unfold ndt_wf in W. rewrite !andb_true_iff, !Z.leb_le, !Z.ltb_lt in W. destruct W as [[[[W1 W2] W3] W4] W5].
  assert (A : ndt_add_td n 0 = Ok n).
  { destruct n as [a b c]. cbn [nd_date nd_secs nd_nano] in *. unfold ndt_add_td. change (Z.quot 0 NANOS) with 0. change (Z.rem 0 NANOS) with 0. cbn [nd_date nd_secs nd_nano].
    change (0 <? 0) with false. cbn [orb andb]. rewrite !Z.add_0_r. destruct (Z.leb_spec NANOS c); [reflexivity|].
    destruct (Z.ltb_spec c 0); [lia|]. destruct (Z.leb_spec NANOS c); [lia|]. rewrite Z.div_small, Z.mod_small, Z.add_0_r by lia. now rewrite W1. }
  unfold recur_add_ndt, recur_add_local, local_add_td, td_seconds, td_minutes, td_hours, td_days, td_weeks. rewrite Z0, !Z.mul_0_l.
  destruct (r_freq r); cbn in U; try congruence; auto.
Qed.
Lemma zero_months n : date_add_months n 0 = Ok n.
Proof. reflexivity. Qed.
Lemma zero_year n : date_ok n = true -> date_with_year n (date_year n + 0) = Some n.
Proof.
  intros H. unfold date_with_year, date_year. destruct (ymd_of_days n) as [[y m] d] eqn:D. cbn [fst]. rewrite Z.add_0_r. apply from_ymd_opt_iff. auto.
Qed.
Lemma standing_stays r d : standing r d -> r_interval r = 0 -> recur_add r d = Ok d.
Proof.
  intros S Z0. destruct d as [n|[n|n]]; cbn [standing recur_add] in *.
  - destruct S as [D Ho]. apply daily_dec in D. rewrite D. unfold recur_add_date, td_days, td_weeks. rewrite Z0.
    destruct (r_freq r); try discriminate D; auto; cbn [Z.mul].
    + change (td_check 0) with (@Ok tdelta 0). cbn [obind]. unfold date_add_td. change (Z.quot 0 (86400 * NANOS)) with 0. rewrite Z.add_0_r, Ho. reflexivity.
    + change (td_check 0) with (@Ok tdelta 0). cbn [obind]. unfold date_add_td. change (Z.quot 0 (86400 * NANOS)) with 0. rewrite Z.add_0_r, Ho. reflexivity.
    + rewrite zero_year by auto. reflexivity.
  - cbn [recur_add_dt]. assert (X : recur_add_ndt r n = Ok n); [|rewrite X; reflexivity]. destruct (unit_seconds (r_freq r)) eqn:U; [apply zero_unit; congruence|].
    unfold recur_add_ndt. rewrite Z0. destruct (r_freq r); try discriminate U.
    + unfold ndt_add_months. rewrite zero_months. cbn. now destruct n.
    + unfold ndt_with_year. rewrite zero_year; [cbn; now destruct n|]. unfold ndt_wf in S. rewrite !andb_true_iff in S. tauto.
  - destruct S as [W U]. cbn [recur_add_dt]. destruct (zero_unit r n W Z0 U) as [_ ->]. reflexivity.
Qed.
Theorem C44_zero_interval_hangs : forall T (R : recurring T) x d r,
  recurs R -> rc_dtstart R x = Some d -> rc_rrule R x = Some r -> r_interval r = 0 ->
  standing r d -> (forall e, rc_dtend R x = Some e -> standing r e) -> In d (rc_exdate R x) -> ~ past_until r d ->
  run (recur_next R) x [] Hangs.
Proof.
  intros T R x d r K Hd Hr Z0 Sd Se Hx Hp. constructor. intros n. unfold recur_next. assert (N : next_loop R n x = IFuel); [|now rewrite N].
  induction n as [|n IH]; auto. cbn [next_loop]. rewrite (body_eq R x d r K Hd Hr). destruct (until_over r d) eqn:U; [apply until_over_iff in U; contradiction|].
  rewrite (standing_stays r d Sd Z0). assert (A : add_opt r (rc_dtend R x) = Ok (rc_dtend R x)).
  { destruct (rc_dtend R x) as [e|]; auto. cbn. rewrite (standing_stays r e); auto. }
  rewrite A. apply in_ex in Hx. rewrite Hx. now rewrite (occ_self R x d r K Hd Hr).
Qed.
(** ** C40: the complete run *)
Definition well_timed {T} (R : recurring T) (x : T) : Prop :=
  forall d r, rc_dtstart R x = Some d -> rc_rrule R x = Some r -> 1 <= r_interval r /\ tidy d /\ zone_fits E d.
Lemma well_timed_next {T} (R : recurring T) x n a z : recurs R -> well_timed R x -> recur_next R n x = IYield a z -> well_timed R z.
Proof.
  intros K W N. destruct (rc_dtstart R x) as [d|] eqn:D.
  2:{ destruct n; [discriminate|]. unfold recur_next in N. cbn [next_loop] in N. rewrite body_none in N by auto. discriminate. }
  destruct (rc_rrule R x) as [r|] eqn:Rr.
  2:{ destruct n; [discriminate|]. unfold recur_next in N. cbn [next_loop] in N. rewrite body_none in N by auto. discriminate. }
  destruct (W d r D Rr) as (Hi & Ht & Hz).
  destruct (next_call R K n x d r D Rr) as (m & _ & C); [congruence|]. rewrite N in C. inversion C as [| | |m' dm em d' e' Sk Np Ad Ae Nx Nc Eq1 Eq2]; subst.
  destruct Sk as (S1 & S2 & _). assert (Sh : shaped R a e') by (eapply steps_opt_shaped, steps_opt_app; [exact S2|apply add_opt_steps; exact Ae]).
  destruct (occ_fields R a d' e' (next_count r) K Sh) as (O1 & O2 & O3 & O4). intros d2 r2 Hd2 Hr2. rewrite O1 in Hd2. rewrite O3 in Hr2. inv Hd2. inv Hr2.
  split; [unfold next_count; destruct (r_count r); auto|]. destruct (steps_increase r m d dm Ht Hz Hi S1) as (T1 & Z1 & _).
  destruct (recur_add_increases r dm d2 T1 Z1 Hi Ad) as (_ & T2 & Z2). auto.
Qed.
Theorem C44_any_number_of_calls : forall T (R : recurring T) x n,
  recurs R -> (forall d r, rc_dtstart R x = Some d -> rc_rrule R x = Some r -> 1 <= r_interval r /\ tidy d /\ zone_fits E d) ->
  exists l f, run (recur_next R) x l f /\ (length l <= n)%nat /\ (length l = n \/ f = Ended \/ f = Panicked) /\ f <> Hangs.
Proof.
  intros T R x n K. revert x. induction n as [|n IH]; intros x W.
  - exists [], Cut. repeat split; auto; try constructor. discriminate.
  - pose proof (C44_returns T R x (S (length (rc_exdate R x))) K W ltac:(lia)) as N. destruct (recur_next R (S (length (rc_exdate R x))) x) as [a z|z| |] eqn:Q; try congruence.
    + destruct (IH z) as (l & f & Rn & L & F & Nh); [eapply well_timed_next; eauto|]. exists (a :: l), f. split; [econstructor; eauto|]. cbn. repeat split; auto; [lia|]. destruct F; auto.
    + exists [], Ended. split; [econstructor; eauto|]. cbn. repeat split; auto; [lia|discriminate].
    + exists [], Panicked. split; [econstructor; eauto|]. cbn. repeat split; auto; [lia|discriminate].
Qed.
Theorem C40_count_complete : forall T (R : recurring T) x d r c,
  recurs R -> rc_dtstart R x = Some d -> rc_rrule R x = Some r -> r_count r = Some c -> 0 <= c -> r_until r = None ->
  1 <= r_interval r -> tidy d -> zone_fits E d ->
  exists l f, run (recur_next R) x l f /\ (f = Ended /\ Z.of_nat (length l) = c \/ f = Panicked /\ Z.of_nat (length l) <= c).
Proof.
  intros T R x d r c K Hd Hr Hc Hp Hu Hi Ht Hz.
  destruct (C44_any_number_of_calls T R x (S (Z.to_nat c)) K) as (l & f & Rn & L & F & _); [intros d' r' A B; rewrite Hd in A; rewrite Hr in B; inv A; inv B; auto|].
  exists l, f. split; auto. pose proof (C40_at_most_count T R x l f r c K Hr Hc Hp Rn) as M. destruct F as [F|[->| ->]]; [lia| |auto].
  left. split; auto. apply (C40_exactly_count T R x l r c d); auto.
Qed.

(** ** C47 *)
Theorem C47_length_kept : forall (x : vevent) l f r u e k y e',
  ev_rrule x = Some r -> unit_seconds (r_freq r) = Some u -> rule_ok r -> ev_dtend x = Some e -> tidy (ev_dtstart x) -> tidy e ->
  run (recur_next rec_vevent) x l f -> nth_error l k = Some y -> ev_dtend y = Some e' ->
  second_of e' - second_of (ev_dtstart y) = second_of e - second_of (ev_dtstart x).
Proof.
  intros x l f r u e k y e' Hr Hu [Hi _] He Td Te H Hk He'. destruct (run_track rec_vevent x (ev_dtstart x) r l f) as (kz & z & Tr & _); auto; [constructor|].
  destruct (track_nth _ _ _ _ _ _ _ _ _ Tr _ _ Hk) as (kn & _ & _ & It & _). apply item_fields in It as (d2 & e2 & S1 & S2 & _ & _ & B1 & B2 & _); [|constructor].
  cbn [rec_vevent rc_dtstart rc_dtend] in B1, B2, S2. injection B1 as <-. rewrite He' in B2. subst e2. rewrite He in S2. cbn [steps_opt] in S2.
  destruct (steps_moved r kn _ _ u Td ltac:(lia) Hu S1) as [M1 _]. destruct (steps_moved r kn _ _ u Te ltac:(lia) Hu S2) as [M2 _].
  assert (G : forall a b, moved (r_freq r) kn (Z.of_nat kn * (r_interval r * u)) a b -> second_of b = second_of a + Z.of_nat kn * (r_interval r * u)).
  { intros a b M. destruct a as [n|[n|n]], b as [m|[m|m]]; cbn [moved second_of] in *; try contradiction.
    - lia.
    - destruct M as (_ & _ & [[Z0 ->]|(_ & M & _)]); [rewrite Z0; unfold seconds; cbn; lia|]. rewrite M. unfold seconds. cbn. lia.
    - destruct M as [[Z0 ->]|(_ & M & _)]; lia.
    - destruct M as [[Z0 ->]|(_ & M & _)]; lia. }
  rewrite (G _ _ M1), (G _ _ M2). lia.
Qed.

(** ** C48 *)
Lemma add_ext r r' d : r_freq r = r_freq r' -> r_interval r = r_interval r' -> recur_add r d = recur_add r' d.
Proof.
  intros F I. destruct d as [n|[n|n]]; cbn [recur_add recur_add_dt]; unfold recur_add_date, recur_add_ndt, recur_add_local; rewrite F, I; reflexivity.
Qed.
Lemma same_next r r' : same_but_by r r' -> same_but_by (next_count r) (next_count r').
Proof.
  intros (A & B & C & D). unfold next_count. rewrite <- C. destruct (r_count r) eqn:Q; unfold same_but_by; cbn; auto. rewrite <- C. auto.
Qed.
Section By.
Context {T : Type} (R : recurring T) (K : recurs R).
Definition alike (x x' : T) : Prop :=
  rc_dtstart R x = rc_dtstart R x' /\ rc_dtend R x = rc_dtend R x' /\ rc_exdate R x = rc_exdate R x' /\
  match rc_rrule R x, rc_rrule R x' with Some r, Some r' => same_but_by r r' | None, None => True | _, _ => False end.
Lemma alike_occ x x' d e r r' : alike x x' -> same_but_by r r' -> shaped R x e -> alike (occ R x d e r) (occ R x' d e r').
Proof.
  intros (A & B & C & D) S Sh. destruct (occ_fields R x d e r K Sh) as (O1 & O2 & O3 & O4).
  assert (Sh' : shaped R x' e) by (unfold shaped in *; now rewrite <- B). destruct (occ_fields R x' d e r' K Sh') as (P1 & P2 & P3 & P4).
  unfold alike. rewrite O1, O2, O3, O4, P1, P2, P3, P4. auto.
Qed.
Definition alike_res (a b : ires T unit) : Prop :=
  match a, b with IYield _ z, IYield _ z' => alike z z' | IDone _, IDone _ => True | IPanic, IPanic => True | IFuel, IFuel => True | _, _ => False end.
Lemma alike_loop n x x' : alike x x' -> alike_res (next_loop R n x) (next_loop R n x').
Proof.
  revert x x'. induction n as [|n IH]; intros x x' A; cbn [next_loop]; [exact I|]. pose proof A as (A1 & A2 & A3 & A4).
  destruct (rc_dtstart R x) as [d|] eqn:D; [|now rewrite !body_none by auto].
  destruct (rc_rrule R x) as [r|] eqn:Q, (rc_rrule R x') as [r'|] eqn:Q'; try contradiction; [|now rewrite !body_none by auto].
  rewrite (body_eq R x d r K D Q), (body_eq R x' d r' K (eq_sym A1) Q'). destruct A4 as (F & U & C & I).
  unfold until_over. rewrite U. destruct (match r_until r' with Some u => date_naive u <? date_naive d | None => false end); [exact Logic.I|].
  assert (Ea : add_opt r' (rc_dtend R x') = add_opt r (rc_dtend R x)) by (rewrite <- A2; destruct (rc_dtend R x); cbn; [now rewrite (add_ext r r')|auto]).
  rewrite Ea, <- A3, <- C, <- (add_ext r r') by auto. destruct (recur_add r d) as [d1| |]; try exact Logic.I. destruct (add_opt r (rc_dtend R x)) as [e1| |] eqn:A'; try exact Logic.I.
  pose proof (steps_opt_shaped _ _ _ _ _ (add_opt_steps _ _ _ A')) as Sh. assert (S0 : same_but_by r r') by (repeat split; auto).
  destruct (existsb _ _); [apply IH, alike_occ; auto|].
  destruct (r_count r) as [c|] eqn:Cr; [destruct (c =? 0); [exact Logic.I|]|]; apply alike_occ; auto. unfold same_but_by, set_count. cbn. auto.
Qed.
Lemma alike_run x x' l f : alike x x' -> run (recur_next R) x l f -> exists l', run (recur_next R) x' l' f /\ Forall2 alike l l'.
Proof.
  intros A H. revert x' A. induction H as [x|x s' n H|x n H|x H|x n a s' l f H Rn IH]; intros x' A.
  - exists []. split; constructor.
  - exists []. split; [|constructor]. pose proof (alike_loop n x x' A) as L. unfold recur_next in H. destruct (next_loop R n x) eqn:N; inv H.
    apply (run_end _ _ x' n). unfold recur_next. destruct (next_loop R n x'); cbn in L; try contradiction; auto.
  - exists []. split; [|constructor]. pose proof (alike_loop n x x' A) as L. unfold recur_next in H. destruct (next_loop R n x) eqn:N; inv H.
    apply (run_panic _ _ n). unfold recur_next. destruct (next_loop R n x'); cbn in L; try contradiction; auto.
  - exists []. split; [|constructor]. constructor. intros n. pose proof (alike_loop n x x' A) as L. specialize (H n). unfold recur_next in *. destruct (next_loop R n x); inv H.
    destruct (next_loop R n x'); cbn in L; try contradiction; auto.
  - pose proof (alike_loop n x x' A) as L. unfold recur_next in H. destruct (next_loop R n x) as [u z| | |] eqn:N; inv H.
    destruct (next_loop R n x') as [u' z'| | |] eqn:N'; cbn in L; try contradiction. destruct (IH z' L) as (l' & R' & F). exists (x' :: l'). split; [|constructor; auto].
    apply (run_more _ _ n x' z'); auto. unfold recur_next. now rewrite N'.
Qed.
End By.
Theorem C48_by_parts_ignored : forall T (R : recurring T) x r r' l f,
  recurs R -> rc_rrule R x = Some r -> same_but_by r r' -> run (recur_next R) x l f ->
  exists l', run (recur_next R) (rc_set_rrule R x r') l' f /\
    map (rc_dtstart R) l' = map (rc_dtstart R) l /\ map (rc_dtend R) l' = map (rc_dtend R) l.
Proof.
  intros T R x r r' l f K Hr S H. destruct (alike_run R K x (rc_set_rrule R x r') l f) as (l' & R' & F); auto.
  - destruct K; unfold alike; destruct x; cbn in *; rewrite Hr; auto.
  - exists l'. split; auto. clear -F. induction F as [|a b l l' (A & B & _) F [IH1 IH2]]; cbn; auto. rewrite A, B, IH1, IH2. auto.
Qed.

(** ** C49 *)
(** What happens to the date when [Monthly] steps: 12*year+month grows by the
    interval, the day is kept or clamped to the length of the month. *)
Definition month_stepped (i : Z) (n n' : ndate) : Prop :=
  exists y m d y' m' len, ymd_of_days n = (y, m, d) /\ 12 * y' + m' = 12 * y + m + i /\ month_length y' m' len /\
    -262143 <= y' <= 262142 /\ ymd_of_days n' = (y', m', Z.min d len).
Lemma add_months_iff n i n' : date_ok n = true -> 0 <= i -> date_add_months n i = Ok n' <-> month_stepped i n n'.
Proof.
  intros Ho Hi. destruct (ymd_of_days n) as [[y m] d] eqn:Hd. rewrite (add_months_spec n i n' y m d Hd Ho Hi). split.
  - intros (y' & m' & A & B & C & D). exists y, m, d, y', m', (days_in_month y' m'). split; auto. split; auto. split; [now apply days_in_month_spec|]. split; auto.
    apply date_ok_year in Ho. unfold date_year in Ho. rewrite Hd in Ho. cbn in Ho. apply valid_of_days in Hd as [V _]. apply valid_ymd_iff in V as [Vm _]. unfold MIN_YEAR, MAX_YEAR in *. lia.
  - intros (y0 & m0 & d0 & y' & m' & len & A & B & C & D & F). rewrite Hd in A. inv A. pose proof (month_length_range _ _ _ C) as Hm. apply days_in_month_spec in C; auto. exists y', m'.
    rewrite C. unfold MAX_YEAR. repeat split; try lia. auto.
Qed.
Theorem C49_monthly_step : forall r n n',
  r_freq r = Monthly -> rule_ok r -> date_ok n = true ->
  (recur_add r (DDate n) = Ok (DDate n') <-> month_stepped (r_interval r) n n') /\
  (recur_add r (DDate n) = Panic <-> forall w, ~ month_stepped (r_interval r) n w) /\
  (forall s ns, recur_add r (DDateTime (Naive (mk_ndt n s ns))) = Ok (DDateTime (Naive (mk_ndt n' s ns))) <-> month_stepped (r_interval r) n n') /\
  (forall s ns b, recur_add r (DDateTime (Naive (mk_ndt n s ns))) = Ok b -> exists w, b = DDateTime (Naive (mk_ndt w s ns))).
Proof.
  intros r n n' Hf [Hi _] Ho. assert (A1 : recur_add r (DDate n) = omap DDate (date_add_months n (r_interval r))) by (cbn [recur_add]; unfold recur_add_date; rewrite Hf; reflexivity).
  assert (A2 : forall s ns, recur_add r (DDateTime (Naive (mk_ndt n s ns))) = omap (fun w => DDateTime (Naive (mk_ndt w s ns))) (date_add_months n (r_interval r))).
  { intros s ns. cbn [recur_add recur_add_dt]. unfold recur_add_ndt. rewrite Hf. unfold ndt_add_months. cbn [nd_date nd_secs nd_nano]. destruct (date_add_months n (r_interval r)); reflexivity. }
  rewrite A1. split; [|split; [|split]].
  - rewrite <- add_months_iff by (auto; lia). destruct (date_add_months _ _); cbn; split; congruence.
  - split.
    + intros H w Hw. apply add_months_iff in Hw; auto; [|lia]. rewrite Hw in H. discriminate.
    + intros H. destruct (date_add_months n (r_interval r)) as [w|e|] eqn:Q; auto.
      * exfalso. apply (H w). apply add_months_iff; auto. lia.
      * exfalso. unfold date_add_months in Q. destruct (_ =? 0); [discriminate|]. destruct (ymd_of_days n) as [[y m] d]. destruct (from_ymd_opt _ _ _); discriminate.
  - intros s ns. rewrite A2, <- add_months_iff by (auto; lia). destruct (date_add_months _ _); cbn; split; congruence.
  - intros s ns b. rewrite A2. destruct (date_add_months _ _); cbn; intros H; inv H. eauto.
Qed.
(** Zoned: on the wall clock, provided the result is a unique local time. *)
Theorem C49_monthly_zoned : forall r u u', r_freq r = Monthly ->
  recur_add r (DDateTime (Local u)) = Ok (DDateTime (Local u')) <->
  exists l', recur_add r (DDateTime (Naive (naive_local u))) = Ok (DDateTime (Naive l')) /\ from_local l' = DSingle u'.
Proof.
  intros r u u' Hf. cbn [recur_add recur_add_dt]. unfold recur_add_local, recur_add_ndt. rewrite Hf. unfold local_add_months.
  destruct (ndt_add_months (naive_local u) (r_interval r)) as [l'| |]; cbn; try (split; [discriminate|intros (? & ? & _); discriminate]).
  split.
  - destruct (from_local l') eqn:Q; cbn; intros H; inv H. eauto.
  - intros (l2 & H & Q). inv H. rewrite Q. reflexivity.
Qed.
(** Clamping is for ever: after [k] steps the day is the least of the first day and
    of the lengths of the months visited. *)
Theorem C49_drift : forall r k n d' y m d,
  r_freq r = Monthly -> rule_ok r -> date_ok n = true -> ymd_of_days n = (y, m, d) -> steps r k (DDate n) d' ->
  exists n' y' m' dk, d' = DDate n' /\ ymd_of_days n' = (y', m', dk) /\ 12 * y' + m' = 12 * y + m + Z.of_nat k * r_interval r /\
    dk <= d /\
    (forall j yj mj len, (1 <= j <= k)%nat -> 12 * yj + mj = 12 * y + m + Z.of_nat j * r_interval r -> month_length yj mj len -> dk <= len) /\
    (dk = d \/ exists j yj mj, (1 <= j <= k)%nat /\ 12 * yj + mj = 12 * y + m + Z.of_nat j * r_interval r /\ month_length yj mj dk).
Proof.
  intros r k n d' y m d Hf Ho0 Ho Hd H. remember (DDate n) as d0 eqn:D0. revert n y m d D0 Ho Hd. induction H as [d0|k d0 d1 d2 A St IH]; intros n y m d -> Ho Hd.
  - exists n, y, m, d. split; auto. split; auto. split; [lia|]. split; [lia|]. split; [intros; lia|]. auto.
  - assert (exists n1, d1 = DDate n1) as (n1 & ->).
    { cbn [recur_add] in A. destruct (freq_rank Daily <=? freq_rank (r_freq r)) eqn:Q; [|rewrite Hf in Q; discriminate]. apply omap_Ok in A as (w & _ & ->). eauto. }
    apply (C49_monthly_step r n n1) in A as (y0 & m0 & dd & y1 & m1 & len & B1 & B2 & B3 & B4 & B5); auto. rewrite Hd in B1. inv B1.
    assert (Ho1 : date_ok n1 = true) by (apply date_ok_year; unfold date_year; rewrite B5; exact B4).
    destruct (IH n1 y1 m1 _ eq_refl Ho1 B5) as (n' & y' & m' & dk & E1 & E2 & E3 & E4 & E5 & E6). exists n', y', m', dk. split; auto. split; auto. split; [lia|]. split; [lia|]. split.
    + intros j yj mj lj Hj Ej Lj. destruct j as [|[|j]]; [lia| |].
      * assert (yj = y1 /\ mj = m1) as [-> ->]. { apply month_length_range in Lj as ?. apply month_length_range in B3 as ?. lia. }
        apply month_length_range in B3 as Hm. apply days_in_month_spec in B3, Lj; auto. lia.
      * apply (E5 (S j) yj mj); auto; lia.
    + destruct E6 as [->|(j & yj & mj & Hj & Ej & Lj)].
      * destruct (Z.le_gt_cases dd len); [left; lia|]. right. exists 1%nat, y1, m1. split; [lia|]. split; [lia|]. rewrite Z.min_r by lia. auto.
      * right. exists (S j), yj, mj. split; [lia|]. split; [lia|]. auto.
Qed.
(** ** C50 *)
Definition year_stepped (i : Z) (n n' : ndate) : Prop :=
  exists y m d, ymd_of_days n = (y, m, d) /\ gregorian (y + i) m d /\ -262143 <= y + i <= 262142 /\ ymd_of_days n' = (y + i, m, d).
Lemma with_year_iff n i n' : date_with_year n (date_year n + i) = Some n' <-> year_stepped i n n'.
Proof.
  unfold date_with_year, date_year. destruct (ymd_of_days n) as [[y m] d] eqn:Hd. cbn [fst]. rewrite from_ymd_opt_Some. split.
  - intros (A & B & ->). exists y, m, d. split; auto. split; [now apply valid_ymd_spec|]. split; [exact A|]. now apply ymd_of_days_of_ymd.
  - intros (y0 & m0 & d0 & A & B & C & D). rewrite Hd in A. inv A. apply valid_of_days in D as [V <-]. auto.
Qed.
Theorem C50_yearly_step : forall r n n',
  r_freq r = Yearly ->
  (recur_add r (DDate n) = Ok (DDate n') <-> year_stepped (r_interval r) n n') /\
  (recur_add r (DDate n) = Panic <-> forall w, ~ year_stepped (r_interval r) n w) /\
  (forall s ns, recur_add r (DDateTime (Naive (mk_ndt n s ns))) = Ok (DDateTime (Naive (mk_ndt n' s ns))) <-> year_stepped (r_interval r) n n') /\
  (forall s ns, recur_add r (DDateTime (Naive (mk_ndt n s ns))) = Panic <-> forall w, ~ year_stepped (r_interval r) n w).
Proof.
  intros r n n' Hf.
  assert (A1 : recur_add r (DDate n) = omap DDate (unwrap (date_with_year n (date_year n + r_interval r)))) by (cbn [recur_add]; unfold recur_add_date; rewrite Hf; reflexivity).
  assert (A2 : forall s ns, recur_add r (DDateTime (Naive (mk_ndt n s ns))) = omap (fun w => DDateTime (Naive (mk_ndt w s ns))) (unwrap (date_with_year n (date_year n + r_interval r)))).
  { intros s ns. cbn [recur_add recur_add_dt]. unfold recur_add_ndt. rewrite Hf. unfold ndt_with_year. cbn [nd_date nd_secs nd_nano]. destruct (date_with_year _ _); reflexivity. }
  rewrite A1. pose proof (with_year_iff n (r_interval r)) as W. destruct (date_with_year n (date_year n + r_interval r)) as [w|]; cbn [unwrap omap] in *.
  - change (omap DDate (unwrap (Some w))) with (Ok (DDate w)). split; [rewrite <- W; split; intros H; inv H; auto|]. split; [split; [discriminate|intros H; exfalso; apply (H w), W; auto]|]. split.
    + intros s ns. rewrite A2. cbn. rewrite <- W. split; intros H; inv H; auto.
    + intros s ns. rewrite A2. cbn. split; [discriminate|intros H; exfalso; apply (H w), W; auto].
  - assert (N : forall w, ~ year_stepped (r_interval r) n w) by (intros w Hw; apply W in Hw; discriminate).
    change (omap DDate (unwrap None)) with (@Panic date). split; [split; [discriminate|intros H; now apply N in H]|]. split; [tauto|]. split; intros s ns; rewrite A2; cbn; [|tauto].
    split; [discriminate|intros H; now apply N in H].
Qed.
(** The panic comes before the current occurrence is given out. *)
Theorem C50_panic_before_yield : forall T (R : recurring T) x n r l f,
  recurs R -> rc_dtstart R x = Some (DDate n) -> rc_rrule R x = Some r -> r_freq r = Yearly -> ~ past_until r (DDate n) ->
  (forall w, ~ year_stepped (r_interval r) n w) ->
  run (recur_next R) x l f -> l = [] /\ (f = Panicked \/ f = Cut).
Proof.
  intros T R x n r l f K Hd Hr Hf Hp Hn H.
  assert (P : recur_next R 1 x = IPanic).
  { unfold recur_next. cbn [next_loop]. rewrite (body_eq R x _ r K Hd Hr). destruct (until_over r (DDate n)) eqn:U; [apply until_over_iff in U; contradiction|].
    destruct (C50_yearly_step r n n Hf) as (_ & [_ Q] & _). now rewrite Q. }
  destruct (run_det _ _ _ _ _ _ (recur_next_mono R) H (run_panic _ _ _ P)) as [[-> ->]|[[-> [q Hq]]|[X _]]]; auto; [|discriminate].
  destruct l; [auto|discriminate].
Qed.
(** ** C52 *)
Theorem C52_zoned_daily : forall T (R : recurring T) x l f u r k y,
  recurs R -> rc_dtstart R x = Some (DDateTime (Local u)) -> rc_rrule R x = Some r -> rc_exdate R x = [] -> r_freq r = Daily -> rule_ok r ->
  tidy_time u -> nd_nano u < 1000000000 -> run (recur_next R) x l f -> nth_error l k = Some y ->
  exists w, rc_dtstart R y = Some (DDateTime (Local w)) /\
    seconds w = seconds u + Z.of_nat k * r_interval r * 86400 /\ nd_nano w = nd_nano u /\
    (* the wall clock moves by that and by the change of offset *)
    seconds (naive_local w) - seconds (naive_local u) = Z.of_nat k * r_interval r * 86400 + (tz_offset (seconds w) - tz_offset (seconds u)).
Proof.
  intros T R x l f u r k y K Hd Hr Hx Hf Ho Ht Hn H Hk. destruct (C39_kth_steps T R x l f _ r k y K Hd Hr Hx H Hk) as (d' & B & S & _).
  destruct Ho as [Hi _]. destruct (steps_moved r k (DDateTime (Local u)) d' 86400 Ht ltac:(lia) ltac:(now rewrite Hf) S) as [M _]. rewrite B.
  destruct d' as [?|[?|w]]; cbn [moved] in M; try contradiction. exists w. split; auto.
  assert (Q : seconds w = seconds u + Z.of_nat k * r_interval r * 86400 /\ nd_nano w = nd_nano u).
  { unfold tidy_time in Ht. destruct M as [[M ->]|(_ & M & _ & M')]; [split; auto; lia|]. rewrite M', Z.mod_small by lia. split; auto; lia. }
  destruct Q as [Q1 Q2]. split; auto. split; auto. unfold naive_local. rewrite !shift_seconds. change (ndt_ts w) with (seconds w). change (ndt_ts u) with (seconds u). lia.
Qed.
End PropTime.
