(** * C87: where the occurrences are those of RFC 5545 *)
From Verif Require Import Base Env Chrono Types Components Iter BaseFacts ChronoFacts SpecCal PropDate SpecIter IterFacts PropIter PropIterEx TimeFacts PropTime SpecKinds PropKinds SpecRfc.

Section Rfc.
Context {E : Env}.

(** ** Candidates *)
Lemma later_det n s a b : later n s a -> later n s b -> a = b.
Proof.
  destruct a as [a1 a2 a3], b as [b1 b2 b3]. intros [[S1 ->]|(A1 & A2 & A3 & A4)] [[S2 ->]|(B1 & B2 & B3 & B4)]; auto; try lia.
  unfold seconds in *. cbn in *. assert (a1 = b1) by lia. subst. f_equal; lia.
Qed.
Lemma moved_det f k s d a b : moved f k s d a -> moved f k s d b -> a = b.
Proof.
  destruct d as [n|[n|n]], a as [a|[a|a]], b as [b|[b|b]]; cbn [moved]; try contradiction; intros A B.
  - f_equal. lia.
  - exfalso. tauto.
  - exfalso. tauto.
  - do 2 f_equal. eapply later_det; [apply A|apply B].
  - do 2 f_equal. eapply later_det; eauto.
  - do 2 f_equal. eapply later_det; eauto.
Qed.
Lemma same_day_det r k n a b : r_freq r = Monthly \/ r_freq r = Yearly -> same_day_later r k n a -> same_day_later r k n b -> a = b.
Proof.
  intros F (y & m & d & y1 & m1 & H & A & A') (y0 & m0 & d0 & y2 & m2 & H0 & B & B'). rewrite H in H0. injection H0 as <- <- <-.
  pose proof (valid_of_days _ _ _ _ A) as [VA <-]. pose proof (valid_of_days _ _ _ _ B) as [VB <-]. apply valid_ymd_iff in VA as [VA _]. apply valid_ymd_iff in VB as [VB _].
  assert (y1 = y2 /\ m1 = m2) as [-> ->]; auto. destruct F as [F|F]; rewrite F in *; lia.
Qed.
Lemma unit_none f : unit_seconds f = None -> f = Monthly \/ f = Yearly.
Proof. destruct f; try discriminate; auto. Qed.
Lemma candidate_det r d k a b : candidate r d k a -> candidate r d k b -> a = b.
Proof.
  unfold candidate. destruct (unit_seconds (r_freq r)) as [u|] eqn:U; [apply moved_det|]. apply unit_none in U.
  destruct d as [n|[n|n]], a as [a|[a|a]], b as [b|[b|b]]; try contradiction; intros A B.
  - f_equal. eapply same_day_det; eauto.
  - destruct A as (A1 & A2 & A3), B as (B1 & B2 & B3). destruct a, b; cbn in *. do 2 f_equal. rewrite A2, A3, B2, B3. f_equal. eapply same_day_det; eauto.
Qed.
Lemma same_day_mono r j k n a b : 1 <= r_interval r -> r_freq r = Monthly \/ r_freq r = Yearly -> (j < k)%nat -> same_day_later r j n a -> same_day_later r k n b -> a + 28 <= b.
Proof.
  intros I F L (y & m & d & y1 & m1 & H & A & A') (y0 & m0 & d0 & y2 & m2 & H0 & B & B'). rewrite H in H0. injection H0 as <- <- <-.
  pose proof (valid_of_days _ _ _ _ A) as [VA <-]. pose proof (valid_of_days _ _ _ _ B) as [VB <-]. pose proof VA as VA'. pose proof VB as VB'. apply valid_ymd_iff in VA' as [VA' _]. apply valid_ymd_iff in VB' as [VB' _].
  apply later_month; auto; [|lia]. destruct F as [F|F]; rewrite F in *; nia.
Qed.
Lemma candidate_mono r d j k a b : 1 <= r_interval r -> rfc_start r d -> (j < k)%nat -> candidate r d j a -> candidate r d k b -> second_of a < second_of b.
Proof.
  intros I S0 L. unfold candidate. destruct (unit_seconds (r_freq r)) as [u|] eqn:U.
  - assert (Hu : 1 <= u) by (destruct (r_freq r); inv U; lia).
    assert (Q : Z.of_nat j * (r_interval r * u) < Z.of_nat k * (r_interval r * u)) by (apply Z.mul_lt_mono_pos_r; [nia|lia]).
    destruct d as [n|[n|n]]; cbn [rfc_start] in S0; destruct a as [a|[a|a]], b as [b|[b|b]]; cbn [moved second_of]; try contradiction; intros A B; try lia; try tauto;
    destruct A as [[A ->]|(A1 & A2 & A3)], B as [[B ->]|(B1 & B2 & B3)]; lia.
  - apply unit_none in U. destruct d as [n|[n|n]], a as [a|[a|a]], b as [b|[b|b]]; try contradiction; intros A B; cbn [second_of]; unfold seconds.
    + pose proof (same_day_mono r j k n a b I U L A B). lia.
    + destruct A as (A1 & A2 & A3), B as (B1 & B2 & B3). cbn in S0. destruct S0 as (S1 & _). pose proof (same_day_mono r j k _ _ _ I U L A1 B1). lia.
Qed.
Lemma candidate_le r d j k a b : 1 <= r_interval r -> rfc_start r d -> candidate r d j a -> candidate r d k b -> second_of a <= second_of b -> (j <= k)%nat.
Proof. intros I S0 A B L. destruct (Nat.le_gt_cases j k) as [|G]; auto. pose proof (candidate_mono r d k j b a I S0 G B A). lia. Qed.

(** ** The steps of the crate are candidates *)
Lemma steps_naive r k n d' : unit_seconds (r_freq r) = None -> steps r k (DDateTime (Naive n)) d' ->
  exists n', d' = DDateTime (Naive n') /\ nd_secs n' = nd_secs n /\ nd_nano n' = nd_nano n /\ steps r k (DDate (nd_date n)) (DDate (nd_date n')).
Proof.
  intros U. revert n. induction k as [|k IH]; intros n H; inversion H; subst; [exists n; repeat split; constructor|].
  match goal with A : recur_add _ _ = Ok ?w, B : steps _ _ ?w _ |- _ => rename A into Ad; rename B into St end.
  cbn [recur_add recur_add_dt] in Ad. apply omap_Ok in Ad as (x & Ad & ->). apply omap_Ok in Ad as (m & Ad & ->).
  assert (G : nd_secs m = nd_secs n /\ nd_nano m = nd_nano n /\ recur_add r (DDate (nd_date n)) = Ok (DDate (nd_date m))).
  { cbn [recur_add]. unfold recur_add_ndt in Ad. unfold recur_add_date. destruct (r_freq r); try discriminate U; cbn [freq_rank].
    - unfold ndt_add_months in Ad. destruct (date_add_months _ _) as [w| |]; cbn [obind] in Ad; inv Ad. auto.
    - unfold ndt_with_year in Ad. destruct (date_with_year _ _) as [w|]; cbn in Ad; inv Ad. auto. }
  destruct G as (G1 & G2 & G3). destruct (IH m St) as (n' & -> & A1 & A2 & A3). exists n'. split; auto. split; [congruence|]. split; [congruence|]. econstructor; eauto.
Qed.
Lemma steps_yearly r k n d' : r_freq r = Yearly -> steps r k (DDate n) d' -> exists n', d' = DDate n' /\ same_day_later r k n n'.
Proof.
  intros F H. remember (DDate n) as d0 eqn:D0. revert n D0. induction H as [d|k d d1 d2 A St IH]; intros n ->.
  - exists n. split; auto. destruct (ymd_of_days n) as [[y m] dd] eqn:Y. exists y, m, dd, y, m. rewrite F. repeat split; auto. lia.
  - cbn [recur_add] in A. unfold recur_add_date in A. rewrite F in A. cbn [freq_rank] in A. apply omap_Ok in A as (w & A & ->). apply unwrap_Ok in A.
    destruct (IH w eq_refl) as (n' & -> & (y1 & m1 & e1 & y2 & m2 & B1 & B2 & B3)). exists n'. split; auto.
    unfold date_with_year, date_year in A. destruct (ymd_of_days n) as [[y m] dd] eqn:Y. cbn [fst] in A. apply from_ymd_opt_Some in A as (_ & V & ->).
    rewrite ymd_of_days_of_ymd in B1 by auto. injection B1 as <- <- <-. exists y, m, dd, y2, m2. rewrite F in *. repeat split; auto; lia.
Qed.
Lemma steps_monthly r k n d' y m dd : r_freq r = Monthly -> rule_ok r -> date_ok n = true -> ymd_of_days n = (y, m, dd) -> dd <= 28 -> steps r k (DDate n) d' ->
  exists n', d' = DDate n' /\ same_day_later r k n n'.
Proof.
  intros F Ro Ok0 Y L H. destruct (C49_drift r k n d' y m dd F Ro Ok0 Y H) as (n' & y' & m' & dk & -> & Y' & M & Le & _ & D). exists n'. split; auto.
  assert (dk = dd) as ->.
  { destruct D as [D|(j & yj & mj & _ & _ & ML)]; auto. inversion ML; subst; lia. }
  exists y, m, dd, y', m'. rewrite F. auto.
Qed.
Lemma whole_tidy d r : rfc_start r d -> tidy d.
Proof. destruct d as [n|[n|n]]; cbn; auto; [intros (A & B & _)|intros ((A & B & _) & _)]; split; auto; lia. Qed.
Lemma steps_candidate r d k d' : rfc_rule r -> rfc_start r d ->
  (r_freq r = Monthly -> forall y m dd, ymd_of_days (match d with DDate n => n | DDateTime (Naive n) | DDateTime (Local n) => nd_date n end) = (y, m, dd) -> dd <= 28) ->
  steps r k d d' -> candidate r d k d'.
Proof.
  intros (Hi & Hc & _) S0 M St. unfold candidate. destruct (unit_seconds (r_freq r)) as [u|] eqn:U.
  - apply (steps_moved r k d d' u (whole_tidy d r S0) ltac:(lia) U St).
  - assert (Ro : rule_ok r) by (split; [lia|exact Hc]).
    assert (G : forall n, date_ok n = true -> (r_freq r = Monthly -> forall y m dd, ymd_of_days n = (y, m, dd) -> dd <= 28) -> forall e, steps r k (DDate n) e -> exists n', e = DDate n' /\ same_day_later r k n n').
    { intros n On Mn e Se. destruct (unit_none _ U) as [F|F]; [|now apply steps_yearly]. destruct (ymd_of_days n) as [[y m] dd] eqn:Y. eapply steps_monthly; eauto. }
    destruct d as [n|[n|n]]; cbn [rfc_start] in S0.
    + destruct S0 as (_ & S0). destruct (G n S0 M d' St) as (n' & -> & H). exact H.
    + destruct S0 as (_ & _ & S0). destruct (steps_naive r k n d' U St) as (n' & -> & A & B & C). split; auto. destruct (G (nd_date n) S0 M _ C) as (n'' & W & H). injection W as <-. exact H.
    + destruct S0 as (_ & S0). contradiction.
Qed.

(** ** Positions covered by a run *)
Lemma track_cover {T} (R : recurring T) x d r i k l kz z : recurs R -> track R x d r i k l kz z -> forall K dK, (k <= K < kz)%nat -> steps r K d dK ->
  (exists y, In y l /\ rc_dtstart R y = Some dK) \/ In dK (rc_exdate R x).
Proof.
  intros Rc. induction 1 as [|i k k' y l kz z It C (H1 & H2 & H3 & H4) Tr IH]; intros K dK L St; [lia|]. destruct (Nat.eq_dec K k) as [->|Nk].
  - left. exists y. split; [now left|]. apply item_fields in It as (d' & e & S1 & _ & _ & _ & B1 & _); auto. now rewrite B1, (steps_det _ _ _ _ _ S1 St).
  - destruct (Nat.le_gt_cases k' K) as [G|G].
    + destruct (IH K dK ltac:(lia) St) as [(w & W & W')|W]; auto. left. exists w. split; [now right|auto].
    + right. eapply H2; [|exact St]. lia.
Qed.
Lemma item_steps {T} (R : recurring T) x d r i k y : recurs R -> item_at R x d r i k y -> exists dy, steps r k d dy /\ rc_dtstart R y = Some dy.
Proof. intros K It. apply item_fields in It as (d' & e & S1 & _ & _ & _ & B1 & _); auto. eauto. Qed.
Lemma track_tight {T} (R : recurring T) x d r i k l kz z : recurs R -> track R x d r i k l kz z ->
  (forall j dj, (k < j < k + length l)%nat -> steps r j d dj -> ~ In dj (rc_exdate R x)) ->
  forall n y, nth_error l n = Some y -> item_at R x d r (i + n) (k + n) y.
Proof.
  intros Rc. induction 1 as [|i k k' y l kz z It C (H1 & H2 & H3 & H4) Tr IH]; intros N n w Hn; [destruct n; discriminate|]. destruct n as [|n]; cbn in Hn.
  - injection Hn as <-. now rewrite !Nat.add_0_r.
  - assert (k' = S k).
    { destruct (Nat.eq_dec k' (S k)) as [|Q]; auto. exfalso. destruct l as [|w0 l]; [destruct n; discriminate|].
      assert (It' : exists i', item_at R x d r i' k' w0) by (inversion Tr; subst; eauto). destruct It' as (i' & It'). apply item_steps in It' as (dy & Sy & _); auto.
      destruct (steps_prefix r (S k) k' d dy ltac:(lia) Sy) as (b & Sb). apply (N (S k) b); [cbn [length]; lia|auto|]. apply (H2 (S k) b); [lia|auto]. }
    subst k'. rewrite !Nat.add_succ_r, <- !Nat.add_succ_l. apply IH; auto. intros j dj Lj. apply N. cbn [length]. lia.
Qed.

Theorem C87_agrees : forall k (x : item k) l f d r,
  start_of x = Some d -> rule_of x = Some r -> rfc_rule r -> rfc_start r d -> agreeable r d (excluded_of x) -> series x l f ->
  (forall y d', In y l -> start_of y = Some d' -> rfc_set r d (excluded_of x) d') /\
  (forall d', rfc_set r d (excluded_of x) d' ->
     f = Ended \/ (exists y dy, In y l /\ start_of y = Some dy /\ second_of d' <= second_of dy) ->
     exists y, In y l /\ start_of y = Some d').
Proof.
  intros kd x l f d r. rewrite <- code_start, <- code_rule, <- code_excluded. intros Hd Hr Ru S0 (A1 & A2 & A3 & A4 & A5) Sx. unfold series in Sx.
  setoid_rewrite <- code_start. set (R := code kd) in *. pose proof (code_recurs kd) as Rc. fold R in Rc. set (ex := rc_exdate R x) in *.
  assert (Cd : forall j dj, steps r j d dj -> candidate r d j dj) by (intros; apply steps_candidate; auto).
  pose proof Ru as (Hi & Hc & Xo & _).
  destruct (run_track R x d r l f Rc Hd Hr Sx) as (kz & z & Tr & Fz).
  pose proof (track_item _ _ _ _ _ _ _ _ _ Tr) as Iz. cbn in Iz. destruct (item_steps R x d r _ _ z Rc Iz) as (dz & Sz & Hz).
  assert (Cn : forall c, r_count r = Some c -> Z.of_nat (length l) <= c) by (intros c Q; eapply C40_at_most_count; eauto; rewrite Q in Hc; lia).
  assert (Tight : forall c, r_count r = Some c -> forall n y, nth_error l n = Some y -> item_at R x d r n n y).
  { intros c Q. apply (track_tight R x d r 0 0 l kz z Rc Tr). intros j dj Lj Sj. apply (A3 c j dj Q); [pose proof (Cn c Q); lia|auto]. }
  assert (Back : forall d', ~ In d' ex -> (exists K, (K < kz)%nat /\ candidate r d K d') -> exists y, In y l /\ rc_dtstart R y = Some d').
  { intros d' Nx (K & LK & CK). destruct (steps_prefix r K kz d dz ltac:(lia) Sz) as (b & Sb). assert (b = d') as -> by (eapply candidate_det; eauto).
    destruct (track_cover R x d r 0 0 l kz z Rc Tr K d' ltac:(lia) Sb) as [?|?]; [auto|contradiction]. }
  split.
  - intros y d' Hy Hs. apply In_nth_error in Hy as (n & Hy). destruct (track_nth _ _ _ _ _ _ _ _ _ Tr _ _ Hy) as (kn & L & L0 & It & Nx & Np).
    apply item_steps in It as (dy & Sy & Hy'); auto. rewrite Hs in Hy'. injection Hy' as <-. split.
    + exists kn. split; auto. split.
      * intros u Hu. apply (A4 u kn d' Hu (Cd _ _ Sy)). pose proof (Np d' Sy) as P. unfold past_until in P. rewrite Hu in P. lia.
      * intros c Q js ND Js. pose proof (Tight c Q n y Hy) as It. apply item_steps in It as (dn & Sn & Hn); auto. rewrite Hs in Hn. injection Hn as <-.
        assert (kn = n). { destruct (Nat.lt_trichotomy kn n) as [G|[G|G]]; auto; exfalso; [pose proof (candidate_mono r d _ _ d' d' ltac:(lia) S0 G (Cd _ _ Sy) (Cd _ _ Sn))|pose proof (candidate_mono r d _ _ d' d' ltac:(lia) S0 G (Cd _ _ Sn) (Cd _ _ Sy))]; lia. }
        subst kn. assert (Hl : (length js <= n)%nat). { rewrite <- (seq_length n 0). apply NoDup_incl_length; auto. intros j Hj. apply in_seq. destruct (Js j Hj). lia. }
        pose proof (Cn c Q). assert (n < length l)%nat by (apply nth_error_Some; congruence). lia.
    + destruct n; [|eapply Nx; [discriminate|exact Sy]]. rewrite (L0 eq_refl) in Sy. inversion Sy; subst. exact A1.
  - intros d' ((K & CK & UK & NK) & Nx) [->|(y & dy & Hy & Hs & Le)].
    + apply Back; auto. exists K. split; auto. destruct (Nat.lt_ge_cases K kz) as [|Ge]; auto. exfalso.
      inversion Fz as [|z1 s' n N| | |]; subst z1. destruct (track_end R x d r l _ z n _ Rc Tr N ltac:(discriminate)) as (dz' & m & Hz' & C). rewrite Hz in Hz'. injection Hz' as <-.
      inversion C as [m1 dm em Sk Pu Eq1 Eq2|m1 dm em d1 e1 Sk Np Ad Ae Nx1 Nc Eq1 Eq2| |]; try subst m1; subst s'.
      * destruct (skipped_from R Rc x d r _ _ z dz m dm em Iz Hz Sk) as (Q1 & _ & Q3 & Q4). unfold past_until in Pu. cbn [count_down set_count r_until] in Pu. destruct (r_until r) as [u|] eqn:Hu; [|contradiction].
        pose proof (Cd _ _ Q1) as Cm. pose proof (A4 u _ dm eq_refl Cm) as W. pose proof (UK u eq_refl) as UK'.
        destruct (Nat.le_gt_cases (kz + m) K) as [G|G].
        { assert (second_of dm <= second_of d'). { destruct (Nat.eq_dec (kz + m) K) as [Q|Q]; [subst K; rewrite (candidate_det _ _ _ _ _ CK Cm); lia|]. pose proof (candidate_mono r d (kz + m) K dm d' ltac:(lia) S0 ltac:(lia) Cm CK). lia. } lia. }
        destruct m as [|m]; [lia|].
        apply (A5 u (kz + S m)%nat dm eq_refl Cm); [lia| |apply (Q3 (kz + S m)%nat); [lia|auto]].
        intros j dj Lj Cj. destruct (Nat.lt_ge_cases j kz) as [Lz|Gz].
        { destruct (steps_prefix r kz (kz + S m) d dm ltac:(lia) Q1) as (b & Sb). pose proof (candidate_mono r d j kz dj b ltac:(lia) S0 Lz Cj (Cd _ _ Sb)).
          pose proof (Q4 kz b ltac:(lia) Sb) as P. unfold past_until in P. rewrite Hu in P. pose proof (A4 u _ b eq_refl (Cd _ _ Sb)). lia. }
        destruct (steps_prefix r j (kz + S m) d dm ltac:(lia) Q1) as (b & Sb). rewrite (candidate_det _ _ _ _ _ Cj (Cd _ _ Sb)) in *.
        pose proof (Q4 j b ltac:(lia) Sb) as P. unfold past_until in P. rewrite Hu in P. apply (A4 u j b eq_refl (Cd _ _ Sb)). lia.
      * unfold count_down in Nc. cbn [set_count r_count] in Nc. destruct (r_count r) as [c|] eqn:Hcc; [|discriminate]. cbn in Nc. injection Nc as Nc.
        assert (Hk : (length l <= kz)%nat).
        { destruct l as [|y0 l0] eqn:El; [cbn; lia|]. rewrite <- El in *. destruct (nth_error l (length l - 1)) as [w|] eqn:W; [|apply nth_error_None in W; rewrite El in W; cbn in W; lia].
          destruct (track_nth _ _ _ _ _ _ _ _ _ Tr _ _ W) as (kn & L & _). lia. }
        pose proof (NK c eq_refl (seq 0 (length l)) (seq_NoDup _ _)) as P. rewrite seq_length in P.
        assert (Z.of_nat (length l) < c); [|lia]. apply P. intros j Hj. apply in_seq in Hj. split; [lia|].
        destruct (steps_prefix r j kz d dz ltac:(lia) Sz) as (b & Sb). eauto.
    + apply Back; auto. exists K. split; auto. apply In_nth_error in Hy as (n & Hy). destruct (track_nth _ _ _ _ _ _ _ _ _ Tr _ _ Hy) as (kn & L & _ & It & _).
      apply item_steps in It as (dy' & Sy & Hy'); auto. rewrite Hs in Hy'. injection Hy' as <-. pose proof (candidate_le r d K kn d' dy ltac:(lia) S0 CK (Cd _ _ Sy) Le). lia.
Qed.

(** ** Each clause of [agreeable] is needed: what happens otherwise *)
(** An excluded start is given out, first. *)
Theorem C87_excluded_start : forall k (x : item k) l f d r,
  start_of x = Some d -> In d (excluded_of x) -> series x l f -> l <> [] ->
  exists y, In y l /\ start_of y = Some d /\ ~ rfc_set r d (excluded_of x) d.
Proof.
  intros k x l f d r Hd Hx Sx Nl. destruct l as [|y l]; [contradiction|]. destruct (C42_kind k x _ f Sx) as (F & _). exists y. split; [now left|].
  split; [rewrite (F y l eq_refl); auto|]. intros (_ & N). auto.
Qed.
(** Excluded dates do not use up COUNT, so the occurrences run past the RFC's last one. *)
Lemma gaps (ks : list nat) : (forall i n n', nth_error ks i = Some n -> nth_error ks (S i) = Some n' -> (n < n')%nat) ->
  forall j i n n', nth_error ks i = Some n -> nth_error ks (i + j) = Some n' -> (n + j <= n')%nat.
Proof.
  intros G. induction j as [|j IH]; intros i n n' A B.
  - rewrite Nat.add_0_r in B. rewrite A in B. injection B as <-. lia.
  - destruct (nth_error ks (S i)) as [m|] eqn:M.
    + pose proof (G i n m A M). rewrite Nat.add_succ_r, <- Nat.add_succ_l in B. pose proof (IH (S i) m n' M B). lia.
    + exfalso. apply nth_error_None in M. assert (i + S j < length ks)%nat by (apply nth_error_Some; congruence). lia.
Qed.
Theorem C87_count_departs : forall kd (x : item kd) l d r c k d',
  start_of x = Some d -> rule_of x = Some r -> rfc_rule r -> rfc_start r d ->
  (r_freq r = Monthly -> forall y m dd, ymd_of_days (match d with DDate n => n | DDateTime (Naive n) | DDateTime (Local n) => nd_date n end) = (y, m, dd) -> dd <= 28) ->
  r_count r = Some c -> Z.of_nat k < c -> candidate r d k d' -> In d' (excluded_of x) ->
  series x l Ended ->
  exists y dy, In y l /\ start_of y = Some dy /\ ~ rfc_set r d (excluded_of x) dy.
Proof.
  intros kd x l d r c k d' Hd Hr Ru S0 M Hc L Ck Hx Sx. pose proof Ru as (Hi & Hc' & Xo & _). rewrite Hc in Hc'. destruct Xo as [Xo|Xo]; [congruence|].
  pose proof (proj1 (proj2 (C40_kind kd x d r c Hd Hr Hc ltac:(lia))) l Xo Sx) as Len.
  destruct (C42_kind kd x l Ended Sx) as (F & X & P). destruct (P d r Hd Hr) as (ks & Lk & K0 & St & Inc).
  destruct k as [|k0] eqn:Ek.
  { assert (d' = d) as ->.
    { eapply candidate_det; [exact Ck|]. apply steps_candidate; auto. constructor. }
    destruct (C87_excluded_start kd x l Ended d r Hd Hx Sx) as (y & A & B & C); [intros ->; cbn in Len; lia|]. eauto. }
  rewrite <- Ek in *. set (z := (length l - 1)%nat).
  destruct (nth_error l z) as [y|] eqn:Y; [|apply nth_error_None in Y; unfold z in Y; lia].
  destruct (nth_error ks z) as [n|] eqn:N; [|apply nth_error_None in N; unfold z in N; lia].
  destruct (St z n y N Y) as (dy & Hy & Sy & _). exists y, dy. split; [eapply nth_error_In; eauto|]. split; auto. intros ((K & CK & _ & NK) & _).
  assert (Gi : forall i n0 n', nth_error ks i = Some n0 -> nth_error ks (S i) = Some n' -> (n0 < n')%nat) by (intros i n0 n' A B; apply (Inc i n0 n' A B)).
  assert (Kn : K = n).
  { pose proof (steps_candidate r d n dy Ru S0 M Sy) as Cn. pose proof (candidate_le r d K n dy dy ltac:(lia) S0 CK Cn ltac:(lia)). pose proof (candidate_le r d n K dy dy ltac:(lia) S0 Cn CK ltac:(lia)). lia. }
  subst K.
  assert (Nz : (length l <= n)%nat).
  { destruct (Nat.le_gt_cases (length l) n) as [|Q]; auto. exfalso.
    destruct (nth_error ks 0) as [n0|] eqn:N0; [|apply nth_error_None in N0; lia]. pose proof (gaps ks Gi z 0%nat n0 n N0 N) as G0.
    assert (Hk : (k < length l)%nat) by lia. destruct (nth_error ks k) as [nk|] eqn:Nk; [|apply nth_error_None in Nk; lia]. destruct (nth_error l k) as [yk|] eqn:Yk; [|apply nth_error_None in Yk; lia].
    pose proof (gaps ks Gi k 0%nat n0 nk N0 Nk). pose proof (gaps ks Gi (z - k)%nat k nk n Nk) as G1. replace (k + (z - k))%nat with z in G1 by (unfold z; lia). specialize (G1 N).
    assert (nk = k) as -> by (unfold z in *; lia). destruct (St k k yk Nk Yk) as (dk & Hk' & Sk & _).
    apply (X k yk dk Yk ltac:(lia) Hk'). rewrite (candidate_det r d k dk d' (steps_candidate r d k dk Ru S0 M Sk) Ck). exact Hx. }
  assert (Z.of_nat (length (seq 0 (length l))) < c).
  { apply (NK c Hc); [apply seq_NoDup|]. intros j Hj. apply in_seq in Hj. split; [lia|]. destruct (steps_prefix r j n d dy ltac:(lia) Sy) as (b & Sb). exists b. apply steps_candidate; auto. }
  rewrite seq_length in H. lia.
Qed.
(** Occurrences after UNTIL, and, of a monthly rule, on another day of the month than the start, are not the RFC's. *)
Theorem C87_until_departs : forall r d ex d' u, r_until r = Some u -> second_of u < second_of d' -> ~ rfc_set r d ex d'.
Proof. intros r d ex d' u Hu L ((k & _ & U & _) & _). pose proof (U u Hu). lia. Qed.
Theorem C87_month_departs : forall r n ex n' y m dd y' m' dd', r_freq r = Monthly -> ymd_of_days n = (y, m, dd) -> ymd_of_days n' = (y', m', dd') -> dd' <> dd ->
  ~ rfc_set r (DDate n) ex (DDate n').
Proof.
  intros r n ex n' y m dd y' m' dd' F Y Y' D ((k & C & _) & _). unfold candidate in C. rewrite F in C. cbn in C. destruct C as (y0 & m0 & d0 & y1 & m1 & A & B & _). congruence.
Qed.

(** ** When the clause on the day of UNTIL holds by itself *)
Theorem C87_until_date : forall r d k d' u, daily_or_slower (r_freq r) -> candidate r (DDate d) k d' -> (date_naive d' <= date_naive (DDate u) <-> second_of d' <= second_of (DDate u)).
Proof.
  intros r d k d' u Q C. assert (exists n, d' = DDate n) as (n & ->).
  { unfold candidate in C. destruct (unit_seconds (r_freq r)); destruct d' as [n|[n|n]]; cbn in C; eauto; tauto. }
  cbn [date_naive second_of]. lia.
Qed.
(** A floating start and an UNTIL at a time of day not before the start's, with whole days between the occurrences. *)
Theorem C87_until_time : forall r n k d' u, whole n -> whole u -> 1 <= r_interval r -> nd_secs n <= nd_secs u -> daily_or_slower (r_freq r) ->
  candidate r (DDateTime (Naive n)) k d' -> (date_naive d' <= date_naive (DDateTime (Naive u)) <-> second_of d' <= second_of (DDateTime (Naive u))).
Proof.
  intros r n k d' u (Wn & _) (Wu & _) I L Q C. assert (exists m, d' = DDateTime (Naive m) /\ nd_secs m = nd_secs n) as (m & -> & Sm).
  { unfold candidate in C. destruct (unit_seconds (r_freq r)) as [v|] eqn:U; destruct d' as [m|[m|m]]; try contradiction; exists m; (split; [reflexivity|]); [|tauto].
    cbn [moved] in C. destruct C as [(_ & ->)|(_ & C & R & _)]; auto. unfold seconds in C.
    assert (exists q, v = q * 86400) as (q & ->) by (destruct (r_freq r); inv U; try contradiction; [exists 1|exists 7]; lia).
    assert (exists w, nd_secs m = nd_secs n + 86400 * w) as (w & Hw); [|lia]. exists (nd_date n - nd_date m + Z.of_nat k * (r_interval r * q)). lia. }
  cbn [date_naive second_of]. change (dt_date_naive (Naive m)) with (nd_date m). change (dt_date_naive (Naive u)) with (nd_date u). unfold seconds. lia.
Qed.
(** A floating start and an UNTIL at 23:59:59. *)
Theorem C87_until_midnight : forall r n k d' u, whole n -> 1 <= r_interval r -> nd_secs u = 86399 ->
  candidate r (DDateTime (Naive n)) k d' -> (date_naive d' <= date_naive (DDateTime (Naive u)) <-> second_of d' <= second_of (DDateTime (Naive u))).
Proof.
  intros r n k d' u (Wn & _) I L C. assert (exists m, d' = DDateTime (Naive m) /\ 0 <= nd_secs m < 86400) as (m & -> & Sm).
  { unfold candidate in C. destruct (unit_seconds (r_freq r)) as [v|] eqn:U; destruct d' as [m|[m|m]]; try contradiction; exists m; (split; [reflexivity|]).
    - cbn [moved] in C. destruct C as [(_ & ->)|(_ & C & R & _)]; auto.
    - destruct C as (_ & -> & _). auto. }
  cbn [date_naive second_of]. change (dt_date_naive (Naive m)) with (nd_date m). change (dt_date_naive (Naive u)) with (nd_date u). unfold seconds. lia.
Qed.
End Rfc.

(** ** Examples *)
Ltac runs := eapply (collect_run _ 9 9); vm_compute; reflexivity.
(** Daily at nine until 4 January at nine, 2 January excluded: 1, 3 and 4 January, for the crate and for the RFC. *)
Example C87_nonvacuous : forall E : Env,
  let r := plain_rule Daily (Some (clock 2024 1 4 9 0 0)) None 1 in
  let x : item an_event := plain_event (clock 2024 1 1 9 0 0) None (Some r) [clock 2024 1 2 9 0 0] in
  exists l, series x l Ended /\ map start_of l = [Some (clock 2024 1 1 9 0 0); Some (clock 2024 1 3 9 0 0); Some (clock 2024 1 4 9 0 0)] /\
    rule_of x = Some r /\ rfc_rule r /\ rfc_start r (clock 2024 1 1 9 0 0) /\ agreeable r (clock 2024 1 1 9 0 0) (excluded_of x).
Proof.
  intros E r x. eexists. split; [runs|]. split; [reflexivity|]. split; [reflexivity|].
  assert (W : forall a b c h, h = 9 -> date_ok (days_of_ymd a b c) = true -> whole (mk_ndt (days_of_ymd a b c) (h * 3600 + 0 * 60 + 0) 0)).
  { intros a b c h -> H. split; [cbn [nd_secs]; lia|]. split; [reflexivity|exact H]. }
  split; [|split].
  - unfold rfc_rule, r, plain_rule. cbn. repeat match goal with |- _ /\ _ => split end; auto; lia.
  - apply (W 2024 1 1 9 eq_refl). vm_compute. reflexivity.
  - change (excluded_of x) with [clock 2024 1 2 9 0 0]. unfold agreeable. repeat match goal with |- _ /\ _ => split end.
    + intros [H|[]]. vm_compute in H. discriminate.
    + discriminate.
    + discriminate.
    + intros u k d' Hu C. injection Hu as <-. refine (C87_until_time r _ k d' _ (W 2024 1 1 9 eq_refl _) (W 2024 1 4 9 eq_refl _) _ _ I C); try (vm_compute; reflexivity); unfold r, plain_rule; cbn [nd_secs r_interval]; lia.
    + intros u k d' Hu C L _ [<-|[]]. injection Hu as <-. revert L. vm_compute. discriminate.
Qed.
(** Monthly on the 15th, COUNT=3. *)
Example C87_nonvacuous_count : forall E : Env,
  let r := plain_rule Monthly None (Some 3) 1 in
  let x : item a_todo := plain_todo (day 2024 1 15) r [day 2024 9 15] in
  exists l, series x l Ended /\ map start_of l = [Some (day 2024 1 15); Some (day 2024 2 15); Some (day 2024 3 15)] /\
    rule_of x = Some r /\ rfc_rule r /\ rfc_start r (day 2024 1 15) /\ agreeable r (day 2024 1 15) (excluded_of x).
Proof.
  intros E r x. eexists. split; [runs|]. split; [reflexivity|]. split; [reflexivity|]. split; [|split].
  - unfold rfc_rule, r, plain_rule. cbn. repeat match goal with |- _ /\ _ => split end; auto; lia.
  - split; [exact I|]. vm_compute. reflexivity.
  - change (excluded_of x) with [day 2024 9 15]. unfold agreeable. repeat match goal with |- _ /\ _ => split end.
    + intros [H|[]]. vm_compute in H. discriminate.
    + intros _ y m dd H. vm_compute in H. injection H as <- <- <-. lia.
    + intros c k d' Hc L C [<-|[]]. injection Hc as <-. destruct C as (y & m & d & y' & m' & A & B & D). vm_compute in A, B. injection A as <- <- <-. injection B as <- <-. unfold r, plain_rule in D. cbn [r_freq r_interval] in D. lia.
    + discriminate.
    + discriminate.
Qed.
(** What is lost of the RFC's set otherwise: monthly from 31 January the crate gives 29 February and never 31 March; daily at noon until midnight
    of 3 January it gives noon of that day; and with 4 January excluded, the RFC's 3 January is missing. *)
Example C87_departures : forall E : Env,
  (let r := plain_rule Monthly None (Some 3) 1 in let x : item an_event := plain_event (day 2024 1 31) None (Some r) [] in
   exists l, series x l Ended /\ map start_of l = [Some (day 2024 1 31); Some (day 2024 2 29); Some (day 2024 3 29)] /\
     rfc_set r (day 2024 1 31) [] (day 2024 3 31) /\ ~ rfc_set r (day 2024 1 31) [] (day 2024 2 29)) /\
  (let r := plain_rule Daily (Some (clock 2024 1 3 0 0 0)) None 1 in let x : item an_event := plain_event (clock 2024 1 1 12 0 0) None (Some r) [] in
   exists l, series x l Ended /\ map start_of l = [Some (clock 2024 1 1 12 0 0); Some (clock 2024 1 2 12 0 0); Some (clock 2024 1 3 12 0 0)] /\
     ~ rfc_set r (clock 2024 1 1 12 0 0) [] (clock 2024 1 3 12 0 0)) /\
  (let r := plain_rule Daily (Some (day 2024 1 3)) None 1 in let x : item an_event := plain_event (day 2024 1 1) None (Some r) [day 2024 1 4] in
   exists l, series x l Ended /\ map start_of l = [Some (day 2024 1 1); Some (day 2024 1 2)] /\ rfc_set r (day 2024 1 1) [day 2024 1 4] (day 2024 1 3)).
Proof.
  intros E. split; [|split]; eexists; (split; [runs|]); (split; [reflexivity|]).
  - split.
    + split; [|intros []]. exists 2%nat. split; [|split].
      * exists 2024, 1, 31, 2024, 3. repeat match goal with |- _ /\ _ => split end; try (vm_compute; reflexivity).
      * discriminate.
      * intros c Hc js ND Js. injection Hc as <-. assert (length js <= length (seq 0 2))%nat; [|rewrite seq_length in H; lia]. apply NoDup_incl_length; auto. intros j Hj. apply in_seq. destruct (Js j Hj). lia.
    + eapply (C87_month_departs (plain_rule Monthly None (Some 3) 1) _ [] _ 2024 1 31 2024 2 29); [reflexivity|vm_compute; reflexivity|vm_compute; reflexivity|lia].
  - eapply (C87_until_departs (plain_rule Daily (Some (clock 2024 1 3 0 0 0)) None 1)); [reflexivity|]. vm_compute. reflexivity.
  - split; [|intros [H|[]]; vm_compute in H; discriminate]. exists 2%nat. split; [|split].
    + cbn [candidate plain_rule r_freq unit_seconds moved]. split; [now right|]. vm_compute. reflexivity.
    + intros u Hu. injection Hu as <-. lia.
    + discriminate.
Qed.
(** COUNT=3 with 2 January excluded: 4 January is given out, beyond the RFC's 1 and 3 January. *)
Example C87_nonvacuous_departs : forall E : Env,
  let r := plain_rule Daily None (Some 3) 1 in let x : item a_journal := plain_journal (day 2024 1 1) r [day 2024 1 2] in
  exists l, series x l Ended /\ map start_of l = [Some (day 2024 1 1); Some (day 2024 1 3); Some (day 2024 1 4)] /\
    candidate r (day 2024 1 1) 1 (day 2024 1 2) /\ rfc_set r (day 2024 1 1) (excluded_of x) (day 2024 1 3).
Proof.
  intros E r x. eexists. split; [runs|]. split; [reflexivity|]. split.
  - cbn [candidate r plain_rule r_freq unit_seconds moved]. split; [now right|]. vm_compute. reflexivity.
  - split; [|intros [H|[]]; vm_compute in H; discriminate]. exists 2%nat. split; [|split].
    + cbn [candidate r plain_rule r_freq unit_seconds moved]. split; [now right|]. vm_compute. reflexivity.
    + discriminate.
    + intros c Hc js ND Js. injection Hc as <-. assert (length js <= length (seq 0 2))%nat; [|rewrite seq_length in H; lia]. apply NoDup_incl_length; auto. intros j Hj. apply in_seq. destruct (Js j Hj). lia.
Qed.
