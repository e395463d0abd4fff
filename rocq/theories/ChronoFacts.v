(** * Facts about Chrono.v: the calendar, then texts of dates. *)
From Verif Require Import Base Env Chrono BaseFacts.

(** ** The calendar *)
(** [z] days after 0000-03-01, decomposed. *)
Definition march (era c q k doy : Z) : Prop :=
  0 <= c <= 3 /\ 0 <= q <= 24 /\ 0 <= k <= 3 /\ 0 <= doy <= 365 /\
  (doy = 365 -> k = 3 /\ (q < 24 \/ c = 3)).
Definition march_days (era c q k doy : Z) : Z :=
  146097 * era + 36524 * c + 1461 * q + 365 * k + doy.

Lemma div_is a b q r : 0 <= r < b -> a = b * q + r -> a / b = q.
Proof. intros H ->. symmetry. apply Z.div_unique with r; lia. Qed.
Lemma mod_is a b q r : 0 <= r < b -> a = b * q + r -> a mod b = r.
Proof. intros H ->. symmetry. apply Z.mod_unique with q; lia. Qed.

Lemma ymd_of_march era c q k doy : march era c q k doy ->
  ymd_of_days (march_days era c q k doy - 719468) =
  let mp := (5 * doy + 2) / 153 in
  let d := doy - (153 * mp + 2) / 5 + 1 in
  let m := if mp <? 10 then mp + 3 else mp - 9 in
  (400 * era + 100 * c + 4 * q + k + (if m <=? 2 then 1 else 0), m, d).
Proof.
  intros (Hc & Hq & Hk & Hd & H365). unfold march_days, ymd_of_days.
  set (z := 146097 * era + _ + _ + _ + _).
  replace (z - 719468 + 719468) with z by lia.
  set (r := 36524 * c + 1461 * q + 365 * k + doy).
  assert (Hr : 0 <= r < 146097) by (subst r; lia).
  rewrite (div_is z 146097 era r) by (subst z r; lia).
  rewrite (mod_is z 146097 era r) by (subst z r; lia).
  set (r2 := 1461 * q + 365 * k + doy).
  assert (Hmin : Z.min (r / 36524) 3 = c).
  { destruct (Z.eq_dec c 3) as [->|].
    - apply Z.min_r. apply Z.div_le_lower_bound; subst r; lia.
    - rewrite (div_is r 36524 c r2); subst r r2; lia. }
  rewrite Hmin. replace (r - c * 36524) with r2 by (subst r r2; lia).
  set (r3 := 365 * k + doy).
  rewrite (div_is r2 1461 q r3) by (subst r2 r3; lia).
  rewrite (mod_is r2 1461 q r3) by (subst r2 r3; lia).
  assert (Hmin2 : Z.min (r3 / 365) 3 = k).
  { destruct (Z.eq_dec k 3) as [->|].
    - apply Z.min_r. apply Z.div_le_lower_bound; subst r3; lia.
    - rewrite (div_is r3 365 k doy); subst r3; lia. }
  rewrite Hmin2. replace (r3 - 365 * k) with doy by (subst r3; lia). reflexivity.
Qed.

Lemma march_exists z : exists era c q k doy, march era c q k doy /\ z = march_days era c q k doy.
Proof.
  pose proof (Z.div_mod z 146097 ltac:(lia)). pose proof (Z.mod_pos_bound z 146097 ltac:(lia)).
  set (era := z / 146097) in *. set (r := z mod 146097) in *.
  set (c := Z.min (r / 36524) 3).
  pose proof (Z.div_mod r 36524 ltac:(lia)). pose proof (Z.mod_pos_bound r 36524 ltac:(lia)).
  assert (Hc : 0 <= c <= 3) by (pose proof (Z.div_pos r 36524); lia).
  assert (Hr2 : 0 <= r - 36524 * c <= 36524 /\ (r - 36524 * c = 36524 -> c = 3)) by lia.
  set (r2 := r - 36524 * c) in *.
  pose proof (Z.div_mod r2 1461 ltac:(lia)). pose proof (Z.mod_pos_bound r2 1461 ltac:(lia)).
  set (q := r2 / 1461) in *. set (r3 := r2 mod 1461) in *.
  assert (Hq : 0 <= q <= 24) by lia.
  set (k := Z.min (r3 / 365) 3).
  pose proof (Z.div_mod r3 365 ltac:(lia)). pose proof (Z.mod_pos_bound r3 365 ltac:(lia)).
  assert (Hk : 0 <= k <= 3) by (pose proof (Z.div_pos r3 365); lia).
  exists era, c, q, k, (r3 - 365 * k). unfold march, march_days.
  repeat split; lia.
Qed.

Lemma days_before_march era c q k :
  0 <= c <= 3 -> 0 <= q <= 24 -> 0 <= k <= 3 ->
  days_before (400 * era + 100 * c + 4 * q + k) = march_days era c q k 0.
Proof.
  intros. unfold days_before, march_days.
  rewrite (div_is (400 * era + 100 * c + 4 * q + k) 4 (100 * era + 25 * c + q) k) by lia.
  rewrite (div_is (400 * era + 100 * c + 4 * q + k) 100 (4 * era + c) (4 * q + k)) by lia.
  rewrite (div_is (400 * era + 100 * c + 4 * q + k) 400 era (100 * c + 4 * q + k)) by lia.
  lia.
Qed.

Lemma is_leap_march era c q k :
  0 <= c <= 3 -> 0 <= q <= 24 -> 0 <= k <= 3 ->
  is_leap (400 * era + 100 * c + 4 * q + k + 1) = true <-> k = 3 /\ (q < 24 \/ c = 3).
Proof.
  intros. unfold is_leap. set (y := _ + 1).
  assert (E4 : y mod 4 = if k =? 3 then 0 else k + 1).
  { destruct (Z.eqb_spec k 3).
    - apply (mod_is y 4 (100 * era + 25 * c + q + 1)); subst y; lia.
    - apply (mod_is y 4 (100 * era + 25 * c + q)); subst y; lia. }
  assert (E100 : y mod 100 = 0 <-> k = 3 /\ q = 24).
  { destruct (Z.eq_dec (4 * q + k) 99).
    - rewrite (mod_is y 100 (4 * era + c + 1) 0); subst y; lia.
    - rewrite (mod_is y 100 (4 * era + c) (4 * q + k + 1)); subst y; lia. }
  assert (E400 : y mod 400 = 0 <-> k = 3 /\ q = 24 /\ c = 3).
  { destruct (Z.eq_dec (100 * c + 4 * q + k) 399).
    - rewrite (mod_is y 400 (era + 1) 0); subst y; lia.
    - rewrite (mod_is y 400 era (100 * c + 4 * q + k + 1)); subst y; lia. }
  rewrite E4.
  destruct (Z.eqb_spec k 3); cbn [negb].
  - change (0 =? 0) with true. cbn [andb].
    destruct (Z.eqb_spec (y mod 100) 0), (Z.eqb_spec (y mod 400) 0); cbn; split; try congruence; lia.
  - destruct (Z.eqb_spec (k + 1) 0); [lia|]. cbn. split; [congruence|lia].
Qed.

(** Month table of the March-based year. *)
Definition mlen (mp : Z) : Z :=
  if mp =? 11 then 29
  else if (mp =? 1) || (mp =? 3) || (mp =? 6) || (mp =? 8) then 30 else 31.
Lemma mp_cases mp : 0 <= mp <= 11 ->
  mp = 0 \/ mp = 1 \/ mp = 2 \/ mp = 3 \/ mp = 4 \/ mp = 5 \/ mp = 6 \/ mp = 7 \/ mp = 8 \/ mp = 9 \/ mp = 10 \/ mp = 11.
Proof. lia. Qed.
Ltac mp_cases H := repeat destruct H as [H|H].
Lemma doy_month doy : 0 <= doy <= 365 ->
  let mp := (5 * doy + 2) / 153 in
  0 <= mp <= 11 /\ 1 <= doy - (153 * mp + 2) / 5 + 1 <= mlen mp.
Proof.
  intros H mp. pose proof (Z.div_mod (5 * doy + 2) 153 ltac:(lia)).
  pose proof (Z.mod_pos_bound (5 * doy + 2) 153 ltac:(lia)). fold mp in H0.
  assert (Hmp : 0 <= mp <= 11) by lia. split; auto. clearbody mp.
  destruct (mp_cases mp Hmp) as [G|G]; mp_cases G; rewrite G in H0 |- *; unfold mlen; cbn -[Z.mul Z.add Z.sub]; cbn; lia.
Qed.
Lemma month_doy mp d : 0 <= mp <= 11 -> 1 <= d <= mlen mp ->
  let doy := (153 * mp + 2) / 5 + d - 1 in
  0 <= doy <= 365 /\ (5 * doy + 2) / 153 = mp /\ (doy = 365 <-> mp = 11 /\ d = 29).
Proof.
  intros Hmp Hd doy.
  pose proof (Z.div_mod (5 * doy + 2) 153 ltac:(lia)).
  pose proof (Z.mod_pos_bound (5 * doy + 2) 153 ltac:(lia)).
  set (Q := (5 * doy + 2) / 153) in *. set (M := (5 * doy + 2) mod 153) in *.
  clearbody Q M. assert (Ed : doy = (153 * mp + 2) / 5 + d - 1) by reflexivity. clearbody doy.
  destruct (mp_cases mp Hmp) as [G|G]; mp_cases G; rewrite G in Hd, Ed |- *;
    unfold mlen in Hd; cbn in Hd;
    match type of Ed with _ = ?a / 5 + _ - 1 => let v := eval vm_compute in (a / 5) in change (a / 5) with v in Ed end;
    repeat split; lia.
Qed.

Lemma valid_ymd_iff y m d : valid_ymd y m d = true <-> 1 <= m <= 12 /\ 1 <= d <= days_in_month y m.
Proof. unfold valid_ymd. rewrite !andb_true_iff, !Z.leb_le. tauto. Qed.

Lemma leap_days y mp : 0 <= mp <= 11 ->
  let m := if mp <? 10 then mp + 3 else mp - 9 in
  days_in_month y m = if (mp =? 11) && negb (is_leap y) then 28 else mlen mp.
Proof.
  intros Hmp. destruct (mp_cases mp Hmp) as [G|G]; mp_cases G; subst mp; cbn; try reflexivity.
  destruct (is_leap y); reflexivity.
Qed.

(** Reading a valid date back from its day number. *)
Lemma ymd_of_days_of_ymd y m d : valid_ymd y m d = true -> ymd_of_days (days_of_ymd y m d) = (y, m, d).
Proof.
  intros H. apply valid_ymd_iff in H as [Hm Hd]. unfold days_of_ymd.
  set (Y := if m <=? 2 then y - 1 else y). set (mp := if m <=? 2 then m + 9 else m - 3).
  assert (Hmp : 0 <= mp <= 11) by (subst mp; destruct (Z.leb_spec m 2); lia).
  assert (Em : m = if mp <? 10 then mp + 3 else mp - 9).
  { subst mp. destruct (Z.leb_spec m 2); [destruct (Z.ltb_spec (m + 9) 10)|destruct (Z.ltb_spec (m - 3) 10)]; lia. }
  assert (Ey : y = Y + (if m <=? 2 then 1 else 0)) by (subst Y; destruct (m <=? 2); lia).
  pose proof (leap_days y mp Hmp) as Hl. cbv zeta in Hl. rewrite <- Em in Hl. rewrite Hl in Hd.
  assert (Hd' : 1 <= d <= mlen mp).
  { destruct ((mp =? 11) && negb (is_leap y)) eqn:Hx; [|lia]. bool_hyps. rewrite H. cbn. lia. }
  destruct (month_doy mp d Hmp Hd') as (Hdoy & Hback & H365). cbv zeta in *.
  set (doy := (153 * mp + 2) / 5 + d - 1) in *.
  pose proof (Z.div_mod Y 400 ltac:(lia)). pose proof (Z.mod_pos_bound Y 400 ltac:(lia)).
  set (era := Y / 400) in *. set (R := Y mod 400) in *.
  pose proof (Z.div_mod R 100 ltac:(lia)). pose proof (Z.mod_pos_bound R 100 ltac:(lia)).
  set (c := R / 100) in *. set (R2 := R mod 100) in *.
  pose proof (Z.div_mod R2 4 ltac:(lia)). pose proof (Z.mod_pos_bound R2 4 ltac:(lia)).
  set (q := R2 / 4) in *. set (k := R2 mod 4) in *.
  assert (EY : Y = 400 * era + 100 * c + 4 * q + k) by lia.
  assert (Hm' : march era c q k doy).
  { unfold march. split; [lia|]. split; [lia|]. split; [lia|]. split; [lia|].
    intros H6. apply H365 in H6 as [H6 H7].
    apply (is_leap_march era c q k); try lia. rewrite <- EY.
    rewrite H6 in Em. cbn in Em. rewrite Em in Ey. cbn in Ey. rewrite <- Ey.
    destruct (is_leap y); auto. rewrite H6 in Hd. cbn in Hd. lia. }
  replace (days_before Y + (153 * mp + 2) / 5 + d - 1 - 719468) with (march_days era c q k doy - 719468).
  2:{ rewrite EY, days_before_march by lia. unfold march_days. subst doy. lia. }
  rewrite ymd_of_march by auto. cbv zeta. rewrite Hback. rewrite <- Em, Ey, EY.
  f_equal. subst doy. lia.
Qed.

(** Every day number is that of the valid date read from it. *)
Lemma days_of_ymd_of_days n :
  let '(y, m, d) := ymd_of_days n in valid_ymd y m d = true /\ days_of_ymd y m d = n.
Proof.
  destruct (march_exists (n + 719468)) as (era & c & q & k & doy & Hm & Hz).
  replace n with (march_days era c q k doy - 719468) by lia.
  rewrite ymd_of_march by auto. cbv zeta. destruct Hm as (Hc & Hq & Hk & Hd & H365).
  destruct (doy_month doy Hd) as [Hmp Hdd]. cbv zeta in *.
  set (mp := (5 * doy + 2) / 153) in *. set (d := doy - (153 * mp + 2) / 5 + 1) in *.
  set (m := if mp <? 10 then mp + 3 else mp - 9).
  set (Y := 400 * era + 100 * c + 4 * q + k).
  assert (Hm12 : 1 <= m <= 12) by (subst m; destruct (Z.ltb_spec mp 10); lia).
  assert (Em2 : (m <=? 2) = negb (mp <? 10)).
  { subst m. destruct (Z.ltb_spec mp 10); [destruct (Z.leb_spec (mp + 3) 2)|destruct (Z.leb_spec (mp - 9) 2)]; cbn; auto; lia. }
  destruct (month_doy mp d Hmp Hdd) as (_ & _ & H29). cbv zeta in H29.
  replace ((153 * mp + 2) / 5 + d - 1) with doy in H29 by (subst d; lia).
  split.
  - apply valid_ymd_iff. split; auto. split; [lia|].
    pose proof (leap_days (Y + (if m <=? 2 then 1 else 0)) mp Hmp) as Hl. cbv zeta in Hl.
    fold m in Hl. rewrite Hl. destruct ((mp =? 11) && _) eqn:Hx; [|lia]. bool_hyps.
    assert (d <> 29); [|rewrite H in Hdd; cbn in Hdd; lia]. intros Hd29.
    destruct (proj2 H29 (conj H Hd29)). rewrite Em2, H in H0. cbn in H0.
    assert (is_leap (Y + 1) = true); [|congruence].
    apply is_leap_march; auto.
  - unfold days_of_ymd.
    replace (if m <=? 2 then Y + (if m <=? 2 then 1 else 0) - 1 else Y + (if m <=? 2 then 1 else 0)) with Y
      by (destruct (m <=? 2); lia).
    replace (if m <=? 2 then m + 9 else m - 3) with mp.
    2:{ rewrite Em2. subst m. destruct (Z.ltb_spec mp 10); cbn; lia. }
    unfold Y. rewrite days_before_march by auto. unfold march_days. subst d. lia.
Qed.

Lemma march_year Y : exists era c q k, 0 <= c <= 3 /\ 0 <= q <= 24 /\ 0 <= k <= 3 /\ Y = 400 * era + 100 * c + 4 * q + k.
Proof.
  exists (Y / 400), (Y mod 400 / 100), (Y mod 400 mod 100 / 4), (Y mod 400 mod 100 mod 4).
  pose proof (Z.div_mod Y 400 ltac:(lia)). pose proof (Z.mod_pos_bound Y 400 ltac:(lia)).
  set (R := Y mod 400) in *.
  pose proof (Z.div_mod R 100 ltac:(lia)). pose proof (Z.mod_pos_bound R 100 ltac:(lia)).
  set (R2 := R mod 100) in *.
  pose proof (Z.div_mod R2 4 ltac:(lia)). pose proof (Z.mod_pos_bound R2 4 ltac:(lia)). lia.
Qed.
Lemma days_before_succ Y : days_before (Y + 1) = days_before Y + 365 + (if is_leap (Y + 1) then 1 else 0).
Proof.
  destruct (march_year Y) as (era & c & q & k & Hc & Hq & Hk & HY).
  assert (L := is_leap_march era c q k Hc Hq Hk). rewrite <- HY in L.
  rewrite HY at 2. rewrite days_before_march by auto.
  assert (E : days_before (Y + 1) = march_days era c q k 0 + 365 + if (k =? 3) && ((q <? 24) || (c =? 3)) then 1 else 0).
  { destruct (Z.eqb_spec k 3).
    - destruct (Z.ltb_spec q 24); cbn [andb orb].
      + replace (Y + 1) with (400 * era + 100 * c + 4 * (q + 1) + 0) by lia.
        rewrite days_before_march by lia. unfold march_days. lia.
      + destruct (Z.eqb_spec c 3).
        * replace (Y + 1) with (400 * (era + 1) + 100 * 0 + 4 * 0 + 0) by lia.
          rewrite days_before_march by lia. unfold march_days. lia.
        * replace (Y + 1) with (400 * era + 100 * (c + 1) + 4 * 0 + 0) by lia.
          rewrite days_before_march by lia. unfold march_days. lia.
    - cbn [andb]. replace (Y + 1) with (400 * era + 100 * c + 4 * q + (k + 1)) by lia.
      rewrite days_before_march by lia. unfold march_days. lia. }
  rewrite E. f_equal.
  destruct (is_leap (Y + 1)).
  - destruct (proj1 L eq_refl) as [-> [?|?]];
      destruct (Z.ltb_spec q 24), (Z.eqb_spec c 3); cbn; auto; lia.
  - destruct (Z.eqb_spec k 3), (Z.ltb_spec q 24), (Z.eqb_spec c 3); cbn; auto;
      (assert (false = true) by (apply L; lia); congruence).
Qed.
Lemma m_cases m : 1 <= m <= 12 ->
  m = 1 \/ m = 2 \/ m = 3 \/ m = 4 \/ m = 5 \/ m = 6 \/ m = 7 \/ m = 8 \/ m = 9 \/ m = 10 \/ m = 11 \/ m = 12.
Proof. lia. Qed.
Lemma days_of_ymd_d y m d : days_of_ymd y m d = days_of_ymd y m 1 + (d - 1).
Proof. unfold days_of_ymd. lia. Qed.
Lemma days_next_month y m : 1 <= m <= 11 ->
  days_of_ymd y (m + 1) 1 = days_of_ymd y m 1 + days_in_month y m.
Proof.
  intros Hm. destruct (m_cases m ltac:(lia)) as [G|G]; mp_cases G; subst m; unfold days_of_ymd, days_in_month; cbn -[days_before]; try lia.
  pose proof (days_before_succ (y - 1)) as H. replace (y - 1 + 1) with y in H by lia.
  rewrite H. destruct (is_leap y); lia.
Qed.
Lemma days_next_year y : days_of_ymd (y + 1) 1 1 = days_of_ymd y 12 1 + 31.
Proof. unfold days_of_ymd; cbn -[days_before]. replace (y + 1 - 1) with y by lia. lia. Qed.
Lemma days_in_month_bounds y m : 28 <= days_in_month y m <= 31.
Proof. unfold days_in_month. repeat destr_match; lia. Qed.

(** The day number is strictly monotone in (year, month, day). *)
Lemma days_first_mono y m m' : 1 <= m -> m <= m' -> m' <= 12 ->
  days_of_ymd y m 1 + 28 * (m' - m) <= days_of_ymd y m' 1.
Proof.
  intros H1 H2 H3. replace m' with (m + (m' - m)) in * by lia. set (k := m' - m) in *.
  assert (0 <= k) by lia. clearbody k. clear m' H2. revert H3. pattern k. apply natlike_ind; auto; clear k H.
  - intros. replace (m + 0) with m by lia. lia.
  - intros k Hk IH H3. pose proof (days_next_month y (m + k) ltac:(lia)).
    pose proof (days_in_month_bounds y (m + k)). replace (m + Z.succ k) with (m + k + 1) by lia. lia.
Qed.
Lemma days_year_mono y y' : y <= y' -> days_of_ymd y 1 1 + 336 * (y' - y) <= days_of_ymd y' 1 1.
Proof.
  intros H. replace y' with (y + (y' - y)) by lia. set (k := y' - y). assert (0 <= k) by lia.
  clearbody k. replace (y + k - y) with k by lia. pattern k; apply natlike_ind; auto; clear.
  - replace (y + 0) with y by lia. lia.
  - intros k Hk IH. pose proof (days_next_year (y + k)). pose proof (days_first_mono (y + k) 1 12 ltac:(lia) ltac:(lia) ltac:(lia)).
    replace (y + Z.succ k) with (y + k + 1) by lia. lia.
Qed.
Definition ymd_lt (a b : Z * Z * Z) : Prop :=
  let '(y, m, d) := a in let '(y', m', d') := b in
  y < y' \/ y = y' /\ (m < m' \/ m = m' /\ d < d').
Lemma days_mono y m d y' m' d' : valid_ymd y m d = true -> valid_ymd y' m' d' = true ->
  ymd_lt (y, m, d) (y', m', d') -> days_of_ymd y m d < days_of_ymd y' m' d'.
Proof.
  intros H H'. apply valid_ymd_iff in H as [Hm Hd], H' as [Hm' Hd'].
  rewrite (days_of_ymd_d y m d), (days_of_ymd_d y' m' d').
  assert (Hnm : days_of_ymd y m 1 + (d - 1) < days_of_ymd (y + 1) 1 1).
  { pose proof (days_next_year y). pose proof (days_in_month_bounds y m).
    destruct (Z.eq_dec m 12) as [->|].
    - assert (days_in_month y 12 = 31) by reflexivity. lia.
    - pose proof (days_next_month y m ltac:(lia)).
      pose proof (days_first_mono y (m + 1) 12 ltac:(lia) ltac:(lia) ltac:(lia)). lia. }
  intros [Hy|[-> [Hmm|[-> Hdd]]]].
  - pose proof (days_year_mono (y + 1) y' ltac:(lia)).
    pose proof (days_first_mono y' 1 m' ltac:(lia) ltac:(lia) ltac:(lia)). lia.
  - pose proof (days_next_month y' m ltac:(lia)).
    pose proof (days_first_mono y' (m + 1) m' ltac:(lia) ltac:(lia) ltac:(lia)). lia.
  - lia.
Qed.
Lemma ymd_lt_total a b : ymd_lt a b \/ a = b \/ ymd_lt b a.
Proof.
  destruct a as [[y m] d], b as [[y' m'] d']. unfold ymd_lt.
  destruct (Z.lt_total y y') as [|[->|]]; [lia| |lia].
  destruct (Z.lt_total m m') as [|[->|]]; [lia| |lia].
  destruct (Z.lt_total d d') as [|[->|]]; lia || auto.
Qed.
Lemma days_mono_iff a b :
  a < b <-> ymd_lt (ymd_of_days a) (ymd_of_days b).
Proof.
  pose proof (days_of_ymd_of_days a) as Ha. pose proof (days_of_ymd_of_days b) as Hb.
  destruct (ymd_of_days a) as [[y m] d], (ymd_of_days b) as [[y' m'] d'].
  destruct Ha as [Va <-], Hb as [Vb <-]. split.
  - intros H. destruct (ymd_lt_total (y, m, d) (y', m', d')) as [?|[E|?]]; auto.
    + inv E. lia.
    + pose proof (days_mono _ _ _ _ _ _ Vb Va H0). lia.
  - now apply days_mono.
Qed.

Lemma date_ok_year n : date_ok n = true <-> MIN_YEAR <= date_year n <= MAX_YEAR.
Proof.
  unfold date_ok, date_year, MIN_DATE, MAX_DATE. rewrite andb_true_iff, !Z.leb_le.
  pose proof (days_of_ymd_of_days n) as Hn. destruct (ymd_of_days n) as [[y m] d]. cbn [fst].
  destruct Hn as [V <-]. pose proof V as V'. apply valid_ymd_iff in V' as [Hm Hd].
  split.
  - intros [H1 H2]. split.
    + destruct (Z.le_gt_cases MIN_YEAR y); auto.
      assert (days_of_ymd y m d < days_of_ymd MIN_YEAR 1 1) by (apply days_mono; auto; left; auto). lia.
    + destruct (Z.le_gt_cases y MAX_YEAR); auto.
      assert (days_of_ymd MAX_YEAR 12 31 < days_of_ymd y m d) by (apply days_mono; auto; left; lia). lia.
  - intros [H1 H2]. split.
    + destruct (ymd_lt_total (MIN_YEAR, 1, 1) (y, m, d)) as [L|[L|L]].
      * pose proof (days_mono MIN_YEAR 1 1 y m d eq_refl V L). lia.
      * inv L. lia.
      * cbn in L. lia.
    + destruct (ymd_lt_total (y, m, d) (MAX_YEAR, 12, 31)) as [L|[L|L]].
      * pose proof (days_mono y m d MAX_YEAR 12 31 V eq_refl L). lia.
      * inv L. lia.
      * cbn in L. pose proof (days_in_month_bounds y m). lia.
Qed.
Lemma from_ymd_opt_Some y m d n :
  from_ymd_opt y m d = Some n <->
  MIN_YEAR <= y <= MAX_YEAR /\ valid_ymd y m d = true /\ n = days_of_ymd y m d.
Proof.
  unfold from_ymd_opt. destruct (_ && _ && _) eqn:H; bool_hyps.
  - split; [intros [= <-]; auto|]. intros (_ & _ & ->); auto.
  - split; [congruence|]. intros (H1 & H2 & ->). rewrite H2 in H.
    destruct (Z.leb_spec MIN_YEAR y), (Z.leb_spec y MAX_YEAR); cbn in H; lia || congruence.
Qed.
(** Through [ymd_of_days]: the date exists iff it is that of an in-range day number. *)
Lemma from_ymd_opt_iff y m d n :
  from_ymd_opt y m d = Some n <-> ymd_of_days n = (y, m, d) /\ date_ok n = true.
Proof.
  rewrite from_ymd_opt_Some, date_ok_year. unfold date_year. split.
  - intros (H & V & ->). rewrite ymd_of_days_of_ymd by auto. auto.
  - intros [E H]. rewrite E in H. cbn in H. pose proof (days_of_ymd_of_days n) as Hn.
    rewrite E in Hn. destruct Hn. auto.
Qed.
Lemma valid_of_days n y m d : ymd_of_days n = (y, m, d) -> valid_ymd y m d = true /\ days_of_ymd y m d = n.
Proof. intros E. pose proof (days_of_ymd_of_days n) as H. now rewrite E in H. Qed.
