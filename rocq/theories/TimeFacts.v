(** * Facts about date arithmetic *)
From Verif Require Import Base Env Chrono Types Components Iter BaseFacts ChronoFacts SpecCal SpecIter.

Lemma td_check_Ok n t : td_check n = Ok t -> t = n.
Proof. unfold td_check. destruct (td_ok n); congruence. Qed.
Lemma quot_nanos s : Z.quot (s * NANOS) NANOS = s /\ Z.rem (s * NANOS) NANOS = 0.
Proof. split; [apply Z.quot_mul|apply Z.rem_mul]; unfold NANOS; lia. Qed.
Lemma seconds_norm (d s : Z) : (d + s / 86400) * 86400 + s mod 86400 = d * 86400 + s.
Proof. pose proof (Z.div_mod s 86400 ltac:(lia)). lia. Qed.
Lemma add_td_later n s n' : tidy_time n -> 0 <= s -> ndt_add_td n (s * NANOS) = Ok n' -> later n s n' /\ tidy_time n'.
Proof.
  intros [H1 H2] Hs. unfold ndt_add_td. destruct (quot_nanos s) as [-> ->]. unfold later, tidy_time, seconds.
  replace (0 <? 0) with false by reflexivity. rewrite andb_false_l, orb_false_r.
  assert (F : forall fr, 0 <= fr < NANOS -> fr = nd_nano n mod 1000000000 ->
    (let '(secs, frac) := if fr + 0 <? 0 then (nd_secs n + s - 1, fr + 0 + NANOS) else if NANOS <=? fr + 0 then (nd_secs n + s + 1, fr + 0 - NANOS) else (nd_secs n + s, fr + 0) in
     if date_ok (nd_date n + secs / 86400) then Ok (mk_ndt (nd_date n + secs / 86400) (secs mod 86400) frac) else Panic) = Ok n' ->
    (s = 0 -> nd_nano n < NANOS) ->
    (s = 0 /\ n' = n \/ 0 < s /\ nd_date n' * 86400 + nd_secs n' = nd_date n * 86400 + nd_secs n + s /\ 0 <= nd_secs n' < 86400 /\ nd_nano n' = nd_nano n mod 1000000000) /\
    0 <= nd_secs n' < 86400 /\ 0 <= nd_nano n' < 2000000000).
  { intros fr Hf Ef. rewrite Z.add_0_r. destruct (Z.ltb_spec fr 0); [lia|]. destruct (Z.leb_spec NANOS fr); [lia|].
    destruct (date_ok _); [|discriminate]. intros X Hn. inv X. cbn [nd_date nd_secs nd_nano]. pose proof (Z.mod_pos_bound (nd_secs n + s) 86400 ltac:(lia)).
    unfold NANOS in *. split; [|lia]. destruct (Z.eq_dec s 0) as [->|].
    - left. split; auto. rewrite Z.add_0_r. rewrite Z.div_small, Z.mod_small, Z.add_0_r by lia. destruct n as [a b c]; cbn in *. f_equal. rewrite Z.mod_small by lia. reflexivity.
    - right. split; [lia|]. split; [rewrite seconds_norm; lia|]. split; [lia|]. reflexivity. }
  destruct (Z.leb_spec NANOS (nd_nano n)) as [L|L].
  - destruct (Z.ltb_spec 0 s) as [L'|L'].
    + intros X. apply (F (nd_nano n - NANOS)) in X; auto; unfold NANOS in *; try lia. symmetry. apply (mod_is _ _ 1); lia.
    + destruct (Z.ltb_spec s 0); [lia|]. intros X. inv X. cbn. split; [left; split; [lia|]|lia]. destruct n; cbn. f_equal. lia.
  - intros X. apply (F (nd_nano n)) in X; auto; unfold NANOS in *; try lia. symmetry. apply Z.mod_small. lia.
Qed.
Lemma later_trans n a m b p : 0 <= a -> 0 <= b -> later n a m -> later m b p -> later n (a + b) p.
Proof.
  intros Ha Hb [[-> ->]|(A1 & A2 & A3 & A4)] [[-> ->]|(B1 & B2 & B3 & B4)]; unfold later; auto.
  - right. rewrite Z.add_0_r. auto.
  - right. split; [lia|]. split; [lia|]. split; auto. rewrite B4, A4. now rewrite Z.mod_mod by lia.
Qed.
Section TimeFacts.
Context {E : Env}.
Definition unit_of (r : recur) : Z := match unit_seconds (r_freq r) with Some u => u | None => 0 end.
Lemma add_ndt_unit r n n' u : unit_seconds (r_freq r) = Some u -> recur_add_ndt r n = Ok n' -> ndt_add_td n (r_interval r * u * NANOS) = Ok n'.
Proof.
  unfold recur_add_ndt, td_seconds, td_minutes, td_hours, td_days, td_weeks. destruct (r_freq r); cbn; intros U; inv U;
  match goal with |- obind (td_check ?x) _ = _ -> _ => destruct (td_check x) as [t| |] eqn:T; cbn [obind]; try discriminate; apply td_check_Ok in T; subst t end; auto.
  now rewrite Z.mul_1_r.
Qed.
Lemma add_local_unit r n n' u : unit_seconds (r_freq r) = Some u -> recur_add_local r n = Ok n' -> ndt_add_td n (r_interval r * u * NANOS) = Ok n'.
Proof.
  unfold recur_add_local, local_add_td, td_seconds, td_minutes, td_hours, td_days, td_weeks. destruct (r_freq r); cbn; intros U; inv U;
  match goal with |- obind (td_check ?x) _ = _ -> _ => destruct (td_check x) as [t| |] eqn:T; cbn [obind]; try discriminate; apply td_check_Ok in T; subst t end; auto.
  now rewrite Z.mul_1_r.
Qed.
Lemma daily_dec f : (freq_rank Daily <=? freq_rank f) = true <-> daily_or_slower f.
Proof. destruct f; cbn; split; auto; try discriminate; contradiction. Qed.
Lemma omap_Ok {A B} (f : A -> B) o y : omap f o = Ok y -> exists x, o = Ok x /\ y = f x.
Proof. destruct o; cbn; intros H; inv H. eauto. Qed.
Lemma recur_add_moved r d d' u : tidy d -> 0 <= r_interval r -> unit_seconds (r_freq r) = Some u -> recur_add r d = Ok d' ->
  moved (r_freq r) 1 (r_interval r * u) d d' /\ tidy d'.
Proof.
  intros Ht Hi Hu. assert (Hu' : 0 <= u) by (destruct (r_freq r); inv Hu; lia). destruct d as [n|[n|n]]; cbn [recur_add].
  - destruct (freq_rank Daily <=? freq_rank (r_freq r)) eqn:D.
    + apply daily_dec in D. intros H. apply omap_Ok in H as (m & H & ->). cbn [moved tidy]. split; auto. split; auto.
      unfold recur_add_date, td_days, td_weeks in H. destruct (r_freq r); cbn in Hu; inv Hu; try contradiction;
      match type of H with obind (td_check ?x) _ = _ => destruct (td_check x) as [t| |] eqn:T; cbn [obind] in H; try discriminate; apply td_check_Ok in T; subst t end;
      unfold date_add_td in H; destruct (date_ok _); inv H.
      * rewrite <- Z.mul_assoc, Z.quot_mul by (unfold NANOS; lia). lia.
      * replace (r_interval r * 604800 * NANOS) with (r_interval r * 7 * (86400 * NANOS)) by (unfold NANOS; lia). rewrite Z.quot_mul by (unfold NANOS; lia). lia.
    + intros H. apply omap_Ok in H as (m & H & ->). apply (add_ndt_unit _ _ _ u Hu) in H. apply add_td_later in H as [H1 H2]; [| |nia].
      * cbn [moved tidy]. split; auto. split; [discriminate|]. split; auto. rewrite <- daily_dec. congruence.
      * unfold tidy_time. cbn. lia.
  - intros H. apply omap_Ok in H as (t & H & ->). cbn [recur_add_dt] in H. apply omap_Ok in H as (m & H & ->).
    apply (add_ndt_unit _ _ _ u Hu) in H. apply add_td_later in H as [H1 H2]; auto. nia.
  - intros H. apply omap_Ok in H as (t & H & ->). cbn [recur_add_dt] in H. apply omap_Ok in H as (m & H & ->).
    apply (add_local_unit _ _ _ u Hu) in H. apply add_td_later in H as [H1 H2]; auto. nia.
Qed.
Lemma moved_trans f j k a b d d' d'' : 0 <= a -> 0 <= b -> (j <> O) -> moved f j a d d' -> moved f k b d' d'' -> moved f (j + k) (a + b) d d''.
Proof.
  intros Ha Hb Hj M1 M2. destruct d as [n|[n|n]], d' as [m|[m|m]]; try (exfalso; exact M1); destruct d'' as [p|[p|p]]; try (exfalso; exact M2); cbn [moved] in *.
  - destruct M1 as [A A'], M2 as [B B']. split; [|lia]. right. destruct A; [congruence|auto].
  - destruct M1 as [[A|A] A'], M2 as (B & B' & _); [congruence|contradiction].
  - destruct M1 as (A1 & A2 & A3). split; [lia|]. split; auto. eapply later_trans; eauto.
  - eapply later_trans; eauto.
  - eapply later_trans; eauto.
Qed.
Lemma steps_moved r k d d' u : tidy d -> 0 <= r_interval r -> unit_seconds (r_freq r) = Some u -> steps r k d d' ->
  moved (r_freq r) k (Z.of_nat k * (r_interval r * u)) d d' /\ tidy d'.
Proof.
  intros Ht Hi Hu H. assert (Hu' : 0 <= u) by (destruct (r_freq r); inv Hu; lia). induction H as [d|k d d1 d2 A St IH].
  - split; auto. destruct d as [n|[n|n]]; cbn [moved]; unfold later; auto. split; auto. lia.
  - destruct (recur_add_moved r d d1 u Ht Hi Hu A) as [M1 T1]. destruct (IH T1) as [M2 T2]. split; auto.
    replace (Z.of_nat (S k) * (r_interval r * u)) with (r_interval r * u + Z.of_nat k * (r_interval r * u)) by lia.
    apply (moved_trans _ 1 k _ _ d d1 d2); auto; nia.
Qed.
(** ** Months *)
(** The first day of the month of index 12*year + month - 1. *)
Definition month_first (t : Z) : Z := days_of_ymd (t / 12) (t mod 12 + 1) 1.
Definition month_len (t : Z) : Z := days_in_month (t / 12) (t mod 12 + 1).
Lemma month_first_S t : month_first (t + 1) = month_first t + month_len t.
Proof.
  unfold month_first, month_len. pose proof (Z.div_mod t 12 ltac:(lia)) as D. pose proof (Z.mod_pos_bound t 12 ltac:(lia)) as B.
  destruct (Z.eq_dec (t mod 12) 11) as [M|M].
  - rewrite (div_is (t + 1) 12 (t / 12 + 1) 0), (mod_is (t + 1) 12 (t / 12 + 1) 0) by lia. rewrite M. change (11 + 1) with 12. change (0 + 1) with 1.
    rewrite days_next_year. change (days_in_month (t / 12) 12) with 31. reflexivity.
  - rewrite (div_is (t + 1) 12 (t / 12) (t mod 12 + 1)), (mod_is (t + 1) 12 (t / 12) (t mod 12 + 1)) by lia. apply days_next_month. lia.
Qed.
Lemma month_len_bounds t : 28 <= month_len t <= 31.
Proof. apply days_in_month_bounds. Qed.
Lemma month_first_mono t k : 0 <= k -> month_first t + 28 * k <= month_first (t + k).
Proof.
  intros Hk. pattern k. apply natlike_ind; auto; [replace (t + 0) with t by lia; lia|]. clear k Hk. intros k Hk IH. replace (t + Z.succ k) with (t + k + 1) by lia.
  rewrite month_first_S. pose proof (month_len_bounds (t + k)). lia.
Qed.
Lemma days_month y m d : 1 <= m <= 12 -> days_of_ymd y m d = month_first (12 * y + m - 1) + (d - 1).
Proof.
  intros H. rewrite days_of_ymd_d. unfold month_first. rewrite (div_is (12 * y + m - 1) 12 y (m - 1)), (mod_is (12 * y + m - 1) 12 y (m - 1)) by lia.
  now rewrite Z.sub_add.
Qed.
Lemma len_month y m : 1 <= m <= 12 -> days_in_month y m = month_len (12 * y + m - 1).
Proof.
  intros H. unfold month_len. rewrite (div_is (12 * y + m - 1) 12 y (m - 1)), (mod_is (12 * y + m - 1) 12 y (m - 1)) by lia.
  now rewrite Z.sub_add.
Qed.
(** A later month: at least 28 days later, the day of month being the same or clamped. *)
Lemma later_month y m d y' m' d' : valid_ymd y m d = true -> valid_ymd y' m' d' = true -> 12 * y + m < 12 * y' + m' ->
  Z.min d (days_in_month y' m') <= d' -> days_of_ymd y m d + 28 <= days_of_ymd y' m' d'.
Proof.
  intros H H' L D. apply valid_ymd_iff in H as [Hm Hd], H' as [Hm' Hd']. rewrite !days_month by lia. rewrite (len_month y m) in Hd by lia. rewrite (len_month y' m') in * by lia.
  set (t := 12 * y + m - 1) in *. replace (12 * y' + m' - 1) with (t + 1 + (12 * y' + m' - 1 - t - 1)) in * by lia.
  pose proof (month_first_mono (t + 1) (12 * y' + m' - 1 - t - 1) ltac:(lia)). rewrite month_first_S in *. set (q := t + 1 + _) in *.
  pose proof (month_len_bounds t). pose proof (month_len_bounds q). lia.
Qed.
Lemma add_months_spec d i d' y m dd : ymd_of_days d = (y, m, dd) -> date_ok d = true -> 0 <= i ->
  date_add_months d i = Ok d' <->
  exists y' m', 12 * y' + m' = 12 * y + m + i /\ 1 <= m' <= 12 /\ y' <= MAX_YEAR /\ ymd_of_days d' = (y', m', Z.min dd (days_in_month y' m')).
Proof.
  intros Hd Ok0 Hi. unfold date_add_months. pose proof (valid_of_days _ _ _ _ Hd) as [V Dd]. pose proof V as V'. apply valid_ymd_iff in V' as [Vm Vd].
  assert (Y0 : MIN_YEAR <= y <= MAX_YEAR) by (apply date_ok_year in Ok0; unfold date_year in Ok0; now rewrite Hd in Ok0).
  destruct (Z.eqb_spec i 0) as [->|Ni].
  - split.
    + intros H. inv H. exists y, m. rewrite Hd, Z.min_l by lia. repeat split; lia.
    + intros (y' & m' & H1 & H2 & H3 & H4). assert (y' = y /\ m' = m) as [-> ->] by lia. f_equal. rewrite Z.min_l in H4 by lia.
      apply valid_of_days in H4 as [_ H4]. congruence.
  - rewrite Hd. cbv zeta. set (t := y * 12 + m - 1 + i). pose proof (Z.div_mod t 12 ltac:(lia)) as D. pose proof (Z.mod_pos_bound t 12 ltac:(lia)) as B.
    destruct (from_ymd_opt _ _ _) as [w|] eqn:F; split.
    + intros H. inv H. exists (t / 12), (t mod 12 + 1). apply from_ymd_opt_iff in F as [F1 F2]. split; [lia|]. split; [lia|]. split; auto.
      apply date_ok_year in F2. unfold date_year in F2. rewrite F1 in F2. cbn in F2. lia.
    + intros (y' & m' & H1 & H2 & H3 & H4). assert (y' = t / 12 /\ m' = t mod 12 + 1) as [-> ->] by lia. f_equal.
      apply from_ymd_opt_iff in F as [F1 F2]. apply valid_of_days in F1 as [_ <-]. now apply valid_of_days in H4 as [_ <-].
    + discriminate.
    + intros (y' & m' & H1 & H2 & H3 & H4). exfalso. assert (y' = t / 12 /\ m' = t mod 12 + 1) as [-> ->] by lia.
      assert (X : from_ymd_opt (t / 12) (t mod 12 + 1) (Z.min dd (days_in_month (t / 12) (t mod 12 + 1))) = Some d'); [|congruence].
      apply from_ymd_opt_Some. apply valid_of_days in H4 as [H4 H5]. split; [lia|]. auto.
Qed.
Lemma add_months_later d i d' : 1 <= i -> date_add_months d i = Ok d' -> d + 28 <= d'.
Proof.
  intros Hi. unfold date_add_months. destruct (Z.eqb_spec i 0); [lia|]. destruct (ymd_of_days d) as [[y m] dd] eqn:Hd. cbv zeta.
  set (t := y * 12 + m - 1 + i). pose proof (Z.div_mod t 12 ltac:(lia)) as D. pose proof (Z.mod_pos_bound t 12 ltac:(lia)) as B.
  destruct (from_ymd_opt _ _ _) as [w|] eqn:F; intros H; inv H. apply from_ymd_opt_Some in F as (_ & V & ->). apply valid_of_days in Hd as [V0 <-].
  apply later_month; auto. lia. lia.
Qed.
Lemma with_year_later d i d' : 1 <= i -> date_with_year d (date_year d + i) = Some d' -> d + 28 <= d'.
Proof.
  intros Hi. unfold date_with_year, date_year. destruct (ymd_of_days d) as [[y m] dd] eqn:Hd. cbn [fst]. intros F.
  apply from_ymd_opt_Some in F as (_ & V & ->). apply valid_of_days in Hd as [V0 <-]. apply later_month; auto; lia.
Qed.
Lemma shift_seconds n o : seconds (ndt_shift n o) = seconds n + o.
Proof. unfold seconds, ndt_shift. cbn [nd_date nd_secs]. rewrite seconds_norm. lia. Qed.
Lemma shift_tidy n o : tidy_time n -> tidy_time (ndt_shift n o).
Proof. unfold tidy_time, ndt_shift. cbn. intros [_ H]. split; auto. apply Z.mod_pos_bound. lia. Qed.
Lemma ndt_month_year r n n' : 1 <= r_interval r -> unit_seconds (r_freq r) = None -> recur_add_ndt r n = Ok n' ->
  nd_date n + 28 <= nd_date n' /\ nd_secs n' = nd_secs n /\ nd_nano n' = nd_nano n.
Proof.
  intros Hi Hu. unfold recur_add_ndt. destruct (r_freq r); try discriminate Hu.
  - unfold ndt_add_months. destruct (date_add_months _ _) as [w| |] eqn:W; cbn; intros H; inv H. apply add_months_later in W; auto.
  - unfold ndt_with_year. destruct (date_with_year _ _) as [w|] eqn:W; cbn; intros H; inv H. apply with_year_later in W; auto.
Qed.
Lemma single_local l u : single (from_local l) = Some u -> sane_zone E -> exists o, -86400 < o < 86400 /\ u = ndt_shift l (- o).
Proof.
  intros H Z. unfold from_local in H. destruct (Z (ndt_ts l)) as [_ Zl]. destruct (tz_local (ndt_ts l)); inv H. eauto.
Qed.
Lemma unwrap_Ok {A} (o : option A) a : unwrap o = Ok a -> o = Some a.
Proof. destruct o; cbn; congruence. Qed.
Lemma local_month_year r u u' : 1 <= r_interval r -> sane_zone E -> tidy_time u -> unit_seconds (r_freq r) = None -> recur_add_local r u = Ok u' ->
  seconds u < seconds u' /\ tidy_time u'.
Proof.
  intros Hi Z Ht Hu H. set (l := naive_local u) in *.
  assert (G : exists l', nd_date l + 28 <= nd_date l' /\ nd_secs l' = nd_secs l /\ nd_nano l' = nd_nano l /\ single (from_local l') = Some u').
  { unfold recur_add_local in H. destruct (r_freq r); try discriminate Hu.
    - unfold local_add_months in H. fold l in H. unfold ndt_add_months in H. destruct (date_add_months _ _) as [w| |] eqn:W; cbn [obind] in H; try discriminate.
      apply add_months_later in W; auto. exists (mk_ndt w (nd_secs l) (nd_nano l)). apply unwrap_Ok in H. auto.
    - unfold local_with_year, local_year in H. fold l in H. destruct (Z.eqb_spec (date_year (nd_date l)) (date_year (nd_date l) + r_interval r)); [lia|].
      unfold ndt_with_year in H. destruct (date_with_year _ _) as [w|] eqn:W; cbn in H; [|discriminate]. apply with_year_later in W; auto.
      exists (mk_ndt w (nd_secs l) (nd_nano l)). apply unwrap_Ok in H. auto. }
  destruct G as (l' & G1 & G2 & G3 & G4). apply single_local in G4 as (o' & Ho & ->); auto.
  assert (Tl : tidy_time l) by now apply shift_tidy.
  split; [|apply shift_tidy; unfold tidy_time in *; now rewrite G2, G3].
  rewrite shift_seconds. assert (seconds l = seconds u + tz_offset (ndt_ts u)) by apply shift_seconds.
  destruct (Z (ndt_ts u)) as [Zo _]. unfold seconds in *. rewrite G2. lia.
Qed.
Lemma recur_add_increases r d d' : tidy d -> zone_fits E d -> 1 <= r_interval r -> recur_add r d = Ok d' -> second_of d < second_of d' /\ tidy d' /\ zone_fits E d'.
Proof.
  intros Ht Hz Hi H. destruct (unit_seconds (r_freq r)) as [u|] eqn:U.
  - assert (Hu : 1 <= u) by (destruct (r_freq r); inv U; lia). destruct (recur_add_moved r d d' u Ht ltac:(lia) U H) as [M T']. split; [|split; auto].
    + assert (0 < r_interval r * u) by nia. destruct d as [n|[n|n]], d' as [m|[m|m]]; cbn [moved second_of] in *; try contradiction.
      * lia.
      * destruct M as (_ & _ & [[? _]|(_ & M & _)]); [lia|]. unfold seconds in M at 2. cbn [nd_date nd_secs midnight] in M. unfold seconds. unfold seconds in M. cbn in M. lia.
      * destruct M as [[? _]|(_ & M & _)]; lia.
      * destruct M as [[? _]|(_ & M & _)]; lia.
    + destruct d as [n|[n|n]], d' as [m|[m|m]]; cbn [moved zone_fits] in *; tauto.
  - assert (D : (freq_rank Daily <=? freq_rank (r_freq r)) = true) by (destruct (r_freq r); auto; discriminate).
    destruct d as [n|[n|n]]; cbn [recur_add] in H.
    + rewrite D in H. apply omap_Ok in H as (m & H & ->). cbn [second_of tidy zone_fits]. split; auto. unfold recur_add_date in H. destruct (r_freq r); try discriminate U.
      * apply add_months_later in H; auto. lia.
      * destruct (date_with_year _ _) eqn:W; inv H. apply with_year_later in W; auto. lia.
    + apply omap_Ok in H as (t & H & ->). cbn [recur_add_dt] in H. apply omap_Ok in H as (m & H & ->). cbn [second_of tidy zone_fits] in *.
      apply ndt_month_year in H as (A & B & C); auto. unfold seconds, tidy_time in *. rewrite B, C. split; [lia|auto].
    + apply omap_Ok in H as (t & H & ->). cbn [recur_add_dt] in H. apply omap_Ok in H as (m & H & ->). cbn [second_of tidy zone_fits] in *.
      apply local_month_year in H as (A & B); auto.
Qed.
End TimeFacts.
