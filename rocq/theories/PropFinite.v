(** * C94: every series comes to an end *)
From Verif Require Import Base Env Chrono Types Components Iter BaseFacts ChronoFacts SpecCal PropDate PropList SpecIter IterFacts PropIter PropIterEx TimeFacts PropTime PropWindow PropResume SpecKinds PropKinds SpecFinite.
Section Env.
Context {E : Env}.
(** ** A step stays in the calendar *)
Lemma last_day : days_of_ymd 262142 12 31 = MAX_DATE.
Proof. reflexivity. Qed.
Lemma date_ok_le n : date_ok n = true -> n <= MAX_DATE.
Proof. unfold date_ok. rewrite andb_true_iff, !Z.leb_le. lia. Qed.
Lemma ymd_le y m d n : from_ymd_opt y m d = Some n -> n <= MAX_DATE.
Proof. intros H. apply from_ymd_opt_iff in H as [_ H]. now apply date_ok_le. Qed.
Lemma months_le n i n' : 1 <= i -> date_add_months n i = Ok n' -> n' <= MAX_DATE.
Proof.
  intros Hi. unfold date_add_months. destruct (Z.eqb_spec i 0); [lia|]. destruct (ymd_of_days n) as [[y m] d].
  destruct (from_ymd_opt _ _ _) eqn:F; intros H; inv H. eapply ymd_le; eauto.
Qed.
Lemma year_le n y n' : date_with_year n y = Some n' -> n' <= MAX_DATE.
Proof. unfold date_with_year. destruct (ymd_of_days n) as [[y0 m] d]. apply ymd_le. Qed.
Lemma add_td_le n s n' : tidy_time n -> 1 <= s -> ndt_add_td n (s * NANOS) = Ok n' -> nd_date n' <= MAX_DATE.
Proof.
  intros T Hs. unfold ndt_add_td. destruct (quot_nanos s) as [-> ->]. rewrite (proj2 (Z.ltb_lt 0 s)) by lia. cbn [orb].
  repeat match goal with |- context [if ?b then _ else _] => destruct b eqn:? end; intros H; inv H; cbn [nd_date]; auto using date_ok_le.
Qed.
Lemma step_ends r d d' : tidy d -> zone_fits E d -> 1 <= r_interval r -> recur_add r d = Ok d' -> second_of d' < calendar_end.
Proof.
  intros Ht Hz Hi H. destruct (recur_add_increases r d d' Ht Hz Hi H) as (_ & T' & _). unfold calendar_end. rewrite last_day.
  assert (N : forall n, tidy_time n -> nd_date n <= MAX_DATE -> seconds n < (MAX_DATE + 2) * 86400) by (unfold tidy_time, seconds; lia).
  assert (U : forall u, unit_seconds (r_freq r) = Some u -> 1 <= r_interval r * u) by (intros u Hu; assert (1 <= u) by (destruct (r_freq r); inv Hu; lia); nia).
  assert (A : forall n n', tidy_time n -> recur_add_ndt r n = Ok n' -> nd_date n' <= MAX_DATE).
  { intros n n' Tn Q. destruct (unit_seconds (r_freq r)) as [u|] eqn:Hu; [apply (add_td_le n (r_interval r * u)); auto; now apply (add_ndt_unit r)|].
    unfold recur_add_ndt in Q. destruct (r_freq r); try discriminate Hu.
    - unfold ndt_add_months in Q. destruct (date_add_months _ _) eqn:W; inv Q. cbn [nd_date]. eapply months_le; eauto.
    - unfold ndt_with_year in Q. destruct (date_with_year _ _) eqn:W; inv Q. cbn [nd_date]. eapply year_le; eauto. }
  destruct d as [n|[n|n]]; cbn [recur_add] in H.
  - destruct (freq_rank Daily <=? freq_rank (r_freq r)) eqn:D; apply omap_Ok in H as (m & H & ->).
    + cbn [second_of]. enough (m <= MAX_DATE) by lia. unfold recur_add_date in H. destruct (r_freq r); try discriminate D.
      * destruct (td_days _); try discriminate. cbn [obind] in H. unfold date_add_td in H. destruct (date_ok _) eqn:O; inv H. now apply date_ok_le.
      * destruct (td_weeks _); try discriminate. cbn [obind] in H. unfold date_add_td in H. destruct (date_ok _) eqn:O; inv H. now apply date_ok_le.
      * eapply months_le; eauto.
      * destruct (date_with_year _ _) eqn:W; inv H. eapply year_le; eauto.
    + cbn [second_of]. apply N; [exact T'|]. apply (A (midnight n)); [|exact H]. cbv [tidy_time midnight nd_secs nd_nano]. lia.
  - apply omap_Ok in H as (t & H & ->). cbn [recur_add_dt] in H. apply omap_Ok in H as (m & H & ->). cbn [second_of tidy] in *. apply N; [exact T'|]. exact (A _ _ Ht H).
  - apply omap_Ok in H as (t & H & ->). cbn [recur_add_dt] in H. apply omap_Ok in H as (m & H & ->). cbn [second_of tidy zone_fits] in *.
    destruct (unit_seconds (r_freq r)) as [u|] eqn:Hu; [apply N; [exact T'|]; apply (add_td_le n (r_interval r * u)); auto; now apply (add_local_unit r)|].
    unfold recur_add_local in H. assert (G : exists l', nd_date l' <= MAX_DATE /\ nd_secs l' = nd_secs (naive_local n) /\ single (from_local l') = Some m).
    { destruct (r_freq r); try discriminate Hu.
      - unfold local_add_months, ndt_add_months in H. destruct (date_add_months _ _) eqn:W; cbn [obind] in H; try discriminate. apply unwrap_Ok in H.
        eexists. split; [|split; [|exact H]]; [eapply months_le; eauto|reflexivity].
      - unfold local_with_year, local_year in H. destruct (Z.eqb_spec (date_year (nd_date (naive_local n))) (date_year (nd_date (naive_local n)) + r_interval r)); [lia|].
        unfold ndt_with_year in H. destruct (date_with_year _ _) eqn:W; cbn [option_map] in H; [|discriminate]. apply unwrap_Ok in H.
        eexists. split; [|split; [|exact H]]; [eapply year_le; eauto|reflexivity]. }
    destruct G as (l' & G1 & G2 & G3). apply single_local in G3 as (o & Ho & ->); auto. rewrite shift_seconds.
    pose proof (shift_tidy n (tz_offset (ndt_ts n)) Ht) as [Tl _]. fold (naive_local n) in Tl. rewrite <- G2 in Tl. unfold seconds. lia.
Qed.
Lemma steps_end r k d d' : tidy d -> zone_fits E d -> 1 <= r_interval r -> steps r k d d' -> second_of d + Z.of_nat k <= second_of d' /\ (k <> O -> second_of d' < calendar_end).
Proof.
  intros Ht Hz Hi H. induction H as [d|k d d1 d2 A St IH]; [split; [lia|congruence]|]. destruct (recur_add_increases r d d1 Ht Hz Hi A) as (L & T1 & Z1).
  destruct (IH T1 Z1) as (B & C). split; [lia|]. intros _. destruct k as [|k]; [|apply C; discriminate]. inversion St; subst. eapply step_ends; [exact Ht| | |]; eauto.
Qed.
(** ** The whole series *)
Lemma at_positions {k} (x : item k) d r l f i y : start_of x = Some d -> rule_of x = Some r -> series x l f -> nth_error l i = Some y ->
  exists n d', (i <= n)%nat /\ (i = O -> n = O) /\ start_of y = Some d' /\ steps r n d d' /\ steps_opt r n (end_of x) (end_of y).
Proof.
  intros Hd Hr H Hy. rewrite <- code_start in *. rewrite <- code_rule in Hr. rewrite <- !code_end. destruct (run_track (code k) x d r l f (code_recurs k) Hd Hr H) as (kz & z & Tr & _).
  destruct (track_nth _ _ _ _ _ _ _ _ _ Tr _ _ Hy) as (kn & Q & Q0 & It & _). apply item_fields in It as (d' & e' & S1 & S2 & _ & _ & B1 & B2 & _); auto using code_recurs.
  exists kn, d'. rewrite B2. repeat split; auto; lia.
Qed.
(** The whole series is finite: the calls end by themselves after a certain list, of which every shorter run shows a beginning;
    no occurrence but the first is past the end of the calendar, and there is at most one to the second. *)
Theorem C94_finite : forall k (x : item k) d r,
  start_of x = Some d -> rule_of x = Some r -> 1 <= r_interval r -> tidy d -> zone_fits E d ->
  exists l f, series x l f /\ over f /\
    (forall l' f', series x l' f' -> f' = Cut /\ (exists rest, l = l' ++ rest) \/ l' = l /\ f' = f) /\
    (forall i y dy, nth_error l i = Some y -> start_of y = Some dy -> i <> O -> second_of d + Z.of_nat i <= second_of dy < calendar_end) /\
    Z.of_nat (length l) <= 1 + Z.max 0 (calendar_end - second_of d).
Proof.
  intros k x d r Hd Hr Hi Ht Hz.
  assert (P : forall l f i y dy, series x l f -> nth_error l i = Some y -> start_of y = Some dy -> i <> O -> second_of d + Z.of_nat i <= second_of dy < calendar_end).
  { intros l f i y dy H Hy Hdy Ni. destruct (at_positions x d r l f i y Hd Hr H Hy) as (n & d' & L & _ & D & St & _). rewrite D in Hdy. inv Hdy.
    destruct (steps_end r n d dy Ht Hz Hi St) as (B & C). split; [lia|]. apply C. lia. }
  assert (Len : forall l f, series x l f -> Z.of_nat (length l) <= 1 + Z.max 0 (calendar_end - second_of d)).
  { intros l f H. destruct (Z.leb_spec (Z.of_nat (length l)) 1); [lia|]. destruct (nth_error l (length l - 1)) as [y|] eqn:Hy.
    2:{ apply nth_error_None in Hy. lia. }
    destruct (at_positions x d r l f _ y Hd Hr H Hy) as (n & d' & L & _ & D & _). destruct (P l f _ y d' H Hy D ltac:(lia)). lia. }
  destruct (C44_any_number_of_calls _ (code k) x (Z.to_nat (2 + Z.max 0 (calendar_end - second_of d))) (code_recurs k)) as (l & f & H & _ & F & _).
  { intros d0 r0. rewrite code_start, code_rule, Hd, Hr. intros A B. inv A. inv B. auto. }
  exists l, f. split; [exact H|]. assert (O : over f). { destruct F as [F|F]; [|exact F]. specialize (Len l f H). lia. }
  split; [exact O|]. split; [|split; [intros; eapply P; eauto|exact (Len l f H)]].
  intros l' f' H'. destruct (C44_outcome_unique _ (code k) x l f l' f' H H') as [[-> ->]|[[-> _]|[-> R]]]; auto. destruct O; discriminate.
Qed.
(** Without COUNT and UNTIL the end is never [None]: going through all of them panics. *)
Lemma open_never_ends {k} (x : item k) d r l : start_of x = Some d -> rule_of x = Some r -> open_ended r -> ~ series x l Ended.
Proof.
  intros Hd Hr [Hc Hu] H. rewrite <- code_start in Hd. rewrite <- code_rule in Hr. destruct (run_track (code k) x d r l Ended (code_recurs k) Hd Hr H) as (kz & z & Tr & Rn).
  inversion Rn as [|s s' n N| | |]; subst. destruct (track_end _ _ _ _ _ _ _ n _ (code_recurs k) Tr N ltac:(discriminate)) as (dz & m & _ & C).
  inversion C as [m' dm em Sk Pu| m' dm em d' e' Sk Np Ad Ae Nx Nc| |]; subst.
  - apply past_set_count in Pu. unfold past_until in Pu. now rewrite Hu in Pu.
  - unfold count_down in Nc. rewrite Hc in Nc. discriminate.
Qed.
Theorem C94_open_ended : forall k (x : item k) d r,
  start_of x = Some d -> rule_of x = Some r -> open_ended r ->
  (forall l, ~ series x l Ended) /\
  (1 <= r_interval r -> tidy d -> zone_fits E d -> exists l, series x l Panicked).
Proof.
  intros k x d r Hd Hr O. split; [intros l; now apply (open_never_ends x d r)|]. intros Hi Ht Hz.
  destruct (C94_finite k x d r Hd Hr Hi Ht Hz) as (l & f & H & [->| ->] & _); [|eauto]. exfalso. eapply open_never_ends; eauto.
Qed.
(** What a panic comes from: a step, from a date that is not past UNTIL, that leaves the calendar or the local clock, for the
    start or for the end. *)
Theorem C94_panic : forall k (x : item k) d r l,
  start_of x = Some d -> rule_of x = Some r -> series x l Panicked ->
  exists n d' e', (length l <= n)%nat /\ steps r n d d' /\ steps_opt r n (end_of x) e' /\ ~ past_until r d' /\
    (recur_add r d' = Panic \/ some_such e' (fun e => recur_add r e = Panic)).
Proof.
  intros k x d r l Hd Hr H. rewrite <- code_start in Hd. rewrite <- code_rule in Hr. rewrite <- code_end.
  destruct (run_track (code k) x d r l Panicked (code_recurs k) Hd Hr H) as (kz & z & Tr & Rn).
  inversion Rn as [| |s n N| |]; subst. destruct (track_end _ _ _ _ _ _ _ n _ (code_recurs k) Tr N ltac:(discriminate)) as (dz & m & Dz & C).
  inversion C as [| |m' dm em Sk Np Ad|]; subst. assert (L : (length l <= kz)%nat).
  { destruct l as [|y l]; [cbn; lia|]. destruct (nth_error (y :: l) (length (y :: l) - 1)) as [w|] eqn:Hw; [|apply nth_error_None in Hw; cbn in *; lia].
    destruct (track_nth _ _ _ _ _ _ _ _ _ Tr _ _ Hw) as (kn & Q & _). cbn in *. lia. }
  apply track_item in Tr. cbn in Tr. destruct (skipped_from _ (code_recurs k) _ _ _ _ _ _ _ _ _ _ Tr Dz Sk) as (S1 & S2 & _).
  exists (kz + m)%nat, dm, em. split; [lia|]. split; [exact S1|]. split; [exact S2|]. split; [intros Q; apply Np; now apply past_set_count|].
  destruct Ad as [Ad|Ad]; [left; exact Ad|right]. destruct em as [e|]; cbn in Ad |- *; [|discriminate].
  change (omap Some (recur_add (count_down r (length l)) e) = Panic) in Ad. unfold count_down in Ad. rewrite add_set_count in Ad. destruct (recur_add r e); try discriminate. reflexivity.
Qed.
Lemma day_of_seconds n s : nd_date n + (nd_secs n + s) / 86400 <= MAX_DATE <-> seconds n + s < (MAX_DATE + 1) * 86400.
Proof.
  unfold seconds. pose proof (seconds_norm (nd_date n) (nd_secs n + s)) as Q. pose proof (Z.mod_pos_bound (nd_secs n + s) 86400 ltac:(lia)). lia.
Qed.
Lemma add_td_panic n s : tidy_time n -> 1 <= s -> MIN_DATE * 86400 <= seconds n -> (ndt_add_td n (s * NANOS) = Panic <-> (MAX_DATE + 1) * 86400 <= seconds n + s).
Proof.
  intros T Hs Lo. pose proof (day_of_seconds n s) as D.
  assert (L : MIN_DATE <= nd_date n + (nd_secs n + s) / 86400).
  { unfold tidy_time, seconds in *. pose proof (seconds_norm (nd_date n) (nd_secs n + s)) as Q. pose proof (Z.mod_pos_bound (nd_secs n + s) 86400 ltac:(lia)). lia. }
  assert (F : forall c fr, (if date_ok (nd_date n + (nd_secs n + s) / 86400) then Ok (mk_ndt (nd_date n + (nd_secs n + s) / 86400) c fr) else Panic) = Panic <-> (MAX_DATE + 1) * 86400 <= seconds n + s).
  { intros c fr. unfold date_ok. destruct (Z.leb_spec MIN_DATE (nd_date n + (nd_secs n + s) / 86400)); [|lia]. cbn [andb].
    destruct (Z.leb_spec (nd_date n + (nd_secs n + s) / 86400) MAX_DATE); split; intros; try discriminate; try reflexivity; lia. }
  destruct T as [_ Tn]. unfold ndt_add_td. destruct (quot_nanos s) as [-> ->]. rewrite (proj2 (Z.ltb_lt 0 s)) by lia. cbn [orb]. rewrite !Z.add_0_r. unfold NANOS in *.
  destruct (Z.leb_spec 1000000000 (nd_nano n)).
  - destruct (Z.ltb_spec (nd_nano n - 1000000000) 0); [lia|]. destruct (Z.leb_spec 1000000000 (nd_nano n - 1000000000)); [lia|]. apply F.
  - destruct (Z.ltb_spec (nd_nano n) 0); [lia|]. destruct (Z.leb_spec 1000000000 (nd_nano n)); [lia|]. apply F.
Qed.
Lemma unit_step r n u : 1 <= r_interval r <= 255 -> unit_seconds (r_freq r) = Some u ->
  recur_add_ndt r n = ndt_add_td n (r_interval r * u * NANOS) /\ recur_add_local r n = ndt_add_td n (r_interval r * u * NANOS) /\ td_ok (r_interval r * u * NANOS) = true.
Proof.
  intros Hi Hu. assert (C : forall v, 1 <= v <= 604800 -> td_check (r_interval r * v * NANOS) = Ok (r_interval r * v * NANOS)).
  { intros v Hv. unfold td_check, td_ok. assert (r_interval r * v <= 255 * 604800) by nia. assert (1 <= r_interval r * v) by nia.
    assert (B : 255 * 604800 * NANOS <= TD_MAX) by (vm_compute; discriminate). assert (0 < NANOS) by (vm_compute; reflexivity).
    destruct (Z.leb_spec (- TD_MAX) (r_interval r * v * NANOS)); [|nia]. destruct (Z.leb_spec (r_interval r * v * NANOS) TD_MAX); [reflexivity|nia]. }
  assert (Q : 1 <= u <= 604800) by (destruct (r_freq r); inv Hu; lia).
  unfold recur_add_ndt, recur_add_local, local_add_td, td_seconds, td_minutes, td_hours, td_days, td_weeks.
  assert (T : td_ok (r_interval r * u * NANOS) = true) by (specialize (C u Q); unfold td_check in C; destruct (td_ok _); [reflexivity|discriminate]).
  destruct (r_freq r); inv Hu; try (replace (r_interval r * NANOS) with (r_interval r * 1 * NANOS) by lia); rewrite (C _ Q); cbn [obind]; auto.
Qed.
(** For the frequencies from second to week a step panics only beyond the last day. *)
Theorem C94_panic_day : forall r d u,
  tidy d -> 1 <= r_interval r <= 255 -> unit_seconds (r_freq r) = Some u -> in_calendar d ->
  (recur_add r d = Panic <-> ~ fits (second_of d + r_interval r * u)).
Proof.
  intros r d u Ht Hi Hu Lo. enough (G : recur_add r d = Panic <-> (MAX_DATE + 1) * 86400 <= second_of d + r_interval r * u) by (rewrite G; unfold fits; rewrite last_day; lia).
  unfold in_calendar in Lo. change (days_of_ymd (-262143) 1 1) with MIN_DATE in Lo. destruct (unit_step r (midnight 0) u Hi Hu) as (_ & _ & Tk).
  assert (Hp : 1 <= r_interval r * u) by (assert (1 <= u) by (destruct (r_freq r); inv Hu; lia); nia).
  assert (M : forall A B (g : A -> B) o, omap g o = Panic <-> o = Panic) by (intros A B g [| |]; cbn; split; intros; try discriminate; reflexivity).
  destruct d as [n|[n|n]]; cbn [recur_add second_of tidy] in *.
  - destruct (freq_rank Daily <=? freq_rank (r_freq r)) eqn:D; rewrite M.
    + assert (Q : recur_add_date r n = date_add_td n (r_interval r * u * NANOS)).
      { unfold recur_add_date, td_days, td_weeks, td_check. destruct (r_freq r); try discriminate D; inv Hu; rewrite Tk; reflexivity. }
      rewrite Q. unfold date_add_td. assert (exists v, r_interval r * u = v * 86400 /\ 1 <= v) as (v & V & Vp).
      { destruct (r_freq r); try discriminate D; inv Hu; [exists (r_interval r)|exists (r_interval r * 7)]; lia. }
      rewrite V, <- Z.mul_assoc, Z.quot_mul by (vm_compute; discriminate). unfold date_ok.
      destruct (Z.leb_spec MIN_DATE (n + v)); [|lia]. destruct (Z.leb_spec (n + v) MAX_DATE); cbn [andb]; split; intros; try discriminate; try reflexivity; lia.
    + destruct (unit_step r (midnight n) u Hi Hu) as (-> & _ & _). replace (n * 86400) with (seconds (midnight n)) by (cbv [seconds midnight nd_date nd_secs]; lia). apply add_td_panic; auto.
      * cbv [tidy_time midnight nd_secs nd_nano]. lia.
      * cbv [seconds midnight nd_date nd_secs]. lia.
  - rewrite M. cbn [recur_add_dt]. rewrite M. destruct (unit_step r n u Hi Hu) as (-> & _ & _). now apply add_td_panic.
  - rewrite M. cbn [recur_add_dt]. rewrite M. destruct (unit_step r n u Hi Hu) as (_ & -> & _). now apply add_td_panic.
Qed.
(** So a rule with an UNTIL that is not too close to the end of the calendar really ends. *)
Lemma moved_second f k s d d' : moved f k s d d' -> second_of d' = second_of d + s.
Proof.
  assert (L : forall n m, later n s m -> seconds m = seconds n + s) by (intros n m [(-> & ->)|(_ & A & _)]; lia).
  destruct d as [n|[n|n]], d' as [m|[m|m]]; cbn [moved second_of]; try contradiction; auto; try lia.
  intros (_ & _ & A). apply L in A. cbv [midnight] in A. unfold seconds in A at 2. cbn [nd_date nd_secs] in A. lia.
Qed.
Lemma near_day d : tidy d -> zone_fits E d -> second_of d < (date_naive d + 2) * 86400.
Proof.
  destruct d as [n|[n|n]]; cbn [tidy zone_fits second_of date_naive]; intros T Z; try lia; unfold dt_date_naive; cbn [dt_naive].
  - unfold tidy_time, seconds in *. lia.
  - pose proof (shift_tidy n (tz_offset (ndt_ts n)) T) as [Q _]. pose proof (shift_seconds n (tz_offset (ndt_ts n))) as S1. fold (naive_local n) in Q, S1. destruct (Z (ndt_ts n)) as [W _].
    unfold seconds in *. lia.
Qed.
Theorem C94_until_ends : forall k (x : item k) d r w u,
  start_of x = Some d -> rule_of x = Some r -> r_until r = Some w -> unit_seconds (r_freq r) = Some u -> 1 <= r_interval r <= 255 ->
  tidy d -> zone_fits E d -> in_calendar d -> fits ((date_naive w + 2) * 86400 + r_interval r * u) ->
  (forall e, end_of x = Some e -> tidy e /\ in_calendar e /\ fits ((date_naive w + 2) * 86400 + r_interval r * u + (second_of e - second_of d))) ->
  exists l, series x l Ended.
Proof.
  intros k x d r w u Hd Hr Hw Hu Hi Ht Hz Lo F Fe. destruct (C94_finite k x d r Hd Hr ltac:(lia) Ht Hz) as (l & f & H & [->| ->] & _); [eauto|]. exfalso.
  destruct (C94_panic k x d r l Hd Hr H) as (n & d' & e' & _ & Sd & Se & Np & P). unfold past_until in Np. rewrite Hw in Np.
  assert (Up : 1 <= u) by (destruct (r_freq r); inv Hu; lia). assert (Sp : 0 <= Z.of_nat n * (r_interval r * u)) by nia.
  destruct (steps_moved r n d d' u Ht ltac:(lia) Hu Sd) as (M & T'). apply moved_second in M. destruct (steps_increase r n d d' Ht Hz ltac:(lia) Sd) as (_ & Z' & _). pose proof (near_day d' T' Z') as Nd.
  destruct P as [P|P].
  - apply (C94_panic_day r d' u T' Hi Hu) in P; [|unfold in_calendar in *; lia]. apply P. unfold fits in *. lia.
  - destruct e' as [e'|]; [|exact P]. cbn [some_such] in P. unfold steps_opt in Se. destruct (end_of x) as [e|]; [|exact Se]. destruct (Fe e eq_refl) as (Te & Le & Fx).
    destruct (steps_moved r n e e' u Te ltac:(lia) Hu Se) as (Me & Te'). apply moved_second in Me.
    apply (C94_panic_day r e' u Te' Hi Hu) in P; [|unfold in_calendar in *; lia]. apply P. unfold fits in *. lia.
Qed.
(** With a zero interval, an open-ended rule and a start that is not excluded, the start comes again and again, and a window
    that begins after it never shows anything: its first call does not return. *)
Lemma zero_next {k} (x : item k) d r n : start_of x = Some d -> rule_of x = Some r -> r_interval r = 0 -> open_ended r ->
  standing r d -> (forall e, end_of x = Some e -> standing r e) -> ~ In d (excluded_of x) -> recur_next (code k) (S n) x = IYield x x.
Proof.
  intros Hd Hr Z0 [Hc Hu] Sd Se Hx. pose proof Hd as Hd'. pose proof Hr as Hr'. rewrite <- code_start in Hd'. rewrite <- code_rule in Hr'.
  unfold recur_next. cbn [next_loop]. rewrite (body_eq (code k) x d r (code_recurs k) Hd' Hr'). assert (U : until_over r d = false) by (unfold until_over; now rewrite Hu). rewrite U.
  rewrite (standing_stays r d Sd Z0). assert (A : add_opt r (rc_dtend (code k) x) = Ok (rc_dtend (code k) x)).
  { rewrite code_end. destruct (end_of x) as [e|]; auto. cbn. rewrite (standing_stays r e); auto. }
  rewrite A. rewrite code_excluded. destruct (existsb (date_eqb d) (excluded_of x)) eqn:X; [apply in_ex in X; contradiction|]. rewrite Hc.
  now rewrite (occ_self (code k) x d r (code_recurs k) Hd' Hr').
Qed.
Theorem C94_zero_interval : forall k (x : item k) d r a b,
  start_of x = Some d -> rule_of x = Some r -> r_interval r = 0 -> open_ended r ->
  standing r d -> (forall e, end_of x = Some e -> standing r e) -> ~ In d (excluded_of x) ->
  (forall n, series x (repeat x n) Cut) /\ (forall l f, series x l f -> f = Cut) /\
  (date_ltb d a = true -> series_after a x [] Hangs /\ series_between a b x [] Hangs).
Proof.
  intros k x d r a b Hd Hr Z0 O Sd Se Hx. pose proof (fun n => zero_next x d r n Hd Hr Z0 O Sd Se Hx) as N. split; [|split].
  - intros n. induction n as [|n IH]; [constructor|]. cbn [repeat]. econstructor; [apply (N 0%nat)|exact IH].
  - intros l. induction l as [|y l IH]; intros f H; inversion H as [|s s' m M|s m M|s M|s m y' s' l' f' M Rn]; subst; auto.
    + destruct m; [discriminate|]. rewrite N in M. discriminate.
    + destruct m; [discriminate|]. rewrite N in M. discriminate.
    + specialize (M 1%nat). rewrite N in M. discriminate.
    + destruct m; [discriminate|]. rewrite N in M. injection M as <- <-. now apply IH.
  - intros B. assert (K : forall f f0, skip_loop (recur_next (code k)) (starts_before (code k) a) f f0 x = IFuel).
    { induction f as [|f IH]; intros f0; [reflexivity|]. cbn [skip_loop]. destruct f0 as [|f0]; [reflexivity|]. rewrite N. unfold starts_before at 1. rewrite code_start, Hd, B. apply IH. }
    split; constructor; intros n; unfold between_next, after_next, between_init, after_init, take_while_it, skip_while; rewrite K; reflexivity.
Qed.
(** Windows come to an end too. *)
Theorem C94_windows : forall k (x : item k) d r a b,
  start_of x = Some d -> rule_of x = Some r -> orderly r d -> 1 <= r_interval r -> tidy d -> zone_fits E d ->
  (exists l f, series_after a x l f /\ over f) /\ (exists l f, series_between a b x l f /\ over f).
Proof.
  intros k x d r a b Hd Hr O Hi Ht Hz. destruct (C94_finite k x d r Hd Hr Hi Ht Hz) as (l & f & H & Ov & _).
  destruct (C51_kind k x d r a b l f Hd Hr O Ht Hz Hi H) as (A & g & B & G). split; [eauto|]. exists (filter (fun y => negb (starts_early a y) && starts_early b y) l), g.
  split; [exact B|]. destruct G as [[_ ->]|[_ ->]]; [left; reflexivity|exact Ov].
Qed.
End Env.
