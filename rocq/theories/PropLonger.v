(** * C98: longer and shorter rules, the same series by another rule, every other occurrence *)
From Verif Require Import Base Env Chrono Types Components Iter BaseFacts ChronoFacts SpecCal PropDate SpecIter IterFacts PropIter TimeFacts PropTime PropRfc SpecKinds PropKinds SpecFinite PropFinite SpecWhole PropWhole SpecLonger.
Section Env.
Context {E : Env}.
(** ** A rule that goes on *)
Lemma past_goes_on r r' d : goes_on r r' -> past_until r' d -> past_until r d.
Proof.
  intros (_ & _ & U & _). unfold past_until. destruct (r_until r') as [u'|]; [|contradiction]. destruct U as (u & -> & L). lia.
Qed.
Lemma walk_goes_on r r' a l f l' f' : goes_on r r' -> walk r a l f -> walk r' a l' f' -> exists m, l' = l ++ m.
Proof.
  intros G W. revert l' f'. destruct G as (G1 & G2 & G3). pose proof (fun d => add_ext r' r d G1 G2) as X. induction W as [a P|a P N|a b l f P N W IH]; intros l' f' W'; [now exists l'|now exists l'|].
  inversion W' as [a' P'|a' P' N'|a' b' l1 f1 P' N' W1]; subst.
  - exfalso. apply P. eapply past_goes_on; [split; [exact G1|split; [exact G2|exact G3]]|exact P'].
  - exfalso. destruct N as [N1 N2]. destruct N' as [N'|N']; [rewrite X in N'; congruence|]. destruct (snd a) as [e|]; [|exact N']. cbn in N'. rewrite X in N'. destruct (snd b); [congruence|contradiction].
  - assert (b = b') as <-.
    { destruct N as [N1 N2], N' as [M1 M2]. rewrite X in M1. destruct a as [a1 [e|]], b as [b1 [e1|]], b' as [c1 [e2|]]; cbn in *; try contradiction; try (rewrite X in M2); congruence. }
    destruct (IH _ _ W1) as [m ->]. now exists m.
Qed.
Lemma remaining_app X a b : remaining X (a ++ b) = remaining X a ++ remaining X b.
Proof. apply filter_app. Qed.
Lemma found_app a b : as_found (a ++ b) = as_found a ++ as_found b.
Proof. apply map_app. Qed.
Lemma firstn_short {A} n (l m : list A) : (n <= length l)%nat -> firstn n (l ++ m) = firstn n l.
Proof. intros H. rewrite firstn_app. replace (n - length l)%nat with 0%nat by lia. apply app_nil_r. Qed.
Theorem C98_goes_on : forall k (x y : item k) d r r' l f l' f',
  start_of x = Some d -> rule_of x = Some r -> rule_of y = Some r' -> same_but_rule x y -> goes_on r r' ->
  1 <= r_interval r -> (forall c, r_count r = Some c -> 0 <= c) -> tidy d -> zone_fits E d ->
  series x l f -> series y l' f' -> f' <> Cut -> exists more, slots_of l' = slots_of l ++ more.
Proof.
  intros k x y d r r' l f l' f' Hd Hr Hr' (Y1 & Y2 & Y3) G Hi Hc Ht Hz H H' NC. pose proof G as (G1 & G2 & G3 & G4).
  destruct (C96_walk r d (end_of x) Hi Ht Hz) as (w & g & W & _). destruct (C96_walk r' d (end_of x) ltac:(lia) Ht Hz) as (w' & g' & W' & _).
  destruct (walk_goes_on _ _ _ _ _ _ _ G W W') as [m ->].
  assert (Hc' : forall c, r_count r' = Some c -> 0 <= c) by (intros c Q; rewrite Q in G4; destruct G4 as (c0 & Q0 & L); specialize (Hc _ Q0); lia).
  assert (Wy : walk r' (d, end_of y) (w ++ m) g') by now rewrite Y2.
  pose proof (C96_only k x d r w g l f Hd Hr Hc W H) as P. pose proof (C96_only k y d r' (w ++ m) g' l' f' (eq_trans Y1 Hd) Hr' Hc' Wy H') as P'.
  cbv zeta in P, P'. rewrite Y2, Y3, remaining_app in P'. set (kept := remaining (excluded_of x) w) in *. set (m' := remaining (excluded_of x) m) in *. set (a := (d, end_of x)) in *.
  destruct P' as [[Q _]|[_ P']]; [contradiction|].
  assert (B : exists more, slots_of l' = as_found (firstn (limit r (length kept)) (a :: kept)) ++ more).
  { set (n := limit r (length kept)) in *. set (n' := limit r' (length (kept ++ m'))) in *.
    assert (L1 : (n <= length kept)%nat) by (unfold n, limit; destruct (r_count r); lia).
    assert (L2 : (n <= n')%nat).
    { unfold n, n', limit. rewrite app_length. destruct (r_count r') as [c'|]; [destruct G4 as (c & -> & L); lia|destruct (r_count r); lia]. }
    rewrite P'. exists (as_found (skipn n (firstn n' (a :: kept ++ m')))). rewrite <- found_app. f_equal.
    rewrite <- (firstn_skipn n (firstn n' (a :: kept ++ m'))) at 1. f_equal. rewrite firstn_firstn, Nat.min_l by lia.
    exact (f_equal (fun z => z ++ skipn n (firstn n' (a :: kept ++ m'))) (firstn_short n (a :: kept) m' (le_S _ _ L1))). }
  destruct B as [more B]. destruct P as [[_ P]|[_ P]].
  - rewrite P, B. set (q := as_found _) in *. exists (skipn (length l) q ++ more). now rewrite app_assoc, firstn_skipn.
  - exists more. now rewrite P, B.
Qed.
(** ** The same steps *)
Lemma run_beginning {St A} (next : nat -> St -> ires St A) s a b f : run next s (a ++ b) f -> run next s a Cut.
Proof. revert s. induction a as [|x a IH]; intros s H; [constructor|]. inversion H; subst. econstructor; eauto. Qed.
(** If every walk of the one is a walk of the other, the two series are the same. *)
Lemma same_series k (x y : item k) d r r' : start_of x = Some d -> rule_of x = Some r -> rule_of y = Some r' -> same_but_rule x y -> r_count r' = r_count r ->
  1 <= r_interval r -> (forall c, r_count r = Some c -> 0 <= c) -> tidy d -> zone_fits E d ->
  (forall l f, walk r (d, end_of x) l f -> walk r' (d, end_of x) l f) ->
  forall l f, series x l f -> exists l', series y l' f /\ slots_of l' = slots_of l.
Proof.
  intros Hd Hr Hr' (Y1 & Y2 & Y3) Hcc Hi Hc Ht Hz HW l f H. destruct (C96_walk r d (end_of x) Hi Ht Hz) as (w & g & W & _).
  assert (Wy : walk r' (d, end_of y) w g) by (rewrite Y2; auto). assert (Hc' : forall c, r_count r' = Some c -> 0 <= c) by (intros c Q; apply Hc; congruence).
  destruct (C96_series k y d r' w g (eq_trans Y1 Hd) Hr' Hc' Wy) as (o & O1 & O2). cbv zeta in O1, O2. rewrite Y2, Y3 in *.
  assert (L : forall n, limit r' n = limit r n) by (intros n; unfold limit; now rewrite Hcc). assert (F : forall n, fate_of r' n g = fate_of r n g) by (intros n; unfold fate_of; now rewrite Hcc). rewrite L in O2. rewrite F in O1.
  destruct (C96_only k x d r w g l f Hd Hr Hc W H) as [[-> P]|[-> P]]; cbv zeta in P.
  - exists (firstn (length l) o). split.
    + unfold series. eapply (run_beginning _ _ _ (skipn (length l) o)). rewrite firstn_skipn. exact O1.
    + rewrite P, <- O2. unfold slots_of. now rewrite firstn_map.
  - exists o. split; [exact O1|]. now rewrite P.
Qed.
Lemma same_walk r r' (P : date -> Prop) a l f : r_until r' = r_until r -> (forall d, P d -> recur_add r' d = recur_add r d) -> (forall d d', P d -> recur_add r d = Ok d' -> P d') ->
  P (fst a) -> (forall e, snd a = Some e -> P e) -> walk r a l f -> walk r' a l f.
Proof.
  intros U X PP Pa Pe W. assert (PU : forall d, past_until r' d <-> past_until r d) by (intros d; unfold past_until; now rewrite U).
  revert Pa Pe. induction W as [a P1|a P1 N|a b l f P1 N W IH]; intros Pa Pe.
  - apply walk_past. now apply PU.
  - apply walk_stuck; [now rewrite PU|]. destruct N as [N|N]; [left; now rewrite X|right]. destruct (snd a) as [e|]; [|exact N]. cbn in *. rewrite X; auto.
  - destruct N as [N1 N2]. apply walk_on with (b := b); [now rewrite PU| |].
    + split; [now rewrite X|]. destruct (snd a) as [e|], (snd b) as [e'|]; auto. rewrite X; auto.
    + apply IH; [eauto|]. intros e' Q. rewrite Q in N2. destruct (snd a) as [e|]; [eauto|contradiction].
Qed.
Lemma in_calendar_moved f k s d d' : 0 <= s -> in_calendar d -> moved f k s d d' -> in_calendar d'.
Proof. unfold in_calendar. intros Hs H M. apply moved_second in M. lia. Qed.
Lemma unit_pos f u : unit_seconds f = Some u -> 1 <= u. Proof. destruct f; intros H; inv H; lia. Qed.
Lemma add_regular r d d' u : regular d -> 0 <= r_interval r -> unit_seconds (r_freq r) = Some u -> recur_add r d = Ok d' -> regular d'.
Proof.
  intros [T C] Hi Hu H. destruct (recur_add_moved r d d' u T Hi Hu H) as [M T']. apply unit_pos in Hu. split; auto. refine (in_calendar_moved _ _ _ _ _ _ C M). apply Z.mul_nonneg_nonneg; lia.
Qed.
Lemma add_total r d : recur_add r d = Panic \/ exists d', recur_add r d = Ok d'.
Proof. destruct (recur_add r d) as [d'|e|] eqn:A; [eauto|now apply recur_add_not_err in A|auto]. Qed.
Lemma moved_other f f' k s d d' : (is_plain_date d -> (daily_or_slower f <-> daily_or_slower f')) -> moved f (S k) s d d' -> moved f' 1 s d d'.
Proof.
  destruct d as [n|[n|n]], d' as [m|[m|m]]; cbn [moved is_plain_date]; intros D; auto; specialize (D Logic.I).
  - intros [[Q|Q] Z0]; [discriminate|]. split; auto. right. now apply D.
  - intros (_ & Q & Z0). split; [discriminate|]. split; auto. intros X. apply Q. now apply D.
Qed.
Lemma same_step r r' d s : 1 <= r_interval r <= 255 -> 1 <= r_interval r' <= 255 -> step_seconds r = Some s -> step_seconds r' = Some s ->
  (is_plain_date d -> (daily_or_slower (r_freq r) <-> daily_or_slower (r_freq r'))) -> regular d -> recur_add r' d = recur_add r d.
Proof.
  unfold step_seconds. intros Hi Hi' S1 S2 D [T C]. destruct (unit_seconds (r_freq r)) as [u|] eqn:U; [|discriminate]. destruct (unit_seconds (r_freq r')) as [u'|] eqn:U'; [|discriminate].
  cbn in S1, S2. injection S1 as <-. injection S2 as S2.
  pose proof (C94_panic_day r d u T Hi U C) as P. pose proof (C94_panic_day r' d u' T Hi' U' C) as P'. rewrite S2 in P'.
  assert (EQ : recur_add r d = Panic <-> recur_add r' d = Panic) by tauto. clear P P'.
  destruct (add_total r d) as [A|[e A]]; [rewrite A; now apply EQ|]. destruct (add_total r' d) as [A'|[e' A']].
  - exfalso. apply EQ in A'. congruence.
  - rewrite A, A'. f_equal. destruct (recur_add_moved r d e u T ltac:(lia) U A) as [M _]. destruct (recur_add_moved r' d e' u' T ltac:(lia) U' A') as [M' _]. rewrite S2 in M'.
    symmetry. eapply moved_det; [|exact M']. eapply moved_other; eauto.
Qed.
(** Steps of the same length give the same series: WEEKLY is DAILY with INTERVAL=7. *)
Theorem C98_same_length : forall k (x y : item k) d r r' s,
  start_of x = Some d -> rule_of x = Some r -> rule_of y = Some r' -> same_but_rule x y -> same_limits r r' ->
  1 <= r_interval r <= 255 -> 1 <= r_interval r' <= 255 -> step_seconds r = Some s -> step_seconds r' = Some s ->
  (forall e, Some e = Some d \/ end_of x = Some e -> regular e /\ (is_plain_date e -> (daily_or_slower (r_freq r) <-> daily_or_slower (r_freq r')))) ->
  (forall c, r_count r = Some c -> 0 <= c) -> zone_fits E d ->
  forall l f, series x l f -> exists l', series y l' f /\ slots_of l' = slots_of l.
Proof.
  intros k x y d r r' s Hd Hr Hr' Hs [Lu Lc] Hi Hi' S1 S2 Hreg Hc Hz. destruct (Hreg d (or_introl eq_refl)) as ([Td Cd] & Pd).
  apply (same_series k x y d r r'); auto; [lia|].
  set (P := fun e => regular e /\ (is_plain_date e -> (daily_or_slower (r_freq r) <-> daily_or_slower (r_freq r')))).
  destruct (unit_seconds (r_freq r)) as [u|] eqn:U; [|unfold step_seconds in S1; rewrite U in S1; discriminate].
  intros l f. apply (same_walk r r' P); auto.
  - intros e [Re De]. eapply same_step; eauto.
  - intros e e' [Re De] A. split; [eapply add_regular; eauto; lia|]. destruct Re as [Te _]. destruct (recur_add_moved r e e' u Te ltac:(lia) U A) as [M _].
    destruct e as [n|[n|n]], e' as [m|[m|m]]; cbn [moved is_plain_date] in *; tauto.
  - exact (Hreg d (or_introl eq_refl)).
  - intros e Q. apply Hreg. right. exact Q.
Qed.

(** ** Years as months *)
Lemma ymd_back y m d n : from_ymd_opt y m d = Some n -> ymd_of_days n = (y, m, d).
Proof. intros H. apply from_ymd_opt_Some in H as (_ & V & ->). now apply ymd_of_days_of_ymd. Qed.
Lemma year_months n i : 1 <= i -> (forall y, ymd_of_days n <> (y, 2, 29)) -> date_add_months n (12 * i) = unwrap (date_with_year n (date_year n + i)).
Proof.
  intros Hi N. unfold date_add_months, date_with_year, date_year. destruct (Z.eqb_spec (12 * i) 0); [lia|]. destruct (ymd_of_days n) as [[y m] d] eqn:Q. cbn [fst]. pose proof (valid_of_days _ _ _ _ Q) as [V _].
  apply valid_ymd_iff in V as [Vm Vd]. cbv zeta. rewrite (div_is (y * 12 + m - 1 + 12 * i) 12 (y + i) (m - 1)), (mod_is (y * 12 + m - 1 + 12 * i) 12 (y + i) (m - 1)) by lia. replace (m - 1 + 1) with m by lia.
  assert (D : Z.min d (days_in_month (y + i) m) = d).
  { apply Z.min_l. pose proof (days_in_month_bounds (y + i) m). destruct (Z.eq_dec m 2) as [->|M].
    - assert (d <> 29) by (intros ->; now apply (N y)). assert (days_in_month y 2 <= 29) by (unfold days_in_month; cbn; destruct (is_leap y); lia). assert (d <= 28) by lia. lia.
    - assert (days_in_month (y + i) m = days_in_month y m); [|lia]. unfold days_in_month. destruct (Z.eqb_spec m 2); [lia|reflexivity]. }
  rewrite D. destruct (from_ymd_opt (y + i) m d); reflexivity.
Qed.

Lemma with_year_back n y n' : date_with_year n y = Some n' -> (forall a, ymd_of_days n <> (a, 2, 29)) -> forall a, ymd_of_days n' <> (a, 2, 29).
Proof.
  unfold date_with_year. destruct (ymd_of_days n) as [[a m] d] eqn:Q. intros H N b X. apply ymd_back in H. rewrite H in X. inversion X; subst. now apply (N a).
Qed.
Lemma year_step r r' d : r_freq r = Yearly -> r_freq r' = Monthly -> r_interval r' = 12 * r_interval r -> 1 <= r_interval r -> no_leap_day d -> recur_add r' d = recur_add r d.
Proof.
  intros F F' I' Hi N. destruct d as [n|[n|n]]; cbn [no_leap_day] in N; [| |contradiction].
  - cbn [recur_add]. rewrite F, F'. change (freq_rank Daily <=? freq_rank Monthly) with true. change (freq_rank Daily <=? freq_rank Yearly) with true. cbv iota. unfold recur_add_date. rewrite F, F', I', (year_months n _ Hi N). reflexivity.
  - cbn [recur_add recur_add_dt]. unfold recur_add_ndt. rewrite F, F', I'. unfold ndt_add_months, ndt_with_year. rewrite (year_months _ _ Hi N). destruct (date_with_year _ _); reflexivity.
Qed.
Lemma year_keeps r d d' : r_freq r = Yearly -> no_leap_day d -> recur_add r d = Ok d' -> no_leap_day d'.
Proof.
  intros F N. destruct d as [n|[n|n]]; cbn [no_leap_day] in N; [| |contradiction].
  - cbn [recur_add]. rewrite F. change (freq_rank Daily <=? freq_rank Yearly) with true. cbv iota. unfold recur_add_date. rewrite F. intros H. apply omap_Ok in H as (m & H & ->). apply unwrap_Ok in H. cbn [no_leap_day]. exact (with_year_back _ _ _ H N).
  - cbn [recur_add recur_add_dt]. unfold recur_add_ndt. rewrite F. intros H. apply omap_Ok in H as (t & H & ->). apply omap_Ok in H as (m & H & ->). apply unwrap_Ok in H. unfold ndt_with_year in H. destruct (date_with_year _ _) as [w|] eqn:W; [|discriminate]. injection H as <-. cbn [no_leap_day nd_date]. exact (with_year_back _ _ _ W N).
Qed.
(** YEARLY is MONTHLY with twelve times the interval, but for 29 February. *)
Theorem C98_years : forall k (x y : item k) d r r',
  start_of x = Some d -> rule_of x = Some r -> rule_of y = Some r' -> same_but_rule x y -> same_limits r r' ->
  r_freq r = Yearly -> r_freq r' = Monthly -> r_interval r' = 12 * r_interval r -> 1 <= r_interval r ->
  (forall e, Some e = Some d \/ end_of x = Some e -> no_leap_day e) -> tidy d -> (forall c, r_count r = Some c -> 0 <= c) ->
  forall l f, series x l f -> exists l', series y l' f /\ slots_of l' = slots_of l.
Proof.
  intros k x y d r r' Hd Hr Hr' Hs [Lu Lc] F F' I' Hi Hn Ht Hc. apply (same_series k x y d r r'); auto.
  - specialize (Hn d (or_introl eq_refl)). destruct d as [n|[n|n]]; [exact Logic.I|exact Logic.I|contradiction].
  - intros l f. apply (same_walk r r' no_leap_day); [exact Lu| | | |].
    + intros e He. now apply year_step.
    + intros e e' He. now apply year_keeps.
    + exact (Hn d (or_introl eq_refl)).
    + intros e Q. apply Hn. right. exact Q.
Qed.
(** ** Every other one *)
Lemma steps_regular r k d d' u : regular d -> 0 <= r_interval r -> unit_seconds (r_freq r) = Some u -> steps r k d d' -> regular d'.
Proof. intros R Hi U H. induction H; auto. apply IHsteps. eapply add_regular; eauto. Qed.
Lemma steps_fit r u k d : regular d -> 1 <= r_interval r <= 255 -> unit_seconds (r_freq r) = Some u -> fits (second_of d + Z.of_nat (S k) * (r_interval r * u)) -> exists d', steps r (S k) d d'.
Proof.
  intros R Hi U. pose proof (unit_pos _ _ U) as Hu. assert (Hp : 1 <= r_interval r * u) by nia. revert d R. induction k as [|k IH]; intros d R F.
  - destruct R as [T C]. pose proof (C94_panic_day r d u T Hi U C) as P. destruct (add_total r d) as [A|[e A]].
    + exfalso. apply P in A. apply A. replace (Z.of_nat 1 * (r_interval r * u)) with (r_interval r * u) in F by lia. exact F.
    + exists e. econstructor; [exact A|constructor].
  - destruct R as [T C]. pose proof (C94_panic_day r d u T Hi U C) as P. destruct (add_total r d) as [A|[e A]].
    + exfalso. apply P in A. apply A. unfold fits in *. nia.
    + destruct (recur_add_moved r d e u T ltac:(lia) U A) as [M _]. apply moved_second in M. destruct (IH e) as [d' S'].
      * eapply add_regular; [split; [exact T|exact C]| | |exact A]; eauto; lia.
      * rewrite M. replace (second_of d + r_interval r * u + Z.of_nat (S k) * (r_interval r * u)) with (second_of d + Z.of_nat (S (S k)) * (r_interval r * u)) by lia. exact F.
      * exists d'. econstructor; eauto.
Qed.
Lemma moved_one f k s d d' : moved f (S k) s d d' -> moved f 1 s d d'.
Proof. apply moved_other. tauto. Qed.
Lemma sparse_step r r' b d d' : r_freq r' = r_freq r -> r_interval r' = Z.of_nat (S b) * r_interval r -> 1 <= r_interval r -> r_interval r' <= 255 -> unit_seconds (r_freq r) <> None -> regular d ->
  (recur_add r' d = Ok d' <-> steps r (S b) d d').
Proof.
  intros F I' Hi Hi' Hu R. destruct (unit_seconds (r_freq r)) as [u|] eqn:U; [|congruence]. assert (U' : unit_seconds (r_freq r') = Some u) by congruence. pose proof (unit_pos _ _ U) as Pu.
  assert (Q : r_interval r' * u = Z.of_nat (S b) * (r_interval r * u)) by (rewrite I'; lia). assert (Hr : 1 <= r_interval r <= 255) by nia. assert (Hr' : 1 <= r_interval r' <= 255) by nia.
  pose proof R as [T C]. pose proof (C94_panic_day r' d u T Hr' U' C) as P'. rewrite Q in P'. split; intros H.
  - destruct (recur_add_moved r' d d' u T ltac:(lia) U' H) as [M _]. rewrite F, Q in M.
    destruct (steps_fit r u b d R Hr U) as [e S1].
    + assert (D : fits (second_of d + Z.of_nat (S b) * (r_interval r * u)) \/ ~ fits (second_of d + Z.of_nat (S b) * (r_interval r * u))) by (unfold fits; lia). destruct D as [D|D]; auto. apply P' in D. congruence.
    + destruct (steps_moved r (S b) d e u T ltac:(lia) U S1) as [M1 _]. apply moved_one in M1. now rewrite (moved_det _ _ _ _ _ _ M M1).
  - destruct (steps_moved r (S b) d d' u T ltac:(lia) U H) as [M1 _]. apply moved_one in M1.
    assert (Fi : fits (second_of d + Z.of_nat (S b) * (r_interval r * u))).
    { replace (S b) with (b + 1)%nat in H by lia. apply steps_split in H as (m & S1 & S2). inversion S2 as [|k0 m0 m1 m2 A S3]; subst. inversion S3; subst.
      destruct (steps_moved r b d m u T ltac:(lia) U S1) as [Mb Tm]. apply moved_second in Mb. pose proof (steps_regular r b d m u R ltac:(lia) U S1) as [_ Cm].
      pose proof (C94_panic_day r m u Tm Hr U Cm) as Pm. assert (D : fits (second_of m + r_interval r * u)) by (unfold fits in *; destruct (Z.ltb_spec (second_of m + r_interval r * u) ((days_of_ymd 262142 12 31 + 1) * 86400)); [auto|exfalso; assert (recur_add r m = Panic) by (apply Pm; lia); congruence]).
      rewrite Mb in D. replace (second_of d + Z.of_nat (S b) * (r_interval r * u)) with (second_of d + Z.of_nat b * (r_interval r * u) + r_interval r * u) by lia. exact D. }
    destruct (add_total r' d) as [A|[e A]]; [apply P' in A; contradiction|]. rewrite A. f_equal. destruct (recur_add_moved r' d e u T ltac:(lia) U' A) as [M _]. rewrite F, Q in M. exact (moved_det _ _ _ _ _ _ M M1).
Qed.
(** The slot [i] steps on. *)
Definition slot_steps (r : recur) (i : nat) (a s : slot) : Prop := steps r i (fst a) (fst s) /\ steps_opt r i (snd a) (snd s).
Lemma slot_det r i a s s' : slot_steps r i a s -> slot_steps r i a s' -> s = s'.
Proof.
  intros [A B] [A' B']. destruct s as [s [e|]], s' as [s' [e'|]]; cbn in *; destruct (snd a); cbn in *; try contradiction; f_equal; try (f_equal); eauto using steps_det.
Qed.
Lemma slot_split r j k a c : slot_steps r (j + k) a c -> exists b, slot_steps r j a b /\ slot_steps r k b c.
Proof.
  intros [A B]. apply steps_split in A as (b & A1 & A2). destruct a as [a [e|]], c as [c [e'|]]; cbn [fst snd steps_opt] in *; try contradiction.
  - apply steps_split in B as (e2 & B1 & B2). now exists (b, Some e2).
  - now exists (b, None).
Qed.
Lemma slot_one r a s : slot_steps r 1 a s <-> next_slot r a s.
Proof.
  assert (P : forall x y, steps r 1 x y <-> recur_add r x = Ok y).
  { intros x y. split; intros H; [inversion H as [|k0 x0 m y0 A S1]; subst; inversion S1; subst; exact A|]. econstructor; [exact H|constructor]. }
  unfold slot_steps, next_slot. rewrite P. destruct (snd a), (snd s); cbn [steps_opt]; rewrite ?P; tauto.
Qed.
Lemma slot_zero r a : slot_steps r 0 a a.
Proof. split; [constructor|]. destruct (snd a); cbn; [constructor|exact Logic.I]. Qed.
Lemma slot_app r j k a b c : slot_steps r j a b -> slot_steps r k b c -> slot_steps r (j + k) a c.
Proof. intros [A B] [A' B']. split; [eapply steps_app; eauto|eapply steps_opt_app; eauto]. Qed.
Lemma walk_at r a l f : walk r a l f -> forall i s, nth_error (a :: l) i = Some s -> slot_steps r i a s /\ ((i < length l)%nat -> ~ past_until r (fst s)).
Proof.
  induction 1 as [a P|a P N|a b l f P N W IH]; intros i s H.
  - destruct i; cbn in H; [inv H; split; [apply slot_zero|cbn; lia]|destruct i; discriminate].
  - destruct i; cbn in H; [inv H; split; [apply slot_zero|cbn; lia]|destruct i; discriminate].
  - destruct i as [|i]; cbn [nth_error] in H; [inv H; split; [apply slot_zero|auto]|]. destruct (IH _ _ H) as [S1 S2]. split.
    + apply (slot_app r 1 i a b s); auto. now apply slot_one.
    + cbn [length]. intros L. apply S2. lia.
Qed.
Lemma walk_last r a l f : walk r a l f -> exists z, slot_steps r (length l) a z /\ (past_until r (fst z) /\ f = Ended \/ ~ past_until r (fst z) /\ no_next r z /\ f = Panicked).
Proof.
  induction 1 as [a P|a P N|a b l f P N W (z & S1 & S2)].
  - exists a. split; [apply slot_zero|auto].
  - exists a. split; [apply slot_zero|auto].
  - exists z. split; [|exact S2]. cbn [length]. apply (slot_app r 1 (length l) a b z); auto. now apply slot_one.
Qed.
Lemma walk_find r a l f i s : walk r a l f -> slot_steps r i a s -> (i <= length l)%nat -> nth_error (a :: l) i = Some s.
Proof.
  intros W S1 L. destruct (nth_error (a :: l) i) as [t|] eqn:Q; [|apply nth_error_None in Q; cbn in Q; lia]. f_equal. eapply slot_det; [exact (proj1 (walk_at _ _ _ _ W _ _ Q))|exact S1].
Qed.
Definition slot_regular (s : slot) : Prop := regular (fst s) /\ forall e, snd s = Some e -> regular e.
Lemma slot_stays r i a s u : slot_regular a -> 0 <= r_interval r -> unit_seconds (r_freq r) = Some u -> slot_steps r i a s -> slot_regular s.
Proof.
  intros [A B] Hi U [S1 S2]. split; [eapply steps_regular; eauto|]. intros e Q. rewrite Q in S2. destruct (snd a) as [e0|]; [|contradiction]. cbn in S2. exact (steps_regular r i e0 e u (B e0 eq_refl) Hi U S2).
Qed.
Section Sparse.
Variables (r r' : recur) (b : nat).
Hypotheses (F : r_freq r' = r_freq r) (I' : r_interval r' = Z.of_nat (S b) * r_interval r) (Hi : 1 <= r_interval r) (Hi' : r_interval r' <= 255) (Hu : unit_seconds (r_freq r) <> None).
Lemma slot_sparse_one a s : slot_regular a -> (next_slot r' a s <-> slot_steps r (S b) a s).
Proof using F I' Hi Hi' Hu.
  intros [A B]. unfold next_slot, slot_steps. rewrite (sparse_step r r' b (fst a) (fst s) F I' Hi Hi' Hu A). destruct (snd a) as [e|], (snd s) as [e'|]; cbn [steps_opt]; try tauto.
  rewrite (sparse_step r r' b e e' F I' Hi Hi' Hu (B e eq_refl)). tauto.
Qed.
Lemma slot_sparse j : forall a s, slot_regular a -> (slot_steps r' j a s <-> slot_steps r (S b * j) a s).
Proof using F I' Hi Hi' Hu.
  assert (U : exists u, unit_seconds (r_freq r) = Some u) by (destruct (unit_seconds (r_freq r)); [eauto|congruence]). destruct U as [u U]. induction j as [|j IH]; intros a s A.
  - replace (S b * 0)%nat with 0%nat by lia. split; intros H; (replace s with a; [apply slot_zero|]); eapply slot_det; [apply slot_zero|exact H|apply slot_zero|exact H].
  - replace (S b * S j)%nat with (S b + S b * j)%nat by lia. split; intros H.
    + apply (slot_split r' 1 j) in H as (m & H1 & H2). apply slot_one, slot_sparse_one in H1; auto. apply IH in H2; [exact (slot_app _ _ _ _ _ _ H1 H2)|]. eapply slot_stays; eauto; lia.
    + apply slot_split in H as (m & H1 & H2). assert (M : slot_regular m) by (eapply slot_stays; eauto; lia). apply (slot_app r' 1 j a m s); [apply slot_one, slot_sparse_one; auto|]. now apply IH.
Qed.
End Sparse.
Lemma walk_has (a : slot) (l : list slot) i : (i <= length l)%nat -> exists s, nth_error (a :: l) i = Some s.
Proof. intros L. destruct (nth_error (a :: l) i) as [s|] eqn:Q; [now exists s|]. apply nth_error_None in Q. cbn [length] in Q. lia. Qed.
(** Later ones are past UNTIL if earlier ones are. *)
Lemma past_later r d d' k u : tidy d -> forward_zone d -> 0 <= r_interval r -> unit_seconds (r_freq r) = Some u -> steps r k d d' -> (past_until r d -> past_until r d') /\ forward_zone d'.
Proof.
  intros T Z0 Hi U H. destruct (steps_moved r k d d' u T Hi U H) as [M T']. apply unit_pos in U. assert (S1 : second_of d <= second_of d') by (rewrite (moved_second _ _ _ _ _ M); nia).
  assert (D : date_naive d <= date_naive d' /\ forward_zone d').
  { clear H. destruct d as [n|[n|n]], d' as [m|[m|m]]; cbn [moved forward_zone tidy second_of date_naive] in *; try contradiction; unfold dt_date_naive; cbn [dt_naive]; try (split; [|exact Logic.I]); unfold tidy_time, seconds in *; try lia.
    split; [|exact Z0]. unfold naive_local, ndt_shift. cbn [nd_date]. fold (ndt_ts n) (ndt_ts m) in *. assert (X : ndt_ts n + tz_offset (ndt_ts n) <= ndt_ts m + tz_offset (ndt_ts m)).
    { destruct (Z.eq_dec (ndt_ts n) (ndt_ts m)) as [->|Ne]; [lia|]. assert (ndt_ts n < ndt_ts m) by lia. specialize (Z0 (ndt_ts n) (ndt_ts m)). lia. }
    unfold ndt_ts in *. assert (Y : forall a s, a + s / 86400 = (a * 86400 + s) / 86400) by (intros; rewrite Z.add_comm, (Z.add_comm (_ * _)), Z.div_add by lia; lia). rewrite !Y. apply Z.div_le_mono; lia. }
  split; [|tauto]. unfold past_until. destruct (r_until r); [lia|auto].
Qed.
Lemma nth_removelast {A} (l : list A) i s : nth_error l i = Some s -> (S i < length l)%nat -> nth_error (removelast l) i = Some s.
Proof.
  revert i. induction l as [|x l IH]; intros i H L; [destruct i; discriminate|]. destruct l as [|y l]; [cbn in L; lia|]. change (removelast (x :: y :: l)) with (x :: removelast (y :: l)). destruct i as [|i]; [exact H|]. cbn [nth_error] in *. apply IH; [exact H|cbn in *; lia].
Qed.
Lemma nth_removelast_back {A} (l : list A) i s : nth_error (removelast l) i = Some s -> nth_error l i = Some s /\ (S i < length l)%nat.
Proof.
  revert i. induction l as [|x l IH]; intros i H; [destruct i; discriminate|]. destruct l as [|y l]; [destruct i; discriminate|]. change (removelast (x :: y :: l)) with (x :: removelast (y :: l)) in H. destruct i as [|i]; cbn [nth_error length] in *; [split; [exact H|lia]|]. apply IH in H as [H1 H2]. split; [exact H1|cbn in *; lia].
Qed.
Lemma removelast_length {A} (a : A) l : length (removelast (a :: l)) = length l.
Proof. rewrite <- firstn_removelast, firstn_length. cbn [length]. lia. Qed.
(** A rule of [b] times the interval gives every [b]-th of the occurrences, from the first on: to the
    end of the series if it is UNTIL that ends it, and short of it by less than [b] of them if it runs
    into the end of the calendar. *)
Theorem C98_every_other : forall k (x y : item k) d r r' b l f l' f',
  start_of x = Some d -> rule_of x = Some r -> rule_of y = Some r' -> same_but_rule x y -> excluded_of x = [] -> same_limits r r' -> r_count r = None ->
  r_freq r' = r_freq r -> unit_seconds (r_freq r) <> None -> (1 <= b)%nat -> r_interval r' = Z.of_nat b * r_interval r -> 1 <= r_interval r -> r_interval r' <= 255 ->
  regular d -> zone_fits E d -> forward_zone d -> (forall e, end_of x = Some e -> regular e) ->
  series x l f -> series y l' f' -> f <> Cut -> f' <> Cut ->
  (forall j s, nth_error (slots_of l') j = Some s -> nth_error (slots_of l) (b * j) = Some s) /\
  (forall j, (b * (j + 1) <= length l)%nat -> (j < length l')%nat) /\
  (f' = Ended -> forall j, (b * j < length l)%nat -> (j < length l')%nat).
Proof.
  intros k x y d r r' b l f l' f' Hd Hr Hr' (Y1 & Y2 & Y3) Hx [Lu Lc] Hc F Hu Hb I' Hi Hi' Rd Hz Fz Re H H' NC NC'. destruct b as [|b]; [lia|]. assert (Pd : 0 <= r_interval r) by lia. assert (Pd' : 1 <= r_interval r') by nia.
  destruct Rd as [Td Cd]. destruct (C96_walk r d (end_of x) Hi Td Hz) as (w & g & W & Wg). destruct (C96_walk r' d (end_of x) Pd' Td Hz) as (w' & g' & W' & Wg'). set (a := (d, end_of x)) in *.
  assert (Ra : slot_regular a) by (split; [split; assumption|exact Re]). assert (U : exists u, unit_seconds (r_freq r) = Some u) by (destruct (unit_seconds (r_freq r)); [eauto|congruence]). destruct U as [u U].
  assert (NoX : forall q : list slot, remaining [] q = q) by (intros q; unfold remaining; induction q as [|z q IH]; [reflexivity|]; cbn [filter existsb negb]; exact (f_equal (cons z) IH)).
  assert (Wy : walk r' (d, end_of y) w' g') by now rewrite Y2.
  pose proof (C96_only k x d r w g l f Hd Hr ltac:(congruence) W H) as P. pose proof (C96_only k y d r' w' g' l' f' (eq_trans Y1 Hd) Hr' ltac:(congruence) Wy H') as P'.
  cbv zeta in P, P'. unfold limit, fate_of in P, P'. rewrite Lc, Y2, Y3 in P'. rewrite Hc, Hx, NoX in *. rewrite firstn_removelast in P, P'. fold a in P, P'. destruct P as [[Q _]|[-> P]]; [contradiction|]. destruct P' as [[Q _]|[-> P']]; [contradiction|]. clear H H' NC NC'.
  assert (L : length l = length w) by (transitivity (length (slots_of l)); [unfold slots_of; now rewrite map_length|]; rewrite P; unfold as_found; rewrite map_length; apply removelast_length).
  assert (L' : length l' = length w') by (transitivity (length (slots_of l')); [unfold slots_of; now rewrite map_length|]; rewrite P'; unfold as_found; rewrite map_length; apply removelast_length).
  assert (SP : forall j s, slot_steps r' j a s <-> slot_steps r (S b * j) a s) by (intros; apply slot_sparse; auto; congruence).
  assert (PU : forall e, past_until r' e <-> past_until r e) by (intros e; unfold past_until; now rewrite Lu).
  assert (Z1 : forall i z, slot_steps r i a z -> tidy (fst z) /\ forward_zone (fst z)).
  { intros i z [S1 _]. cbn [fst] in S1. split; [exact (proj2 (steps_moved r i d (fst z) u Td Pd U S1))|]. exact (proj2 (past_later r d (fst z) i u Td Fz Pd U S1)). }
  assert (G1 : forall j, (j < length w')%nat -> (S b * j < length w)%nat).
  { intros j Lj. destruct (Nat.lt_ge_cases (S b * j) (length w)) as [G0|Ge]; [exact G0|exfalso].
    destruct (walk_has a w' (j)%nat ltac:(lia)) as [s Q]. destruct (walk_has a w' (S j)%nat ltac:(lia)) as [s1 Q1].
    destruct (walk_at _ _ _ _ W' _ _ Q) as [S1 N1]. destruct (walk_at _ _ _ _ W' _ _ Q1) as [S2 _]. apply SP in S1, S2. specialize (N1 Lj). destruct (walk_last _ _ _ _ W) as (z & Sz & Ez).
    destruct (Z1 _ _ Sz) as [Tz Gz]. destruct Ez as [[Ez _]|(_ & Ez & _)].
    - replace (S b * j)%nat with (length w + (S b * j - length w))%nat in S1 by lia. apply slot_split in S1 as (z' & A1 & A2). rewrite <- (slot_det _ _ _ _ _ Sz A1) in A2. apply N1, PU. exact (proj1 (past_later r _ _ _ u Tz Gz Pd U (proj1 A2)) Ez).
    - assert (Gj : (S b * S j >= length w + 1)%nat) by nia. replace (S b * S j)%nat with (length w + (1 + (S b * S j - length w - 1)))%nat in S2 by lia. apply slot_split in S2 as (z' & A1 & A2). rewrite <- (slot_det _ _ _ _ _ Sz A1) in A2. apply slot_split in A2 as (z2 & A3 & _). apply slot_one in A3. destruct A3 as [A4 A5].
      destruct Ez as [Ez|Ez]; [congruence|]. destruct (snd z); [|exact Ez]. cbn in Ez. destruct (snd z2); [congruence|exact A5]. }
  split; [|split].
  - intros j s Q. rewrite P' in Q. rewrite P. unfold as_found in *. rewrite nth_error_map in Q. destruct (nth_error (removelast (a :: w')) j) as [t|] eqn:Qt; [|discriminate]. apply nth_removelast_back in Qt as [Qt Lt]. cbn [length] in Lt.
    destruct (walk_at _ _ _ _ W' _ _ Qt) as [S1 _]. apply SP in S1. assert (G : (S b * j < length w)%nat) by exact (G1 j (le_S_n _ _ Lt)). pose proof (walk_find _ _ _ _ _ _ W S1 (Nat.lt_le_incl _ _ G)) as X.
    rewrite nth_error_map. exact (eq_trans (f_equal _ (nth_removelast (a :: w) _ _ X (le_n_S _ _ G))) Q).
  - intros j Lj. rewrite L in Lj. rewrite L'. destruct (Nat.lt_ge_cases j (length w')) as [|Ge]; [auto|exfalso]. destruct (walk_last _ _ _ _ W') as (z & Sz & Ez). apply SP in Sz.
    assert (Li : (S b * length w' < length w)%nat) by nia. pose proof (walk_find _ _ _ _ _ _ W Sz (Nat.lt_le_incl _ _ Li)) as X. destruct (walk_at _ _ _ _ W _ _ X) as [_ N1]. specialize (N1 Li).
    destruct Ez as [[Ez _]|(_ & Ez & _)]; [apply N1; now apply PU|]. assert (Lb : (S b * length w' + S b <= length w)%nat) by nia.
    destruct (walk_has a w (S b * length w' + S b)%nat ltac:(lia)) as [t Q]. destruct (walk_at _ _ _ _ W _ _ Q) as [S2 _]. apply slot_split in S2 as (z' & A1 & A2). rewrite <- (slot_det _ _ _ _ _ Sz A1) in A2.
    apply (slot_sparse_one r r' b) in A2; [|exact F|exact I'|exact Hi|exact Hi'|exact Hu|exact (slot_stays _ _ _ _ _ Ra Pd U Sz)]. destruct A2 as [A4 A5]. destruct Ez as [Ez|Ez]; [congruence|]. destruct (snd z); [|exact Ez]. cbn in Ez. destruct (snd t); [congruence|exact A5].
  - intros -> j Lj. rewrite L in Lj. rewrite L'. destruct (Nat.lt_ge_cases j (length w')) as [|Ge]; [auto|exfalso]. destruct (walk_last _ _ _ _ W') as (z & Sz & Ez). apply SP in Sz.
    assert (Li : (S b * length w' < length w)%nat) by nia. pose proof (walk_find _ _ _ _ _ _ W Sz (Nat.lt_le_incl _ _ Li)) as X. destruct (walk_at _ _ _ _ W _ _ X) as [_ N1]. specialize (N1 Li).
    destruct Ez as [[Ez _]|(_ & _ & Ez)]; [apply N1; now apply PU|discriminate].
Qed.
End Env.
