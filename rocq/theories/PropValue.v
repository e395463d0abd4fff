(** * Exact readings of single values: C20, C25, C27, C29-C31, C33, C34, C76 for every text *)
From Verif Require Import Base Env Chrono Nom Types Ser Parser Derive Components BaseFacts ChronoFacts DateText NomFacts SpecLine LineFacts SpecComp SpecFields DeriveFacts SpecCal SpecDur SpecIter SpecValue PropDate PropDur PropVocab PropRule PropComp SpecFile PropFile PropPanic SpecFatal PropDurAll PropFatal.

(** ** C20: dates *)
Lemma no_digit_head s : no_digit_next s <-> not_digit_head s.
Proof.
  destruct s as [|c s]; cbn; [tauto|]. split; intros H.
  - destruct (is_digit c) eqn:D; auto. apply is_digit_iff in D. lia.
  - intros D. apply is_digit_iff in D. congruence.
Qed.
Lemma take_digits_max k s ds r : take_digits k s = (ds, r) -> length ds = k \/ (length ds < k)%nat /\ no_digit_next r.
Proof.
  revert s ds r; induction k as [|k IH]; intros s ds r; cbn [take_digits]; [intros [= <- <-]; auto|].
  destruct s as [|c s]; [intros [= <- <-]; right; split; [cbn; lia|exact I]|].
  destruct (is_digit c) eqn:Hc; [|intros [= <- <-]; right; split; [cbn; lia|apply no_digit_head; exact Hc]].
  destruct (take_digits k s) as [a b] eqn:Ht. intros [= <- <-]. apply IH in Ht as [<-|[L N]]; [left; reflexivity|right; split; [cbn; lia|auto]].
Qed.
Lemma take_digits_iff k s ds r : take_digits k s = (ds, r) <-> s = ds ++ r /\ digit_string ds /\ (length ds = k \/ (length ds < k)%nat /\ no_digit_next r).
Proof.
  split.
  - intros H. pose proof (take_digits_max _ _ _ _ H). apply take_digits_inv in H as (-> & D & _). rewrite digit_string_all. auto.
  - intros (-> & D & [L|[L N]]); apply digit_string_all in D; [now apply take_digits_app|]. apply take_digits_short; auto; [lia|now apply no_digit_head].
Qed.
Lemma blank_drop w s : blank w -> match s with c :: _ => is_whitespace c = false | [] => True end -> trim_start (w ++ s) = s.
Proof.
  intros B H. unfold trim_start. induction w as [|c w IH]; cbn.
  - destruct s; auto. cbn. now rewrite H.
  - inv B. rewrite H2. auto.
Qed.
Lemma digits_head_ws ds s : ds <> [] -> digit_string ds -> match ds ++ s with c :: _ => is_whitespace c = false | [] => True end.
Proof. destruct ds as [|c ds]; [congruence|]. intros _ D. apply Forall_inv in D. cbn. apply digit_not_ws. now apply is_digit_iff. Qed.
Lemma small_value ds : digit_string ds -> (length ds <= 4)%nat -> value_of ds <= I64MAX.
Proof.
  intros D L. rewrite value_of_digits, digits_val_dval. apply digit_string_all in D. pose proof (dval_bounds ds D) as B.
  assert (10 ^ Z.of_nat (length ds) <= 10 ^ 4) by (apply Z.pow_le_mono_r; lia). unfold I64MAX. lia.
Qed.
Lemma number_iff k s n rest : (0 < k <= 4)%nat -> scan_number k (trim_start s) = Some (rest, n) <-> reads_number k s n rest.
Proof.
  intros K. split.
  - unfold trim_start. destruct (drop_while_split is_whitespace s) as (w & Ew & Hw). intros H. unfold scan_number in H.
    destruct (take_digits k _) as [ds r] eqn:T. apply take_digits_iff in T as (E & D & M). destruct ds as [|c ds]; [discriminate|].
    destruct (_ <=? _); [|discriminate]. inv H. exists w, (c :: ds). rewrite <- E. rewrite value_of_digits. split; auto. split; auto. split; [discriminate|]. auto.
  - intros (w & ds & -> & B & N & D & <- & M). rewrite blank_drop by (auto; apply digits_head_ws; auto).
    unfold scan_number. assert (T : take_digits k (ds ++ rest) = (ds, rest)) by (apply take_digits_iff; auto). rewrite T.
    destruct ds as [|c ds]; [congruence|]. rewrite <- value_of_digits. assert (value_of (c :: ds) <= I64MAX) by (apply small_value; [auto|destruct M as [M|[M _]]; lia]).
    destruct (Z.leb_spec (value_of (c :: ds)) I64MAX); [reflexivity|lia].
Qed.
Lemma num2_iff s n rest : num2 s = Some (rest, n) <-> reads_number 2 s n rest.
Proof. apply number_iff. lia. Qed.
Lemma scan_all r rest v : scan_number (length r) r = Some (rest, v) <->
  exists ds, r = ds ++ rest /\ ds <> [] /\ digit_string ds /\ value_of ds = v /\ no_digit_next rest /\ v <= I64MAX.
Proof.
  unfold scan_number. split.
  - destruct (take_digits (length r) r) as [ds x] eqn:T. apply take_digits_iff in T as (E & D & M). destruct ds as [|c ds]; [discriminate|].
    destruct (Z.leb_spec (digits_val (c :: ds)) I64MAX); [|discriminate]. intros H'. inv H'. exists (c :: ds). rewrite value_of_digits.
    split; auto. split; [discriminate|]. split; auto. split; auto. split; auto.
    destruct M as [M|[M N]]; auto. rewrite app_length in M. destruct rest; [exact I|]. cbn in M. lia.
  - intros (ds & -> & N & D & <- & R & V).
    assert (T : take_digits (length (ds ++ rest)) (ds ++ rest) = (ds, rest)).
    { apply take_digits_iff. split; auto. split; auto. rewrite app_length. destruct rest; [left; cbn; lia|right; split; [cbn; lia|auto]]. }
    rewrite T. destruct ds as [|c ds]; [congruence|]. rewrite value_of_digits in *. destruct (Z.leb_spec (digits_val (c :: ds)) I64MAX); [reflexivity|lia].
Qed.
Lemma year_iff s y rest : -262143 <= y <= 262142 -> num_year s = Some (rest, y) <-> reads_year s y rest.
Proof.
  intros Y. unfold num_year, reads_year.
  assert (B45 : is_whitespace 45 = false) by reflexivity. assert (B43 : is_whitespace 43 = false) by reflexivity.
  split.
  - intros H. destruct (trim_start s) as [|c r] eqn:T; [discriminate|].
    assert (W : exists w, s = w ++ c :: r /\ blank w) by (unfold trim_start in T; destruct (drop_while_split is_whitespace s) as (w & Ew & Hw); rewrite T in Ew; eauto).
    destruct (Z.eqb_spec c 45) as [->|N45]; [|destruct (Z.eqb_spec c 43) as [->|N43]].
    + destruct (scan_number (length r) r) as [[r' v]|] eqn:S'; [|discriminate]. inv H. apply scan_all in S' as (ds & -> & N & D & <- & R & _).
      destruct W as (w & -> & Hw). right. exists true, w, ds. cbn. auto 10.
    + apply scan_all in H as (ds & -> & N & D & <- & R & _). destruct W as (w & -> & Hw). right. exists false, w, ds. cbn. auto 10.
    + left. apply number_iff; [lia|]. now rewrite T.
  - intros [H|(neg & w & ds & -> & B & N & D & -> & R)].
    + apply number_iff in H; [|lia]. destruct (trim_start s) as [|c r] eqn:T; [discriminate|].
      assert (Dg : is_digit c = true).
      { unfold scan_number in H. cbn [take_digits] in H. destruct (is_digit c); auto. discriminate. }
      apply is_digit_iff in Dg. destruct (Z.eqb_spec c 45); [lia|]. destruct (Z.eqb_spec c 43); [lia|]. exact H.
    + rewrite blank_drop by (auto; destruct neg; auto). cbn [app].
      assert (V : scan_number (length (ds ++ rest)) (ds ++ rest) = Some (rest, value_of ds)).
      { apply scan_all. exists ds. split; auto. split; auto. split; auto. split; auto. split; auto. unfold I64MAX. destruct neg; cbn [signed] in Y; lia. }
      destruct neg.
      * change (45 =? 45) with true. cbv iota. rewrite V. reflexivity.
      * change (43 =? 45) with false. change (43 =? 43) with true. cbv iota. exact V.
Qed.
Lemma ymd_iff s y m d rest : -262143 <= y <= 262142 -> scan_ymd s = Some (rest, (y, m, d)) <-> reads_ymd s y m d rest.
Proof.
  intros Y. unfold scan_ymd, reads_ymd. split.
  - destruct (num_year s) as [[s1 y1]|] eqn:H1; [|discriminate]. destruct (num2 s1) as [[s2 m1]|] eqn:H2; [|discriminate].
    destruct (num2 s2) as [[s3 d1]|] eqn:H3; [|discriminate]. intros H. inv H. exists s1, s2. split; [now apply year_iff|]. split; now apply num2_iff.
  - intros (r1 & r2 & H1 & H2 & H3). apply year_iff in H1; auto. apply num2_iff in H2. apply num2_iff in H3. now rewrite H1, H2, H3.
Qed.
Lemma the_day_iff y m d n : from_ymd_opt y m d = Some n <-> the_day y m d n.
Proof.
  unfold the_day. rewrite from_ymd_opt_iff, date_ok_year. unfold date_year, MIN_YEAR, MAX_YEAR. split.
  - intros [E H]. rewrite E in H. cbn in H. split; auto. split; auto. apply valid_of_days in E as [V _]. now apply valid_ymd_spec.
  - intros (H & G & E). rewrite E. auto.
Qed.
Lemma day_iff s n : date_parse s = Some n <-> reads_day s n.
Proof.
  unfold date_parse, reads_day. split.
  - destruct (scan_ymd s) as [[rest [[y m] d]]|] eqn:H; [|discriminate]. destruct rest; [|discriminate]. intros F. apply the_day_iff in F.
    exists y, m, d. split; auto. apply ymd_iff; auto. apply F.
  - intros (y & m & d & H & F). apply ymd_iff in H; [|apply F]. rewrite H. now apply the_day_iff.
Qed.
Lemma reads_number_nonneg k s n rest : reads_number k s n rest -> 0 <= n.
Proof. intros (w & ds & _ & _ & _ & D & <- & _). now apply value_nonneg. Qed.
Lemma hms_iff dd h mi se n : 0 <= h -> 0 <= mi -> 0 <= se -> hms dd h mi se = Some n <-> nd_date n = dd /\ the_time h mi se n.
Proof.
  intros Hh Hm Hs. unfold hms, the_time. split.
  - destruct (_ && _) eqn:R; [|discriminate]. bool_hyps. destruct (Z.eqb_spec se 60) as [->|N]; intros H'; inv H'; cbn.
    + split; auto. split; [lia|]. split; [lia|]. right. auto.
    + split; auto. split; [lia|]. split; [lia|]. left. split; [lia|]. auto.
  - intros (<- & A & B & C). destruct n as [nd ns nn]. cbn in *.
    replace ((0 <=? h) && (h <=? 23) && (0 <=? mi) && (mi <=? 59) && (0 <=? se) && (se <=? 60)) with true by lia.
    destruct C as [(C & -> & ->)|(-> & -> & ->)].
    + destruct (Z.eqb_spec se 60); [lia|]. reflexivity.
    + reflexivity.
Qed.
Lemma wall_iff s n : ndt_parse [] s = Some n <-> reads_wall s n.
Proof.
  unfold ndt_parse, reads_wall. cbn [strip_prefix]. split.
  - destruct (scan_ymd s) as [[s1 [[y m] d]]|] eqn:H1; [|discriminate].
    destruct (lit_char 84 s1) as [s2|] eqn:H2; [|discriminate].
    destruct (num2 s2) as [[s3 h]|] eqn:H3; [|discriminate].
    destruct (num2 s3) as [[s4 mi]|] eqn:H4; [|discriminate].
    destruct (num2 s4) as [[s5 se]|] eqn:H5; [|discriminate]. destruct s5; [|discriminate].
    destruct (from_ymd_opt y m d) as [dd|] eqn:H7; [|discriminate]. intros H8.
    apply num2_iff in H3, H4, H5. apply the_day_iff in H7.
    apply hms_iff in H8; [|now apply reads_number_nonneg in H3|now apply reads_number_nonneg in H4|now apply reads_number_nonneg in H5]. destruct H8 as [<- Ht].
    assert (s1 = 84 :: s2) as ->.
    { unfold lit_char in H2. destruct s1 as [|x s1]; [congruence|]. destruct (Z.eqb_spec x 84); congruence. }
    exists y, m, d, h, mi, se, s2, s3, s4. split; [apply ymd_iff; [apply H7|auto]|]. auto.
  - intros (y & m & d & h & mi & se & r & r1 & r2 & H1 & H2 & H3 & H4 & D & T).
    apply ymd_iff in H1; [|apply D]. rewrite H1. cbn [lit_char]. change (84 =? 84) with true. cbv iota.
    pose proof (reads_number_nonneg _ _ _ _ H2). pose proof (reads_number_nonneg _ _ _ _ H3). pose proof (reads_number_nonneg _ _ _ _ H4).
    apply num2_iff in H2, H3, H4. rewrite H2, H3, H4. apply the_day_iff in D. rewrite D. apply hms_iff; auto.
Qed.
(** With a final text [suf] after the seconds. *)
Lemma no_digit_app r suf : no_digit_next suf -> (no_digit_next (r ++ suf) <-> no_digit_next r).
Proof. destruct r as [|c r]; cbn; tauto. Qed.
Lemma number_suf k s n r suf : no_digit_next suf -> reads_number k s n (r ++ suf) <-> exists s', s = s' ++ suf /\ reads_number k s' n r.
Proof.
  intros N. unfold reads_number. split.
  - intros (w & ds & -> & B & M & D & V & L). exists (w ++ ds ++ r). rewrite <- !app_assoc. split; auto. exists w, ds. rewrite no_digit_app in L by auto. auto 10.
  - intros (s' & -> & w & ds & -> & B & M & D & V & L). exists w, ds. rewrite <- !app_assoc. rewrite no_digit_app by auto. auto 10.
Qed.
Lemma year_suf s n r suf : no_digit_next suf -> reads_year s n (r ++ suf) <-> exists s', s = s' ++ suf /\ reads_year s' n r.
Proof.
  intros N. unfold reads_year. rewrite number_suf by auto. split.
  - intros [(s' & E & H)|(neg & w & ds & -> & B & M & D & V & L)]; [eauto|]. exists (w ++ [if neg then 45 else 43] ++ ds ++ r). rewrite <- !app_assoc. split; auto.
    right. exists neg, w, ds. rewrite no_digit_app in L by auto. auto 10.
  - intros (s' & -> & [H|(neg & w & ds & -> & B & M & D & V & L)]); [eauto|]. right. exists neg, w, ds. rewrite <- !app_assoc. rewrite no_digit_app by auto. auto 10.
Qed.
Lemma ymd_suf s y m d r suf : no_digit_next suf -> reads_ymd s y m d (r ++ suf) <-> exists s', s = s' ++ suf /\ reads_ymd s' y m d r.
Proof.
  intros N. unfold reads_ymd. split.
  - intros (r1 & r2 & H1 & H2 & H3). apply number_suf in H3 as (r2' & -> & H3); auto. apply number_suf in H2 as (r1' & -> & H2); auto.
    apply year_suf in H1 as (s' & -> & H1); auto. eauto 10.
  - intros (s' & -> & r1 & r2 & H1 & H2 & H3). exists (r1 ++ suf), (r2 ++ suf). split; [apply year_suf; eauto|]. split; apply number_suf; eauto.
Qed.
Lemma wall_suf_iff suf s n : no_digit_next suf -> ndt_parse suf s = Some n <-> exists x, s = x ++ suf /\ reads_wall x n.
Proof.
  intros N. unfold ndt_parse, reads_wall. split.
  - destruct (scan_ymd s) as [[s1 [[y m] d]]|] eqn:H1; [|discriminate].
    destruct (lit_char 84 s1) as [s2|] eqn:H2; [|discriminate].
    destruct (num2 s2) as [[s3 h]|] eqn:H3; [|discriminate].
    destruct (num2 s3) as [[s4 mi]|] eqn:H4; [|discriminate].
    destruct (num2 s4) as [[s5 se]|] eqn:H5; [|discriminate].
    destruct (strip_prefix suf s5) as [rest|] eqn:H6; [|discriminate]. apply strip_prefix_Some in H6. destruct rest; [|discriminate]. rewrite app_nil_r in H6. subst s5.
    destruct (from_ymd_opt y m d) as [dd|] eqn:H7; [|discriminate]. intros H8.
    apply num2_iff in H3, H4, H5. apply the_day_iff in H7.
    apply hms_iff in H8; [|now apply reads_number_nonneg in H3|now apply reads_number_nonneg in H4|now apply reads_number_nonneg in H5]. destruct H8 as [<- Ht].
    assert (s1 = 84 :: s2) as ->.
    { unfold lit_char in H2. destruct s1 as [|x s1]; [congruence|]. destruct (Z.eqb_spec x 84); congruence. }
    apply (ymd_iff s y m d) in H1; [|apply H7]. apply (number_suf 2 s4 se [] suf N) in H5 as (s4' & -> & H5). apply number_suf in H4 as (s3' & -> & H4); auto.
    apply number_suf in H3 as (s2' & -> & H3); auto. apply (ymd_suf s y m d (84 :: s2') suf N) in H1 as (x & -> & H1). exists x. split; auto.
    exists y, m, d, h, mi, se, s2', s3', s4'. auto 10.
  - intros (x & -> & y & m & d & h & mi & se & r & r1 & r2 & H1 & H2 & H3 & H4 & D & T).
    pose proof (reads_number_nonneg _ _ _ _ H2). pose proof (reads_number_nonneg _ _ _ _ H3). pose proof (reads_number_nonneg _ _ _ _ H4).
    assert (G1 : reads_ymd (x ++ suf) y m d (84 :: r ++ suf)) by (apply (ymd_suf _ y m d (84 :: r) suf N); eauto).
    assert (G2 : reads_number 2 (r ++ suf) h (r1 ++ suf)) by (apply number_suf; eauto).
    assert (G3 : reads_number 2 (r1 ++ suf) mi (r2 ++ suf)) by (apply number_suf; eauto).
    assert (G4 : reads_number 2 (r2 ++ suf) se suf) by (apply (number_suf 2 _ se [] suf N); eauto).
    apply ymd_iff in G1; [|apply D]. rewrite G1. cbn [lit_char]. change (84 =? 84) with true. cbv iota.
    apply num2_iff in G2, G3, G4. rewrite G2, G3, G4. rewrite <- (app_nil_r suf) at 2. rewrite strip_prefix_app. apply the_day_iff in D. rewrite D. apply hms_iff; auto.
Qed.
Lemma wall_ends x n : reads_wall x n -> exists a c, x = a ++ [c] /\ 48 <= c <= 57.
Proof.
  intros (y & m & d & h & mi & se & r & r1 & r2 & H1 & H2 & H3 & H4 & _).
  assert (K : forall k s v rest, reads_number k s v rest -> exists p, s = p ++ rest) by (intros k s v rest (w & ds & -> & _); exists (w ++ ds); now rewrite <- app_assoc).
  assert (Y : exists p, x = p ++ 84 :: r).
  { destruct H1 as (q1 & q2 & [Q|(neg & w & ds & -> & _)] & Q2 & Q3).
    - apply K in Q as [p ->]. apply K in Q2 as [p2 ->]. apply K in Q3 as [p3 ->]. exists (p ++ p2 ++ p3). now rewrite <- !app_assoc.
    - apply K in Q2 as [p2 ->]. apply K in Q3 as [p3 ->]. exists (w ++ [if neg then 45 else 43] ++ ds ++ p2 ++ p3). now rewrite <- !app_assoc. }
  destruct Y as [p ->]. apply K in H2 as [p2 ->]. apply K in H3 as [p3 ->]. destruct H4 as (w & ds & -> & _ & N & D & _). rewrite app_nil_r.
  destruct (exists_last N) as (ds' & c & ->). apply Forall_app in D as [_ D]. apply Forall_inv in D.
  exists (p ++ 84 :: p2 ++ p3 ++ w ++ ds'), c. split; auto. rewrite <- !app_assoc. cbn. rewrite <- !app_assoc. reflexivity.
Qed.
Lemma zulu_split s : exists zs, s = trim_end_char 90 s ++ zs /\ Forall (fun c => c = 90) zs /\ (ends_with_char 90 s = true <-> zs <> []).
Proof.
  unfold trim_end_char, ends_with_char. destruct (drop_while_split (fun x => x =? 90) (rev s)) as (w & Ew & Hw).
  exists (rev w). split; [rewrite <- rev_app_distr, <- Ew; symmetry; apply rev_involutive|].
  split; [apply Forall_rev; eapply Forall_impl; [|exact Hw]; cbn; intros c Hc; now apply Z.eqb_eq|].
  destruct w as [|c w].
  - cbn [rev]. split; [|congruence]. cbn [app] in Ew. destruct (rev s) as [|c r] eqn:E; [discriminate|]. intros C. cbn [drop_while] in Ew. rewrite C in Ew.
    apply (f_equal (@length Z)) in Ew. cbn [length] in Ew. clear - Ew.
    assert (L : forall l, (length (drop_while (fun x => Z.eqb x 90) l) <= length l)%nat) by (induction l as [|a l IH]; cbn; [lia|destruct (a =? 90); cbn; lia]).
    specialize (L r). lia.
  - split; [intros _; cbn; intros K; apply app_eq_nil in K as [_ K]; discriminate|]. intros _. rewrite Ew. cbn [app]. now apply Forall_inv in Hw.
Qed.
Lemma trim_zulu a c zs : 48 <= c <= 57 -> Forall (fun c => c = 90) zs ->
  trim_end_char 90 ((a ++ [c]) ++ zs) = a ++ [c] /\ (ends_with_char 90 ((a ++ [c]) ++ zs) = true <-> zs <> []).
Proof.
  intros C F. unfold trim_end_char, ends_with_char. rewrite rev_app_distr. apply Forall_rev in F.
  assert (N : c =? 90 = false) by lia.
  assert (T : drop_while (fun x => x =? 90) (rev zs ++ rev (a ++ [c])) = rev (a ++ [c])).
  { induction F as [|z l Hz F IH]; cbn [app drop_while]; [|subst z; exact IH]. rewrite rev_app_distr. cbn [rev app drop_while]. now rewrite N. }
  rewrite T, rev_involutive. split; auto.
  rewrite <- (rev_involutive zs). destruct (rev zs) as [|z l]; cbn [app].
  - rewrite rev_app_distr. cbn [rev app]. rewrite N. split; [discriminate|congruence].
  - apply Forall_inv in F. subst z. split; [|intros _; rewrite rev_involutive; reflexivity]. intros _ K. cbn in K. apply app_eq_nil in K as [_ K]. discriminate.
Qed.
Lemma p_datetime_iff s t : p_date_time s = POk [] t <-> reads_datetime s t.
Proof.
  unfold p_date_time, reads_datetime, zulu. split.
  - destruct (ndt_parse [] (trim_end_char 90 s)) as [n|] eqn:P; [|discriminate]. apply wall_iff in P. intros H. inv H.
    destruct (zulu_split s) as (zs & E & F & M). destruct (ends_with_char 90 s) eqn:W.
    + exists (trim_end_char 90 s). split; auto. exists zs. split; auto. split; auto. now apply M.
    + destruct zs as [|z zs]; [rewrite app_nil_r in E; congruence|]. exfalso. assert (false = true) by (apply M; discriminate). discriminate.
  - destruct t as [n|u].
    + intros W. destruct (wall_ends s n W) as (a & c & -> & C). destruct (trim_zulu a c [] C (Forall_nil _)) as [T M]. rewrite app_nil_r in T, M.
      rewrite T. apply wall_iff in W. rewrite W. destruct (ends_with_char 90 _); auto. exfalso. now apply M.
    + intros (x & (zs & -> & Nz & F) & W). destruct (wall_ends x u W) as (a & c & -> & C). destruct (trim_zulu a c zs C F) as [T M].
      rewrite T. apply wall_iff in W. rewrite W. apply M in Nz. now rewrite Nz.
Qed.
Lemma datetime_iff s t : read_datetime s = Ok t <-> reads_datetime s t.
Proof.
  rewrite <- p_datetime_iff. unfold read_datetime, p_date_time. destruct (ndt_parse _ _); cbn [pfinish]; split; congruence.
Qed.
Lemma wall_not_day x zs u : Forall (fun c => c = 90) zs -> reads_wall x u -> date_parse (x ++ zs) = None.
Proof.
  intros F W. assert (N : no_digit_next zs) by (destruct F; cbn; [exact I|lia]).
  destruct W as (y & m & d & h & mi & se & r & r1 & r2 & H1 & _ & _ & _ & D & _).
  assert (G1 : reads_ymd (x ++ zs) y m d (84 :: r ++ zs)) by (apply (ymd_suf _ y m d (84 :: r) zs N); eauto).
  apply ymd_iff in G1; [|apply D]. unfold date_parse. now rewrite G1.
Qed.
Lemma datetime_not_day s t : reads_datetime s t -> date_parse s = None.
Proof.
  destruct t as [n|u]; cbn.
  - intros W. rewrite <- (app_nil_r s). eapply wall_not_day; eauto.
  - intros (x & (zs & -> & _ & F) & W). eapply wall_not_day; eauto.
Qed.
Lemma date_iff s d : read_date s = Ok d <-> reads_date s d.
Proof.
  unfold read_date, p_date_or_dt, palt, pmap, pbind, p_date, reads_date. destruct d as [n|t].
  - rewrite <- day_iff. destruct (date_parse s) as [n'|]; cbn [pfinish pret]; [split; congruence|].
    split; [|discriminate]. unfold p_date_time. destruct (ndt_parse _ _); cbn; discriminate.
  - rewrite <- datetime_iff. unfold read_datetime. destruct (date_parse s) as [n'|] eqn:D; cbn [pfinish pret].
    + split; [discriminate|]. intros H. apply (datetime_iff s t) in H. apply datetime_not_day in H. congruence.
    + destruct (p_date_time s); cbn; split; congruence.
Qed.
(** C20: exactly which texts a property holding a date or a date-time accepts, and with which value. *)
Theorem C20_exact : forall c : content_line,
  (forall d, parse_date c = Ok d <-> reads_date (cl_value c) d) /\ (forall t, parse_datetime c = Ok t <-> reads_datetime (cl_value c) t) /\
  parse_date c <> Panic /\ parse_datetime c <> Panic.
Proof.
  intros c. split; [intros d; apply date_iff|]. split; [intros t; apply datetime_iff|].
  unfold parse_date, parse_datetime, p_date_or_dt, palt, pmap, pbind, p_date, p_date_time. split.
  - destruct (date_parse _); cbn; [discriminate|]. destruct (ndt_parse _ _); discriminate.
  - destruct (ndt_parse _ _); discriminate.
Qed.
(** C20: and [FromStr]: one Z at most, and the time before it is one of the local zone. *)
Theorem C20_from_str_exact : forall (E : Env) (s : str),
  (forall t, datetime_of_str s = Ok t <->
     match t with
     | Naive n => reads_wall s n
     | Local u => exists x n o, s = x ++ [90] /\ reads_wall x n /\ tz_local (seconds n) = MSingle o /\ u = ndt_shift n (- o)
     end) /\
  (datetime_of_str s = Panic <-> exists x n, s = x ++ [90] /\ reads_wall x n /\ forall o, tz_local (seconds n) <> MSingle o) /\
  (forall n, date_of_str s = Ok (DDate n) <-> reads_day s n) /\
  (forall t, date_of_str s = Ok (DDateTime t) <-> datetime_of_str s = Ok t) /\
  (date_of_str s = Panic <-> datetime_of_str s = Panic).
Proof.
  intros E s. assert (N90 : no_digit_next [90]) by (cbn; lia). assert (F90 : Forall (fun c => c = 90) [90]) by (repeat constructor).
  assert (Z1 : forall x n, reads_wall x n -> ndt_parse [] (x ++ [90]) = None).
  { intros x n W. destruct (ndt_parse [] (x ++ [90])) as [n'|] eqn:P; auto. apply wall_iff in P. apply wall_ends in P as (a & c & P & C).
    apply app_inj_tail in P as [_ P]. lia. }
  assert (Dn : datetime_of_str s <> Err EDate -> date_parse s = None).
  { unfold datetime_of_str. destruct (ndt_parse [] s) as [n|] eqn:P; [intros _; apply wall_iff in P; rewrite <- (app_nil_r s); eapply wall_not_day; eauto|].
    destruct (ndt_parse (lit "Z") s) as [n|] eqn:Q; [intros _|congruence]. apply (wall_suf_iff [90] s n N90) in Q as (x & -> & W). eapply wall_not_day; eauto. }
  split; [|split; [|split; [|split]]].
  - intros t. unfold datetime_of_str. split.
    + destruct (ndt_parse [] s) as [n|] eqn:P; [intros H; inv H; now apply wall_iff|]. destruct (ndt_parse (lit "Z") s) as [n|] eqn:Q; [|discriminate].
      apply (wall_suf_iff [90] s n N90) in Q as (x & -> & W). unfold from_local. change (ndt_ts n) with (seconds n).
      destruct (tz_local (seconds n)) as [|o|o o'] eqn:T; cbn; intros H; inv H. exists x, n, o. auto.
    + destruct t as [n|u]; [intros W; apply wall_iff in W; now rewrite W|]. intros (x & n & o & -> & W & T & ->). rewrite (Z1 x n W).
      replace (ndt_parse (lit "Z") (x ++ [90])) with (Some n) by (symmetry; apply (wall_suf_iff [90]); eauto).
      unfold from_local. change (ndt_ts n) with (seconds n). rewrite T. reflexivity.
  - unfold datetime_of_str. split.
    + destruct (ndt_parse [] s) as [n|] eqn:P; [discriminate|]. destruct (ndt_parse (lit "Z") s) as [n|] eqn:Q; [|discriminate].
      apply (wall_suf_iff [90] s n N90) in Q as (x & -> & W). unfold from_local. change (ndt_ts n) with (seconds n).
      destruct (tz_local (seconds n)) as [|o|o o'] eqn:T; cbn; intros H; try discriminate; exists x, n; (split; [reflexivity|split; [exact W|]]); intros; congruence.
    + intros (x & n & -> & W & T). rewrite (Z1 x n W).
      replace (ndt_parse (lit "Z") (x ++ [90])) with (Some n) by (symmetry; apply (wall_suf_iff [90]); eauto).
      unfold from_local. change (ndt_ts n) with (seconds n). destruct (tz_local (seconds n)) as [|o|o o'] eqn:T'; cbn; auto. exfalso. now apply (T o).
  - intros n. rewrite <- day_iff. unfold date_of_str. destruct (date_parse s); [split; congruence|]. split; [|discriminate]. destruct (datetime_of_str s); discriminate.
  - intros t. unfold date_of_str. split.
    + destruct (date_parse s); [discriminate|]. destruct (datetime_of_str s); cbn; congruence.
    + intros H. rewrite Dn by congruence. now rewrite H.
  - unfold date_of_str. split.
    + destruct (date_parse s); [discriminate|]. destruct (datetime_of_str s); cbn; congruence.
    + intros H. rewrite Dn by congruence. now rewrite H.
Qed.
Example C20_exact_nonvacuous : reads_date (lit " 2024 02 29") (DDate 19782) /\ reads_datetime (lit "20240229T235960ZZ") (Local (mk_ndt 19782 86399 1000000000)) /\
  @datetime_of_str env_east (lit "20240229T235960ZZ") = Err EDate.
Proof.
  split; [apply date_iff; vm_compute; reflexivity|]. split; [apply datetime_iff; vm_compute; reflexivity|]. vm_compute. reflexivity.
Qed.

(** ** C29: BYDAY entries *)
Lemma nom_i8_iff s r n : nom_i8 s = POk r n <-> exists o, s = o ++ r /\ ordinal_text o n /\ -128 <= n <= 127 /\ no_digit_next r.
Proof.
  assert (W : forall x, take_while is_digit x = let (a, b) := span is_digit x in POk b a) by reflexivity.
  split.
  - unfold nom_i8. intros H. apply pbind_POk in H as (r1 & sg & P & H). apply pbind_POk in H as (r2 & ds & Q & H).
    apply take_while_POk in Q as (-> & D & St). assert (D' : digit_string ds) by (apply Forall_forall; intros c Hc; apply is_digit_iff; auto).
    assert (N : no_digit_next r2) by (destruct r2; [exact I|apply no_digit_head; exact St]).
    assert (S1 : s = match sg with Some false => [45] | Some true => [43] | None => [] end ++ ds ++ r2).
    { unfold popt, palt, pmap, pbind in P. destruct (tag [45] s) as [r' a| |] eqn:T; cbn [pret] in P.
      - apply tag_POk in T as [-> _]. inv P. reflexivity.
      - destruct (tag [43] s) as [r' a| |] eqn:T'; cbn [pret] in P; [apply tag_POk in T' as [-> _]; inv P; reflexivity|inv P; reflexivity|discriminate].
      - discriminate. }
    pose proof (value_nonneg ds D') as Vn. rewrite <- value_of_digits in H. unfold I8MAX in H. destruct ds as [|c ds]; [discriminate|].
    destruct sg as [[|]|].
    + destruct (Z.leb_spec (value_of (c :: ds)) 127); [|discriminate]. inv H. exists (43 :: c :: ds). split; [reflexivity|]. split; [|split; [lia|auto]].
      exists (c :: ds). split; [discriminate|]. auto.
    + destruct (Z.leb_spec (value_of (c :: ds)) (127 + 1)); [|discriminate]. inv H. exists (45 :: c :: ds). split; [reflexivity|]. split; [|split; [lia|auto]].
      exists (c :: ds). split; [discriminate|]. auto.
    + destruct (Z.leb_spec (value_of (c :: ds)) 127); [|discriminate]. inv H. exists (c :: ds). split; [reflexivity|]. split; [|split; [lia|auto]].
      exists (c :: ds). split; [discriminate|]. auto.
  - intros (o & -> & (ds & Nn & D & H) & B & N).
    assert (T : take_while is_digit (ds ++ r) = POk r ds).
    { apply take_while_app; [now apply digit_string_of|]. destruct r; [exact I|apply no_digit_head in N; exact N]. }
    assert (X : forall c, ~ 48 <= c <= 57 -> tag [c] (ds ++ r) = PErr).
    { intros c Hc. apply tag_PErr. intros r' E. destruct ds as [|x l]; [congruence|]. apply Forall_inv in D. cbn in E. inv E. lia. }
    unfold nom_i8, pbind at 1, popt at 1, palt at 1, pmap, pbind, pret.
    destruct H as [[-> ->]|[[-> ->]|[-> ->]]].
    + rewrite !X by lia. rewrite T. rewrite value_of_digits in *. destruct ds; [congruence|]. unfold I8MAX. destruct (Z.leb_spec (digits_val (z :: ds)) 127); [reflexivity|lia].
    + change ((43 :: ds) ++ r) with ([43] ++ ds ++ r). replace (tag [45] ([43] ++ ds ++ r)) with (@PErr str) by (symmetry; apply tag_PErr; discriminate).
      rewrite tag_app, T. rewrite value_of_digits in *. destruct ds; [congruence|]. unfold I8MAX. destruct (Z.leb_spec (digits_val (z :: ds)) 127); [reflexivity|lia].
    + change ((45 :: ds) ++ r) with ([45] ++ ds ++ r). rewrite tag_app, T. rewrite value_of_digits in *. destruct ds; [congruence|]. unfold I8MAX. destruct (Z.leb_spec (digits_val (z :: ds)) (127 + 1)); [reflexivity|lia].
Qed.
Lemma p_weekday_iff s r w : p_weekday s = POk r w <-> exists n, In (w, n) weekday_names /\ s = n ++ r.
Proof.
  unfold p_weekday, pmap_res, pbind, anychar. destruct s as [|a [|b s]]; cbn [pret].
  - split; [discriminate|]. intros (n & H & E). cbn in H. repeat (destruct H as [H|H]; [inv H; discriminate|]). destruct H.
  - split; [discriminate|]. intros (n & H & E). cbn in H. repeat (destruct H as [H|H]; [inv H; discriminate|]). destruct H.
  - split.
    + destruct (weekday_of a b) as [x| |] eqn:E; try discriminate. intros H. inv H. apply weekday_of_table in E. exists [a; b]. auto.
    + intros (n & H & E). assert (L : exists x y, n = [x; y]) by (cbn in H; repeat (destruct H as [H|H]; [inv H; eexists; eexists; reflexivity|]); destruct H).
      destruct L as (x & y & ->). cbn in E. inv E. apply weekday_of_table in H. now rewrite H.
Qed.
Theorem C29_exact : forall s,
  (forall w, wdn_of_str s = Ok w <-> exists o n rest, s = o ++ n ++ rest /\ In (wn_weekday w, n) weekday_names /\
     match wn_ord w with None => o = [] | Some k => ordinal_text o k /\ -128 <= k <= 127 end) /\
  wdn_of_str s <> Panic.
Proof.
  intros s.
  assert (Nd : forall w n r, In (w, n) weekday_names -> no_digit_next (n ++ r) /\ nom_i8 (n ++ r) = PErr).
  { intros w n r H. assert (Nx : no_digit_next (n ++ r)) by (cbn in H; repeat (destruct H as [H|H]; [inv H; cbn; lia|]); destruct H). split; auto.
    destruct (nom_i8 (n ++ r)) as [r' v| |] eqn:P; auto.
    - apply nom_i8_iff in P as (o & E & (ds & Nn & D & O) & _). destruct ds as [|c ds]; [congruence|]. apply Forall_inv in D.
      destruct O as [[-> _]|[[-> _]|[-> _]]]; cbn in E, H; repeat (destruct H as [H|H]; [inv H; cbn in E; inv E; lia|]); destruct H.
    - exfalso. now apply calm_nom_i8 in P. }
  split.
  - intros [w k]. cbn [wn_weekday wn_ord]. unfold wdn_of_str, p_weekdaynum. split.
    + intros H. destruct (pbind _ _ s) as [r x| |] eqn:P; cbn [pfinish] in H; inv H. apply pbind_POk in P as (r1 & o & O & P). apply pbind_POk in P as (r2 & w' & Q & P).
      cbv [pret] in P. inv P. apply p_weekday_iff in Q as (n & Hn & ->). unfold popt in O. destruct (nom_i8 s) as [r' v| |] eqn:I8; inv O.
      * apply nom_i8_iff in I8 as (o & -> & A & B & _). exists o, n, r. auto.
      * exists [], n, r. auto.
    + intros (o & n & rest & -> & Hn & K). destruct (Nd _ _ rest Hn) as [N1 N2]. unfold pbind, popt.
      assert (Q : p_weekday (n ++ rest) = POk rest w) by (apply p_weekday_iff; eauto).
      destruct k as [k|].
      * destruct K as [K B]. replace (nom_i8 (o ++ n ++ rest)) with (POk (n ++ rest) k) by (symmetry; apply nom_i8_iff; eauto). rewrite Q. reflexivity.
      * subst o. cbn [app]. rewrite N2, Q. reflexivity.
  - unfold wdn_of_str. intros H. apply pfinish_panic in H. revert H. unfold p_weekdaynum. apply calm_bind; [|intros o].
    + intros x. unfold popt. pose proof (nom_i8_iff x). destruct (nom_i8 x) as [r v| |] eqn:P; try discriminate.
      exfalso. now apply calm_nom_i8 in P.
    + apply calm_bind; [|intros w; apply calm_ret]. intros x. unfold p_weekday, pmap_res, pbind, anychar. destruct x as [|a [|b x]]; cbn; try discriminate. unfold weekday_of.
      repeat match goal with |- context [if str_eqb ?s ?t then _ else _] => destruct (str_eqb s t) end; discriminate.
Qed.
Example C29_exact_nonvacuous : wdn_of_str (lit "+2MOON") = Ok (mk_wdn Monday (Some 2)) /\ ordinal_text (lit "+2") 2 /\ wdn_of_str (lit "-129MO") = Err EParser.
Proof. split; [reflexivity|]. split; [|reflexivity]. exists [50]. split; [discriminate|]. split; [repeat constructor; cbn; lia|]. auto. Qed.

(** ** C30: UTC offsets *)
Lemma two_digits_iff s r a b : two_digits s = Some (r, a, b) <-> exists x y, s = x :: y :: r /\ 48 <= x <= 57 /\ 48 <= y <= 57 /\ a = x - 48 /\ b = y - 48.
Proof.
  unfold two_digits. destruct s as [|x [|y s]]; try (split; [discriminate|]; intros (x' & y' & E & _); discriminate).
  destruct (is_digit x) eqn:X, (is_digit y) eqn:Y; cbn [andb]; split; try discriminate.
  - intros H. inv H. apply is_digit_iff in X, Y. eauto 10.
  - intros (x' & y' & E & _ & _ & -> & ->). inv E. reflexivity.
  - intros (x' & y' & E & H1 & H2 & _). inv E. apply is_digit_iff in H2. congruence.
  - intros (x' & y' & E & H1 & H2 & _). inv E. apply is_digit_iff in H1. congruence.
  - intros (x' & y' & E & H1 & H2 & _). inv E. apply is_digit_iff in H1. congruence.
Qed.
Lemma two_text ds : length ds = 2%nat -> digit_string ds -> exists x y, ds = [x; y] /\ 48 <= x <= 57 /\ 48 <= y <= 57 /\ value_of ds = (x - 48) * 10 + (y - 48).
Proof.
  intros L D. destruct ds as [|x [|y [|z ds]]]; try discriminate. inv D. inv H2. exists x, y. split; auto. split; auto. split; auto.
  unfold value_of. cbn [rev app value_rev]. lia.
Qed.
Theorem C30_exact : forall c : content_line, (forall o, parse_offset c = Ok o <-> reads_offset (cl_value c) o) /\ parse_offset c <> Panic.
Proof.
  intros c. split; [|unfold parse_offset; destruct (offset_parse _); discriminate]. intros o. unfold parse_offset. set (s := cl_value c).
  assert (G : offset_parse s = Some o <-> reads_offset s o); [|rewrite <- G; destruct (offset_parse s); split; congruence].
  unfold offset_parse, reads_offset. split.
  - destruct s as [|sg s']; [discriminate|]. destruct ((sg =? 43) || (sg =? 45) || (sg =? 8722)) eqn:Sg; [|discriminate].
    destruct (two_digits s') as [[[r1 h1] h2]|] eqn:T1; [|discriminate]. apply two_digits_iff in T1 as (x & y & -> & Hx & Hy & -> & ->).
    destruct (drop_while_split (fun c => (c =? 58) || is_whitespace c) r1) as (w & Ew & Hw). remember (drop_while (fun c => (c =? 58) || is_whitespace c) r1) as r2 eqn:Er2. clear Er2.
    destruct (two_digits r2) as [[[r3 m1] m2]|] eqn:T2; [|discriminate]. apply two_digits_iff in T2 as (u & v & E2 & Hu & Hv & -> & ->).
    destruct (Z.leb_spec (u - 48) 5); [|discriminate]. destruct ((_ <? _) && (_ <? _)) eqn:B; [|discriminate]. apply andb_true_iff in B as [B1 B2]. apply Z.ltb_lt in B1, B2. intros H'. inv H'.
    exists sg, [x; y], w, [u; v], r3. split; [reflexivity|]. split; [cbn; lia|]. split; [reflexivity|].
    split; [repeat constructor; cbn; lia|]. split; [eapply Forall_impl; [|exact Hw]; cbn; intros a Ha; apply orb_true_iff in Ha as [Ha|Ha]; [left; lia|auto]|].
    split; [reflexivity|]. split; [repeat constructor; cbn; lia|].
    unfold value_of, signed. cbn [rev app value_rev]. split; [lia|]. destruct (sg =? 43); cbn [negb]; split; lia.
  - intros (sg & h & sep & m & rest & -> & Sg & Lh & Dh & Hsep & Lm & Dm & Bm & Bh & ->).
    destruct (two_text h Lh Dh) as (x & y & -> & Hx & Hy & Vh). destruct (two_text m Lm Dm) as (u & v & -> & Hu & Hv & Vm).
    assert (Sg' : (sg =? 43) || (sg =? 45) || (sg =? 8722) = true) by (cbn in Sg; lia). rewrite Sg'.
    cbn [app]. replace (two_digits (x :: y :: sep ++ u :: v :: rest)) with (Some (sep ++ u :: v :: rest, x - 48, y - 48)) by (symmetry; apply two_digits_iff; eauto 10).
    replace (drop_while (fun c => (c =? 58) || is_whitespace c) (sep ++ u :: v :: rest)) with (u :: v :: rest).
    2:{ clear - Hsep Hu. induction Hsep as [|a l Ha F IH]; cbn [app drop_while].
        - replace (is_whitespace u) with false by (symmetry; apply digit_not_ws; now apply is_digit_iff). destruct (Z.eqb_spec u 58); [lia|]. reflexivity.
        - replace ((a =? 58) || is_whitespace a) with true by (symmetry; apply orb_true_iff; destruct Ha; [left; lia|auto]). exact IH. }
    replace (two_digits (u :: v :: rest)) with (Some (rest, u - 48, v - 48)) by (symmetry; apply two_digits_iff; eauto 10).
    rewrite Vm in *. rewrite Vh in *. destruct (Z.leb_spec (u - 48) 5); [|lia]. unfold signed.
    destruct (sg =? 43); cbn [negb]; match goal with |- (if ?b then _ else _) = _ => replace b with true by lia end; reflexivity.
Qed.
Example C30_exact_nonvacuous : reads_offset (lit "-05: 30 or so") (-19800) /\ parse_offset (cl_of_str (lit "+2400")) = Err EDate.
Proof. split; [|reflexivity]. pose proof (C30_exact (cl_of_str (lit "-05: 30 or so"))) as [H _]. apply H. reflexivity. Qed.

(** ** Durations of properties *)
Definition reads_duration (s : str) (v : tdelta) : Prop :=
  exists neg w d t txt, longest_duration_prefix neg w d t txt s /\ seconds_of w d t * sec <= longest /\ v = signed neg (seconds_of w d t * sec).
Lemma duration_iff c v : parse_dur c = Ok v <-> reads_duration (cl_value c) v.
Proof.
  destruct (C24_any_text c) as (A & B & C). split.
  - intros H. assert (X : exists x, cl_value c = [80] ++ x \/ cl_value c = [45; 80] ++ x).
    { destruct (cl_value c) as [|a l] eqn:V; [|destruct (Z.eqb_spec a 80) as [->|N1]; [exists l; auto|destruct (Z.eqb_spec a 45) as [->|N2]; [destruct l as [|b l]; [|destruct (Z.eqb_spec b 80) as [->|N3]; [exists l; auto|]]|]]];
        exfalso; destruct C as [e C]; try congruence; intros x; split; intros K; cbn in K; congruence. }
    destruct X as [x X]. destruct (B x X) as (neg & w & d & t & txt & P). destruct (A _ _ _ _ _ P) as [P1 P2]. exists neg, w, d, t, txt. split; auto.
    destruct (Z.le_gt_cases (seconds_of w d t * sec) longest) as [L|L]; [|rewrite P2 in H by lia; discriminate]. rewrite P1 in H by auto. inv H. auto.
  - intros (neg & w & d & t & txt & P & L & ->). destruct (A _ _ _ _ _ P) as [P1 _]. auto.
Qed.
Lemma duration_head s v : reads_duration s v -> exists x, s = 80 :: x \/ s = 45 :: 80 :: x.
Proof.
  intros (neg & w & d & t & txt & [(T & _ & rest & ->) _] & _). destruct T as (sw & sd & st & -> & _). exists (sw ++ sd ++ st ++ rest).
  destruct neg; [right|left]; cbn; rewrite <- !app_assoc; reflexivity.
Qed.
Lemma datetime_head s t : reads_datetime s t -> forall x, s <> 80 :: x /\ s <> 45 :: 80 :: x.
Proof.
  assert (W : forall y n, reads_wall y n -> forall x, y <> 80 :: x /\ y <> 45 :: 80 :: x).
  { intros y n (yy & m & d & h & mi & se & r & r1 & r2 & (q1 & q2 & Y & _) & _) x.
    assert (K : forall a l w ds rest, a :: l = w ++ ds ++ rest -> is_whitespace a = false -> blank w -> ds <> [] -> digit_string ds -> 48 <= a <= 57).
    { intros a l w ds rest E Wa B N D. destruct w as [|b w]; [|inv B; cbn in E; inv E; congruence]. destruct ds as [|b ds]; [congruence|]. apply Forall_inv in D. cbn in E. inv E. auto. }
    destruct Y as [(w & ds & -> & B & N & D & _)|(neg & w & ds & -> & B & N & D & _)]; split; intros E.
    - symmetry in E. apply K in E; auto. lia.
    - symmetry in E. apply K in E; auto. lia.
    - destruct w as [|b w]; [|inv B; cbn in E; inv E; discriminate]. destruct neg; cbn in E; discriminate.
    - destruct w as [|b w]; [|inv B; cbn in E; inv E; discriminate]. destruct neg; cbn in E; [|discriminate]. destruct ds as [|b ds]; [congruence|]. apply Forall_inv in D. inv E. lia. }
  destruct t as [n|u]; cbn; intros H x; [eapply W; eauto|]. destruct H as (y & (zs & -> & _ & F) & H). pose proof (W y u H) as Q.
  apply wall_ends in H as (a & c & -> & C). split; intros E.
  - destruct a as [|b a]; cbn in E; inv E; [lia|]. eapply (proj1 (Q (a ++ [c]))). reflexivity.
  - destruct a as [|b [|b' a]]; cbn in E; inv E; [lia|lia|]. eapply (proj2 (Q (a ++ [c]))). reflexivity.
Qed.

(** ** C31, C34: periods and lists *)
(** A date-time, '/', and a duration that begins with P, or a date-time. *)
Definition reads_period (s : str) (p : period) : Prop :=
  exists a b, s = a ++ [47] ++ b /\ ~ In 47 a /\
    match p with
    | StartEnd t e => reads_datetime a t /\ reads_datetime b e
    | StartDur t d => reads_datetime a t /\ (exists x, b = 80 :: x) /\ reads_duration b d
    end.
Lemma period_iff s p : parse_period s = Ok p <-> reads_period s p.
Proof.
  unfold parse_period, reads_period. split.
  - destruct (splitn2 47 s) as [a o] eqn:Sp. destruct (pfinish (p_date_time a)) as [t| |] eqn:D; cbn [obind]; try discriminate. apply datetime_iff in D.
    destruct o as [b|]; [|discriminate]. apply splitn2_some in Sp as [-> Ha]. destruct (starts_with (lit "P") b) eqn:B.
    + apply begins_starts in B as [y ->]. destruct (pfinish (p_duration (lit "P" ++ y))) as [z| |] eqn:Q; cbn [obind]; try discriminate.
      intros H. inv H. exists a, (lit "P" ++ y). split; [reflexivity|]. split; auto. split; auto. split; [exists y; reflexivity|]. now apply (duration_iff (cl_of_str (lit "P" ++ y))).
    + destruct (pfinish (p_date_time b)) as [y|e|] eqn:Q; cbn [obind]; try discriminate. intros H. inv H. exists a, b. split; [reflexivity|]. split; auto. split; auto. now apply datetime_iff.
  - intros (a & b & -> & Ha & H). cbn [app]. rewrite splitn2_app by auto. destruct p as [t e|t d].
    + destruct H as [H1 H2]. apply datetime_iff in H1. unfold read_datetime in H1. rewrite H1. cbn [obind].
      destruct (starts_with (lit "P") b) eqn:B; [apply begins_starts in B as [y ->]; exfalso; destruct (datetime_head _ _ H2 y) as [K _]; apply K; reflexivity|].
      apply datetime_iff in H2. unfold read_datetime in H2. now rewrite H2.
    + destruct H as (H1 & (x & ->) & H2). apply datetime_iff in H1. unfold read_datetime in H1. rewrite H1. cbn [obind].
      change (starts_with (lit "P") (80 :: x)) with true. cbv iota. apply (duration_iff (cl_of_str (80 :: x))) in H2. unfold parse_dur in H2. cbn [cl_of_str cl_value] in H2. now rewrite H2.
Qed.
Lemma commas_iff {A} (f : str -> outcome A) (reads : str -> A -> Prop) s l : (forall p a, f p = Ok a <-> reads p a) ->
  ocollect f (split_on 44 s) = Ok l <-> commas_of reads s l.
Proof.
  intros H. rewrite (list_text_iff f reads s l H). unfold list_text, commas_of. split; intros (parts & A1 & A2 & A3); exists parts; tauto.
Qed.
Theorem C31_period_exact : forall s p, period_of_str s = Ok p <-> reads_period s p.
Proof. exact period_iff. Qed.
(** VALUE=PERIOD, and nothing else, makes an RDATE a list of periods. *)
Theorem C31_rdate_exact : forall (c : content_line) (r : rdate), parse_rdate c = Ok r <->
  match r with
  | RPeriods l => mget (lit "VALUE") (cl_params c) = Some (lit "PERIOD") /\ commas_of reads_period (cl_value c) l
  | RDates l => mget (lit "VALUE") (cl_params c) <> Some (lit "PERIOD") /\ commas_of reads_date (cl_value c) l
  end.
Proof.
  intros c r. unfold parse_rdate.
  assert (P : forall l, ocollect parse_period (split_on 44 (cl_value c)) = Ok l <-> commas_of reads_period (cl_value c) l) by (intros l; apply commas_iff, period_iff).
  assert (D : forall l, ocollect (fun x => pfinish (p_date_or_dt x)) (split_on 44 (cl_value c)) = Ok l <-> commas_of reads_date (cl_value c) l) by (intros l; apply commas_iff, date_iff).
  assert (Per : forall l, omap RPeriods (ocollect parse_period (split_on 44 (cl_value c))) = Ok (RPeriods l) <-> commas_of reads_period (cl_value c) l).
  { intros l. rewrite <- P. destruct (ocollect parse_period _); cbn; split; congruence. }
  assert (Dat : forall l, omap RDates (ocollect (fun x => pfinish (p_date_or_dt x)) (split_on 44 (cl_value c))) = Ok (RDates l) <-> commas_of reads_date (cl_value c) l).
  { intros l. rewrite <- D. destruct (ocollect (fun x => pfinish (p_date_or_dt x)) _); cbn; split; congruence. }
  assert (Per' : forall l, omap RPeriods (ocollect parse_period (split_on 44 (cl_value c))) <> Ok (RDates l)) by (intros l; destruct (ocollect parse_period (split_on 44 (cl_value c))); discriminate).
  assert (Dat' : forall l, omap RDates (ocollect (fun x => pfinish (p_date_or_dt x)) (split_on 44 (cl_value c))) <> Ok (RPeriods l)) by (intros l; destruct (ocollect (fun x => pfinish (p_date_or_dt x)) (split_on 44 (cl_value c))); discriminate).
  destruct (mget (lit "VALUE") (cl_params c)) as [v|] eqn:V; [destruct (str_eqb v (lit "PERIOD")) eqn:Q; [apply str_eqb_eq in Q; subst v|apply str_eqb_neq in Q]|].
  - destruct r as [l|l]; [|rewrite Per; tauto]. split; [intros H; now apply Per' in H|intros [H _]; congruence].
  - destruct r as [l|l]; [rewrite Dat; split; [intros H; split; auto; congruence|tauto]|]. split; [intros H; now apply Dat' in H|intros [H _]; congruence].
  - destruct r as [l|l]; [rewrite Dat; split; [intros H; split; auto; congruence|tauto]|]. split; [intros H; now apply Dat' in H|intros [H _]; congruence].
Qed.
Theorem C34_exact : forall c : content_line,
  (forall l, parse_exdate c = Ok l <-> commas_of reads_date (cl_value c) l) /\ parse_exdate c <> Panic /\
  (forall l, parse_freebusy c = Ok l <-> commas_of reads_period (cl_value c) l) /\
  (forall l, parse_texts c = Ok l <-> commas_of (fun s t => t_params t = [] /\ t_text t = s) (cl_value c) l).
Proof.
  intros c. split; [intros l; apply commas_iff, date_iff|]. split; [|split; [intros l; apply commas_iff, period_iff|]].
  - unfold parse_exdate. induction (split_on 44 (cl_value c)) as [|a l IH]; cbn [ocollect]; [discriminate|].
    destruct (C20_exact (cl_of_str a)) as (_ & _ & N & _). unfold parse_date in N. cbn [cl_of_str cl_value] in N.
    destruct (pfinish (p_date_or_dt a)); cbn [obind]; try congruence. destruct (ocollect _ l); cbn; congruence.
  - intros l. rewrite <- (commas_iff (fun s => Ok (text_of_str s)) (fun s t => t_params t = [] /\ t_text t = s)).
    + unfold parse_texts. assert (G : forall x, ocollect (fun s => Ok (text_of_str s)) x = Ok (map text_of_str x)) by (induction x as [|a x IH]; cbn; [reflexivity|now rewrite IH]). rewrite G. reflexivity.
    + intros p [ps t]. cbn. unfold text_of_str. split; [intros H; inv H; auto|intros [-> ->]; reflexivity].
Qed.

(** ** C33: triggers *)
Theorem C33_exact : forall c t, parse_trigger c = Ok t <->
  match t with TrDuration d => reads_duration (cl_value c) d | TrDateTime d => reads_datetime (cl_value c) d end.
Proof.
  intros c t. unfold parse_trigger, palt, pmap, pbind, pret. destruct (p_duration (cl_value c)) as [r v| |] eqn:P.
  - assert (D : parse_dur c = Ok v) by (unfold parse_dur; now rewrite P). apply duration_iff in D. cbn [pfinish]. destruct t as [d|d].
    + split; [discriminate|]. intros H. exfalso. apply duration_head in D as [x D]. pose proof (datetime_head _ _ H x). tauto.
    + rewrite <- duration_iff. unfold parse_dur. rewrite P. cbn. split; congruence.
  - assert (D : forall v, ~ reads_duration (cl_value c) v) by (intros v H; apply duration_iff in H; unfold parse_dur in H; rewrite P in H; discriminate).
    destruct t as [d|d].
    + rewrite <- datetime_iff. unfold read_datetime. destruct (p_date_time (cl_value c)); cbn; split; congruence.
    + split; [|intros H; exfalso; now apply (D d)]. destruct (p_date_time (cl_value c)); cbn; discriminate.
  - assert (D : parse_dur c = Panic) by (unfold parse_dur; now rewrite P). split; [discriminate|]. intros H. exfalso. destruct t as [d|d].
    + apply C24_panics_iff in D as (neg & w & dd & tt & txt & [(T & _ & rest & E) _] & _). destruct T as (sw & sd & st & -> & _).
      rewrite E in H. destruct neg; rewrite <- ?app_assoc in H; cbn [app] in H; eapply datetime_head in H; destruct H as [H1 H2]; [eapply H2|eapply H1]; reflexivity.
    + apply duration_iff in H. congruence.
Qed.

(** ** C25: [parse_duration] *)
Lemma unit_of_iff time c k : unit_of time c k <-> unit_seconds time c k.
Proof.
  unfold unit_of, unit_seconds. cbn. destruct time; split.
  - intros H. repeat (destruct H as [H|H]; [inv H; auto|]). destruct H.
  - intros [[-> ->]|[[-> ->]|[-> ->]]]; tauto.
  - intros H. repeat (destruct H as [H|H]; [inv H; auto|]). destruct H.
  - intros [[-> ->]|[[-> ->]|[-> ->]]]; tauto.
Qed.
Lemma unit_known time c : (exists k, unit_seconds time c k) \/ forall iv, duration_part time c iv = Err (EParseDuration iv).
Proof.
  unfold unit_seconds, duration_part. destruct time; cbn [negb andb].
  - destruct (Z.eqb_spec c 72) as [->|N1]; [left; eexists; eauto|]. destruct (Z.eqb_spec c 77) as [->|N2]; [left; eexists; eauto|]. destruct (Z.eqb_spec c 83) as [->|N3]; [left; eexists; eauto|]. auto.
  - destruct (Z.eqb_spec c 89) as [->|N1]; [left; eexists; eauto|]. destruct (Z.eqb_spec c 77) as [->|N2]; [left; eexists; eauto|]. destruct (Z.eqb_spec c 68) as [->|N3]; [left; eexists; eauto|]. auto.
Qed.
Lemma duration_part_panic time u k iv : unit_seconds time u k -> iv <> [] -> digit_string iv -> value_of iv <= I64MAX ->
  TD_MAX < value_of iv * k * NANOS -> duration_part time u iv = Panic.
Proof.
  intros Hu Hn Hd Hi Hr. pose proof (value_nonneg iv Hd) as Hv. unfold duration_part. rewrite parse_i64_digits by auto.
  destruct (Z.leb_spec (value_of iv) I64MAX) as [_|Hbad]; [|lia]. unfold unit_seconds in Hu.
  assert (C : forall x, 0 <= x -> x = value_of iv * k * NANOS -> td_check x = Panic).
  { intros x Hx ->. destruct (td_check_cases _ Hx) as [[Hb _]|[_ ->]]; auto. lia. }
  assert (M : forall n, 0 <= n -> mul_i64 n (value_of iv) = Ok (n * value_of iv) \/ mul_i64 n (value_of iv) = Panic) by (intros n Hpos; unfold mul_i64; destruct (_ && _); auto).
  destruct time; destruct Hu as [[-> ->]|[[-> ->]|[-> ->]]]; cbn [negb andb Z.eqb Pos.eqb parse_int obind].
  - unfold td_hours. apply C; unfold NANOS; lia.
  - unfold td_minutes. apply C; unfold NANOS; lia.
  - unfold td_seconds. apply C; unfold NANOS; lia.
  - destruct (M 365 ltac:(lia)) as [-> | ->]; cbn [obind]; auto. unfold td_days. apply C; unfold NANOS; lia.
  - destruct (M 30 ltac:(lia)) as [-> | ->]; cbn [obind]; auto. unfold td_days. apply C; unfold NANOS; lia.
  - unfold td_days. apply C; unfold NANOS; lia.
Qed.
Lemma duration_part_err time u k iv : unit_seconds time u k -> digit_string iv -> iv = [] \/ I64MAX < value_of iv -> duration_part time u iv = Err EParseInt.
Proof.
  intros Hu D H. assert (P : parse_signed I64MAX iv = None).
  { destruct iv as [|c r]; [reflexivity|]. rewrite parse_i64_digits by (auto; discriminate). destruct (Z.leb_spec (value_of (c :: r)) I64MAX); auto. destruct H; [discriminate|lia]. }
  unfold duration_part. rewrite P. cbn [parse_int obind]. unfold unit_seconds in Hu.
  destruct time; destruct Hu as [[-> ->]|[[-> ->]|[-> ->]]]; reflexivity.
Qed.
Lemma digits_in_string s : digit_string (digits_in s).
Proof. apply Forall_forall. intros c H. apply filter_In in H as [_ H]. unfold is_number_char in H. lia. Qed.
Lemma digits_in_snoc s c : digits_in (s ++ [c]) = if is_number_char c then digits_in s ++ [c] else digits_in s.
Proof. unfold digits_in. rewrite filter_app. cbn. destruct (is_number_char c); [reflexivity|apply app_nil_r]. Qed.
Lemma has_T_snoc s c : has_T (s ++ [c]) = has_T s || (c =? 84).
Proof. unfold has_T. rewrite existsb_app. cbn. now rewrite orb_false_r. Qed.
Lemma terms_nonneg before s l : terms before s l -> Forall (fun x => 0 <= x) l.
Proof.
  induction 1; auto. constructor; auto. pose proof (value_nonneg _ (digits_in_string before)). apply unit_of_iff in H1.
  assert (1 <= k) by (unfold unit_seconds in H1; destruct (has_T before); lia). nia.
Qed.
Lemma total_nonneg l : Forall (fun x => 0 <= x) l -> 0 <= total l.
Proof. induction 1; cbn; unfold total in *; lia. Qed.
Lemma number_char c : is_number_char c = is_digit c.
Proof. unfold is_number_char, is_digit. reflexivity. Qed.
Lemma sec_nanos : sec = NANOS. Proof. reflexivity. Qed.
Lemma longest_max : longest = TD_MAX. Proof. reflexivity. Qed.
Lemma loop_any s before acc : 0 <= acc <= longest ->
  (forall v, duration_loop s (has_T before) (digits_in before) acc = Ok v <-> exists l, terms before s l /\ acc + total l * sec <= longest /\ v = acc + total l * sec) /\
  (duration_loop s (has_T before) (digits_in before) acc = Panic <-> exists a b l, s = a ++ b /\ terms before a l /\ longest < acc + total l * sec).
Proof.
  revert before acc. induction s as [|c s IH]; intros before acc A; cbn [duration_loop].
  - split.
    + intros v. split; [intros H; inv H; exists []; split; [apply terms_end|change (total []) with 0; lia]|]. intros (l & T & _ & ->). inv T. change (total []) with 0. f_equal. lia.
    + split; [discriminate|]. intros (a & b & l & E & T & B). symmetry in E. apply app_eq_nil in E as [-> ->]. inv T. change (total []) with 0 in B. lia.
  - specialize (IH (before ++ [c])). rewrite digits_in_snoc, has_T_snoc, number_char in IH.
    assert (Skip : is_number_char c = true \/ c = 84 -> forall X,
      ((forall v, X = Ok v <-> exists l, terms (before ++ [c]) s l /\ acc + total l * sec <= longest /\ v = acc + total l * sec) /\
       (X = Panic <-> exists a b l, s = a ++ b /\ terms (before ++ [c]) a l /\ longest < acc + total l * sec)) ->
      (forall v, X = Ok v <-> exists l, terms before (c :: s) l /\ acc + total l * sec <= longest /\ v = acc + total l * sec) /\
      (X = Panic <-> exists a b l, c :: s = a ++ b /\ terms before a l /\ longest < acc + total l * sec)).
    { intros K X [H1 H2]. assert (Inv : forall x l, terms before (c :: x) l <-> terms (before ++ [c]) x l).
      { intros x l. split; [|intros T; constructor; auto]. intros T. inv T; auto. exfalso. destruct K as [K|K]; congruence. }
      split.
      - intros v. rewrite H1. split; intros (l & T & B); exists l; (split; [now apply Inv|auto]).
      - rewrite H2. split.
        + intros (a & b & l & -> & T & B). exists (c :: a), b, l. split; [reflexivity|]. split; [now apply Inv|auto].
        + intros (a & b & l & E & T & B). destruct a as [|c' a]; [inv T; change (total []) with 0 in B; lia|]. cbn in E. inv E. exists a, b, l. split; auto. split; [now apply Inv|auto]. }
    destruct (Z.eqb_spec c 84) as [->|N84].
    + apply Skip; auto. specialize (IH acc A). change (is_digit 84) with false in IH. cbv iota in IH. rewrite orb_true_r in IH. exact IH.
    + destruct (is_digit c) eqn:Dg.
      * apply Skip; [now rewrite number_char; left|]. rewrite orb_false_r in IH. exact (IH acc A).
      * rewrite orb_false_r in IH. pose proof (digits_in_string before) as Ds. pose proof (value_nonneg _ Ds) as Vn. set (iv := digits_in before) in *.
        assert (Bad : forall e, duration_part (has_T before) c iv = Err e -> (forall x l, ~ terms before (c :: x) l) ->
          (forall v, (let* p := duration_part (has_T before) c iv in let* acc' := td_add acc p in duration_loop s (has_T before) iv acc') = Ok v <->
             exists l, terms before (c :: s) l /\ acc + total l * sec <= longest /\ v = acc + total l * sec) /\
          ((let* p := duration_part (has_T before) c iv in let* acc' := td_add acc p in duration_loop s (has_T before) iv acc') = Panic <->
             exists a b l, c :: s = a ++ b /\ terms before a l /\ longest < acc + total l * sec)).
        { intros e He No. rewrite He. cbn [obind]. split.
          - intros v. split; [discriminate|]. intros (l & T & _). exfalso. eapply No; eauto.
          - split; [discriminate|]. intros (a & b & l & E & T & B). destruct a as [|c' a]; [inv T; change (total []) with 0 in B; lia|]. cbn in E. inv E. exfalso. eapply No; eauto. }
        assert (Inv : forall x l, terms before (c :: x) l -> exists k l', unit_seconds (has_T before) c k /\ iv <> [] /\ value_of iv <= I64MAX /\ terms (before ++ [c]) x l' /\ l = value_of iv * k :: l').
        { intros x l T. inversion T as [|b' c' s' l' K T'|b' c' s' l' k K N U Dn V T']; subst; [rewrite number_char in K; destruct K; congruence|]. apply unit_of_iff in U. exists k, l'. auto 10. }
        destruct (unit_known (has_T before) c) as [[k Hk]|Un].
        2:{ apply (Bad (EParseDuration iv)); auto. intros x l T. destruct (Inv x l T) as (k & l' & Hk & _ & _). specialize (Un [48]).
            revert Un. unfold duration_part, unit_seconds in *. destruct (has_T before); destruct Hk as [[-> _]|[[-> _]|[-> _]]]; vm_compute; discriminate. }
        assert (Kuniq : forall k', unit_seconds (has_T before) c k' -> k' = k) by (intros k' Hk'; unfold unit_seconds in *; destruct (has_T before); lia).
        assert (Kpos : 1 <= k) by (unfold unit_seconds in Hk; destruct (has_T before); lia).
        destruct iv as [|d0 ds0] eqn:Eiv.
        { apply (Bad EParseInt); [eapply duration_part_err; eauto|]. intros x l T. destruct (Inv x l T) as (k' & l' & _ & N & _). congruence. }
        rewrite <- Eiv in *. assert (Nn : iv <> []) by (rewrite Eiv; discriminate). clear Eiv.
        destruct (Z.le_gt_cases (value_of iv) I64MAX) as [Iv|Iv].
        2:{ apply (Bad EParseInt); [eapply duration_part_err; eauto; right; lia|]. intros x l T. destruct (Inv x l T) as (k' & l' & _ & _ & N & _). lia. }
        assert (Cons : forall x l', terms (before ++ [c]) x l' -> terms before (c :: x) (value_of iv * k :: l')).
        { intros x l' T. apply terms_unit; auto; now apply unit_of_iff. }
        assert (Tk : 0 <= value_of iv * k) by nia.
        assert (Tot : forall l, total (value_of iv * k :: l) = value_of iv * k + total l) by reflexivity.
        destruct (Z.le_gt_cases (value_of iv * k * sec) longest) as [Lk|Lk].
        2:{ rewrite (duration_part_panic _ _ k) by (auto; rewrite <- sec_nanos, <- longest_max; lia). cbn [obind]. split.
            - intros v. split; [discriminate|]. intros (l & T & B & _). destruct (Inv _ _ T) as (k' & l' & Hk' & _ & _ & T' & ->). apply Kuniq in Hk' as ->.
              pose proof (total_nonneg _ (terms_nonneg _ _ _ T')) as P. rewrite Tot in B. unfold sec in *. lia.
            - split; [intros _|auto]. exists [c], s, [value_of iv * k]. split; [reflexivity|]. split; [apply Cons; constructor|]. rewrite Tot. change (total []) with 0. lia. }
        rewrite (duration_part_ok _ _ k) by (auto; rewrite <- sec_nanos, <- longest_max; lia). cbn [obind]. unfold td_add.
        rewrite <- sec_nanos. destruct (td_check_cases (acc + value_of iv * k * sec)) as [[B ->]|[B ->]]; [unfold sec in *; lia| |]; rewrite <- longest_max in B; cbn [obind].
        -- assert (A' : 0 <= acc + value_of iv * k * sec <= longest) by (unfold sec in *; lia). specialize (IH _ A'). destruct IH as [IH1 IH2]. split.
           ++ intros v. rewrite IH1. split.
              ** intros (l & T & B' & ->). exists (value_of iv * k :: l). split; [now apply Cons|]. rewrite Tot. lia.
              ** intros (l & T & B' & ->). destruct (Inv _ _ T) as (k' & l' & Hk' & _ & _ & T' & ->). apply Kuniq in Hk' as ->. rewrite Tot in *. exists l'. split; auto. lia.
           ++ rewrite IH2. split.
              ** intros (a & b & l & -> & T & B'). exists (c :: a), b, (value_of iv * k :: l). split; [reflexivity|]. split; [now apply Cons|]. rewrite Tot. lia.
              ** intros (a & b & l & E & T & B'). destruct a as [|c' a]; [inv T; change (total []) with 0 in B'; lia|]. cbn in E. inv E.
                 destruct (Inv _ _ T) as (k' & l' & Hk' & _ & _ & T' & ->). apply Kuniq in Hk' as ->. rewrite Tot in *. exists a, b, l'. split; auto. split; auto. lia.
        -- split.
           ++ intros v. split; [discriminate|]. intros (l & T & B' & _). destruct (Inv _ _ T) as (k' & l' & Hk' & _ & _ & T' & ->). apply Kuniq in Hk' as ->.
              pose proof (total_nonneg _ (terms_nonneg _ _ _ T')) as P. rewrite Tot in B'. unfold sec in *. lia.
           ++ split; [intros _|auto]. exists [c], s, [value_of iv * k]. split; [reflexivity|]. split; [apply Cons; constructor|]. rewrite Tot. change (total []) with 0. lia.
Qed.
Lemma duration_start s : (exists (neg : bool) x, s = (if neg then [45] else []) ++ [80] ++ x) \/ parse_duration s = Err (EParseDuration s) /\ forall (neg : bool) x, s <> (if neg then [45] else []) ++ [80] ++ x.
Proof.
  destruct s as [|a s]; [right; split; [reflexivity|intros [] x; discriminate]|].
    destruct (Z.eqb_spec a 80) as [->|N]; [left; exists false, s; reflexivity|]. destruct (Z.eqb_spec a 45) as [->|N'].
    - destruct s as [|b s]; [right; split; [reflexivity|intros [] x; discriminate]|]. destruct (Z.eqb_spec b 80) as [->|N2]; [left; exists true, s; reflexivity|].
      right. split; [|intros [] x; cbn; congruence]. unfold parse_duration. change (strip_prefix (lit "-") (45 :: b :: s)) with (Some (b :: s)). cbn [strip_prefix lit].
      replace (strip_prefix (lit "P") (b :: s)) with (@None str); auto. symmetry. destruct (strip_prefix (lit "P") (b :: s)) eqn:Q; auto. apply strip_prefix_Some in Q. inv Q. congruence.
    - right. split; [|intros [] x; cbn; congruence]. unfold parse_duration.
      replace (strip_prefix (lit "-") (a :: s)) with (@None str) by (symmetry; destruct (strip_prefix (lit "-") (a :: s)) eqn:Q; auto; apply strip_prefix_Some in Q; inv Q; congruence).
      replace (strip_prefix (lit "P") (a :: s)) with (@None str); auto. symmetry. destruct (strip_prefix (lit "P") (a :: s)) eqn:Q; auto. apply strip_prefix_Some in Q. inv Q. congruence.
Qed.
(** C25, every text: a P, maybe after a minus; then each letter but T is a unit whose number is all the digits so far. *)
Theorem C25_any_text : forall s : str,
  (forall v, parse_duration s = Ok v <->
     exists (neg : bool) x l, s = (if neg then [45] else []) ++ [80] ++ x /\ terms [] x l /\ total l * sec <= longest /\ v = signed neg (total l * sec)) /\
  (parse_duration s = Panic <->
     exists (neg : bool) x rest l, s = (if neg then [45] else []) ++ [80] ++ x ++ rest /\ terms [] x l /\ longest < total l * sec).
Proof.
  intros s.
  assert (G : forall (neg : bool) x, parse_duration ((if neg then [45] else []) ++ [80] ++ x) = let* d := duration_loop x false [] 0 in Ok (if neg then td_neg d else d)) by (intros [] x; reflexivity).
  assert (L0 : 0 <= 0 <= longest) by (unfold longest; lia).
  assert (Inj : forall (n1 n2 : bool) (x y : str), (if n1 then [45] else []) ++ [80] ++ x = (if n2 then [45] else []) ++ [80] ++ y -> n1 = n2 /\ x = y).
  { intros [] [] x y E; cbn in E; inv E; auto. }
  destruct (duration_start s) as [(neg & x & ->)|[He No]].
  - rewrite G. destruct (loop_any x [] 0 L0) as [H1 H2]. change (has_T []) with false in *. change (digits_in []) with (@nil Z) in *. split.
    + intros v. split.
      * destruct (duration_loop x false [] 0) as [d| |] eqn:D; cbn [obind]; try discriminate. intros E. inv E.
        destruct (proj1 (H1 d) eq_refl) as (l & T & B & ->). exists neg, x, l. split; [reflexivity|]. split; [exact T|]. split; [lia|]. unfold signed, td_neg. destruct neg; lia.
      * intros (neg' & x' & l & E & T & B & ->). apply Inj in E as [<- <-]. assert (D : duration_loop x false [] 0 = Ok (total l * sec)) by (apply H1; exists l; split; auto; split; lia).
        rewrite D. reflexivity.
    + split.
      * destruct (duration_loop x false [] 0) as [d| |] eqn:D; cbn [obind]; try discriminate. intros _. destruct (proj1 H2 eq_refl) as (a & b & l & -> & T & B).
        exists neg, a, b, l. split; [reflexivity|]. split; [exact T|lia].
      * intros (neg' & a & b & l & E & T & B). apply Inj in E as [<- ->]. replace (duration_loop (a ++ b) false [] 0) with (@Panic tdelta); auto. symmetry. apply H2.
        exists a, b, l. split; [reflexivity|]. split; [exact T|lia].
  - rewrite He. split.
    + intros v. split; [discriminate|]. intros (neg & x & l & E & _). now apply No in E.
    + split; [discriminate|]. intros (neg & x & rest & l & E & _). exfalso. exact (No neg (x ++ rest) E).
Qed.
Example C25_any_nonvacuous : terms [] (lit "1Y2DT3H") [1 * 31536000; 12 * 86400; 123 * 3600] /\ parse_duration (lit "P1Y2DT3H") = Ok ((31536000 + 12 * 86400 + 123 * 3600) * sec) /\
  parse_duration (lit "P99999999999YX") = Panic /\ parse_duration (lit "PX99999999999Y") = Err (EParseDuration []).
Proof.
  split; [|repeat split; vm_compute; reflexivity].
  assert (H : exists l, terms [] (lit "1Y2DT3H") l /\ l = [1 * 31536000; 12 * 86400; 123 * 3600]); [|destruct H as (l & H & <-); exact H].
  eexists. split.
  { change (lit "1Y2DT3H") with [49; 89; 50; 68; 84; 51; 72].
  apply terms_skip; [left; reflexivity|]. eapply (terms_unit _ 89 _ _ 31536000); [reflexivity|discriminate|cbn; auto|discriminate|vm_compute; discriminate|].
  apply terms_skip; [left; reflexivity|]. eapply (terms_unit _ 68 _ _ 86400); [reflexivity|discriminate|cbn; auto|discriminate|vm_compute; discriminate|].
  apply terms_skip; [right; reflexivity|]. apply terms_skip; [left; reflexivity|]. eapply (terms_unit _ 72 _ _ 3600); [reflexivity|discriminate|cbn; auto|discriminate|vm_compute; discriminate|]. apply terms_end. }
  vm_compute. reflexivity.
Qed.

(** ** C33: [FromStr] *)
Theorem C33_from_str_exact : forall (E : Env) (s : str),
  (forall d, trigger_of_str s = Ok (TrDateTime d) <-> datetime_of_str s = Ok d) /\
  (forall d, trigger_of_str s = Ok (TrDuration d) <-> parse_duration s = Ok d) /\
  (trigger_of_str s = Panic <-> datetime_of_str s = Panic \/ parse_duration s = Panic).
Proof.
  intros E s. destruct (C20_from_str_exact E s) as (A & B & _). destruct (C25_any_text s) as [C D].
  assert (X : (exists d, datetime_of_str s = Ok d) \/ datetime_of_str s = Panic -> exists t, reads_datetime s t).
  { assert (Z1 : forall x n, s = x ++ [90] -> reads_wall x n -> reads_datetime s (Local n)).
    { intros x n -> W. exists x. split; auto. exists [90]. split; auto. split; [discriminate|]. repeat constructor. }
    intros [[d H]|H].
    - apply A in H. destruct d as [n|u]; [exists (Naive n); exact H|]. destruct H as (x & n & o & H1 & H2 & _). exists (Local n). eauto.
    - apply B in H as (x & n & H1 & H2 & _). exists (Local n). eauto. }
  assert (Y : (exists v, parse_duration s = Ok v) \/ parse_duration s = Panic -> exists x, s = 80 :: x \/ s = 45 :: 80 :: x).
  { intros [[v H]|H].
    - apply C in H as (neg & x & l & -> & _). exists x. destruct neg; auto.
    - apply D in H as (neg & x & r & l & -> & _). exists (x ++ r). destruct neg; auto. }
  assert (XY : (exists d, datetime_of_str s = Ok d) \/ datetime_of_str s = Panic -> (exists v, parse_duration s = Ok v) \/ parse_duration s = Panic -> False).
  { intros H1 H2. apply X in H1 as [t H1]. apply Y in H2 as [x H2]. pose proof (datetime_head _ _ H1 x). tauto. }
  unfold trigger_of_str. destruct (datetime_of_str s) as [d0|e|] eqn:F.
  - split; [split; congruence|]. split; [|split; [discriminate|]].
    + intros d. split; [discriminate|]. intros H. exfalso. apply XY; eauto.
    + intros [H|H]; [discriminate|]. exfalso. apply XY; eauto.
  - split; [intros d; split; [destruct (parse_duration s); discriminate|discriminate]|]. split.
    + intros d. destruct (parse_duration s); cbn; split; congruence.
    + destruct (parse_duration s); cbn; split; intros H; try discriminate; auto. destruct H; discriminate. destruct H; discriminate.
  - split; [split; discriminate|]. split; [|tauto]. intros d. split; [discriminate|]. intros H. exfalso. apply XY; eauto.
Qed.
Example C33_exact_nonvacuous : parse_trigger (cl_of_str (lit "-PT15M and more")) = Ok (TrDuration (-900 * sec)) /\ reads_duration (lit "-PT15M and more") (-900 * sec) /\
  parse_trigger (cl_of_str (lit "20240229T235960Z")) = Ok (TrDateTime (Local (mk_ndt 19782 86399 1000000000))).
Proof.
  split; [vm_compute; reflexivity|]. split; [|vm_compute; reflexivity]. apply (proj1 (C33_exact (cl_of_str (lit "-PT15M and more")) (TrDuration (-900 * sec)))). vm_compute. reflexivity.
Qed.
Example C31_exact_nonvacuous : let v := lit "20240229T010000/PT1H,20240229T020000Z/20240229T030000Z" in let c := mk_cl (lit "RDATE") [(lit "VALUE", lit "PERIOD")] v in
  parse_rdate c = Ok (RPeriods [StartDur (Naive (mk_ndt 19782 3600 0)) (3600 * sec); StartEnd (Local (mk_ndt 19782 7200 0)) (Local (mk_ndt 19782 10800 0))]) /\
  parse_rdate (mk_cl (lit "RDATE") [(lit "VALUE", lit "period")] (lit "20240229")) = Ok (RDates [DDate 19782]) /\
  parse_exdate (cl_of_str (lit "20240229,20240229T000000")) = Ok [DDate 19782; DDateTime (Naive (mk_ndt 19782 0 0))].
Proof. cbv zeta. repeat split; vm_compute; reflexivity. Qed.

(** ** C27: rules *)
Definition numbered_weekday (s : str) (w : weekdaynum) : Prop :=
  exists o n rest, s = o ++ n ++ rest /\ In (wn_weekday w, n) weekday_names /\ match wn_ord w with None => o = [] | Some k => ordinal_text o k /\ -128 <= k <= 127 end.
(** What the parts [l] of a rule say. *)
Definition rule_says (l : list (str * str)) (r : recur) : Prop :=
  (exists s, last_binding l (lit "FREQ") = Some s /\ In (r_freq r, s) freq_names) /\
  field_is l (lit "UNTIL") None (opt_rel reads_date) (r_until r) /\
  field_is l (lit "COUNT") None (opt_rel byte_text) (r_count r) /\
  field_is l (lit "INTERVAL") 1 byte_text (r_interval r) /\
  field_is l (lit "BYSECOND") [] (commas_of small_int_text) (r_by_second r) /\
  field_is l (lit "BYMINUTE") [] (commas_of small_int_text) (r_by_minute r) /\
  field_is l (lit "BYHOUR") [] (commas_of small_int_text) (r_by_hour r) /\
  field_is l (lit "BYDAY") [] (commas_of numbered_weekday) (r_by_day r) /\
  field_is l (lit "BYMONTHDAY") [] (commas_of small_int_text) (r_by_monthday r) /\
  field_is l (lit "BYYEARDAY") [] (commas_of small_int_text) (r_by_yearday r) /\
  field_is l (lit "BYWEEKNO") [] (commas_of small_int_text) (r_by_weekno r) /\
  field_is l (lit "BYMONTH") [] (commas_of small_int_text) (r_by_month r) /\
  field_is l (lit "BYSETPOS") [] (commas_of small_int_text) (r_by_setpos r) /\
  field_is l (lit "WKST") None (opt_rel (fun s w => exists n rest, In (w, n) weekday_names /\ s = n ++ rest)) (r_wkst r).
Lemma field_is_ext {A} l n (d : A) (p q : str -> A -> Prop) v : (forall s a, p s a <-> q s a) -> field_is l n d p v <-> field_is l n d q v.
Proof. intros H. unfold field_is. destruct (last_binding l n); [apply H|tauto]. Qed.
Lemma says_means l r : rule_means l r <-> rule_says l r.
Proof.
  assert (S1 : forall s a, list_text small_int_text s a <-> commas_of small_int_text s a) by (intros s a; unfold list_text, commas_of; split; intros (p & H); exists p; tauto).
  assert (S2 : forall s a, list_text (fun s w => wdn_of_str s = Ok w) s a <-> commas_of numbered_weekday s a).
  { intros s a. rewrite <- (list_text_iff wdn_of_str (fun s w => wdn_of_str s = Ok w)) by tauto. apply commas_iff. intros p w. apply (C29_exact p). }
  assert (S3 : forall s a, opt_rel (fun s d => read_date s = Ok d) s a <-> opt_rel reads_date s a).
  { intros s a. unfold opt_rel. split; intros (x & H & K); exists x; (split; auto); now apply date_iff. }
  unfold rule_means, rule_says. rewrite (field_is_ext l (lit "UNTIL") None _ _ (r_until r) S3), (field_is_ext l (lit "BYDAY") [] _ _ (r_by_day r) S2).
  rewrite (field_is_ext l (lit "BYSECOND") [] _ _ (r_by_second r) S1), (field_is_ext l (lit "BYMINUTE") [] _ _ (r_by_minute r) S1), (field_is_ext l (lit "BYHOUR") [] _ _ (r_by_hour r) S1),
    (field_is_ext l (lit "BYMONTHDAY") [] _ _ (r_by_monthday r) S1), (field_is_ext l (lit "BYYEARDAY") [] _ _ (r_by_yearday r) S1), (field_is_ext l (lit "BYWEEKNO") [] _ _ (r_by_weekno r) S1),
    (field_is_ext l (lit "BYMONTH") [] _ _ (r_by_month r) S1), (field_is_ext l (lit "BYSETPOS") [] _ _ (r_by_setpos r) S1). tauto.
Qed.
(** NAME=VALUE parts joined by ';', as many as there are; then the end, or a ';' and something that is no NAME=VALUE, which is ignored. *)
Definition rule_parts (v : str) (l : list (str * str)) : Prop :=
  exists tail, l <> [] /\ v = join [59] (map (fun kv => fst kv ++ [61] ++ snd kv) l) ++ tail /\
    Forall (fun kv => key_text (fst kv) /\ ~ In 59 (snd kv)) l /\
    (tail = [] \/ exists r, tail = 59 :: r /\ forall k w, key_text k -> r <> k ++ [61] ++ w).
Lemma rule_run v l : rule_parts v l <-> exists r, many1 p_item v = POk r l.
Proof.
  split.
  - intros (tail & Hn & V & F & T). destruct (items_run l tail) as [r R]; auto.
    { destruct T as [->|(x & -> & T)]; auto. right. exists x. split; auto. now apply no_item. }
    exists r. change (join [59] (map (fun kv => fst kv ++ [61] ++ snd kv) l)) with (rule_text l) in V. rewrite V.
    inversion R as [|s0 r0 a l0 r1 Pa _ Ra]; subst; [congruence|]. unfold many1, pbind. rewrite Pa. apply (many0_POk _ tails_item) in Ra. rewrite Ra. reflexivity.
  - intros [r P]. unfold many1 in P. apply pbind_POk in P as (r0 & a & P & Q). apply pbind_POk in Q as (r1 & l' & Q & R). apply pret_POk in R as [-> ->].
    apply many0_POk in Q; [|apply tails_item].
    assert (R : many_run p_item v (a :: l') r1).
    { econstructor; eauto. destruct a as [k w]. apply item_inv in P as (_ & _ & [[-> ->]| ->]); rewrite !app_length; cbn; lia. }
    destruct (items_end _ _ _ R ltac:(discriminate)) as (tail & V & T). exists tail. split; [discriminate|]. split; [exact V|]. split.
    + apply items_keys in R. exact R.
    + destruct T as [->|(x & -> & T)]; auto. right. exists x. split; auto. now apply no_item.
Qed.
Theorem C27_any_text : forall c r, parse_rrule c = Ok r <-> exists l, rule_parts (cl_value c) l /\ rule_says l r.
Proof.
  intros c r. assert (M : forall l, l <> [] -> Forall rule_part l -> recur_of_items l = Ok r <-> rule_says l r).
  { intros l Hn Hp. rewrite <- says_means, <- (C27_accepted_rule l r Hn Hp), (rule_reads l Hn Hp). destruct (recur_of_items l); split; congruence. }
  assert (K : forall l, rule_parts (cl_value c) l -> l <> [] /\ Forall rule_part l) by (intros l (tail & H1 & _ & H2 & _); auto).
  unfold parse_rrule, pmap_res, pbind. split.
  - destruct (many1 p_item (cl_value c)) as [rest l| |] eqn:P; try discriminate. intros H. assert (Rp : rule_parts (cl_value c) l) by (apply rule_run; eauto).
    exists l. split; auto. destruct (K l Rp). apply M; auto. destruct (recur_of_items l); cbn in H; congruence.
  - intros (l & Rp & S0). destruct (K l Rp) as [K1 K2]. apply M in S0; auto. apply rule_run in Rp as [rest P]. rewrite P, S0. reflexivity.
Qed.
Example C27_any_nonvacuous : let v := lit "FREQ=DAILY;UNTIL=20240301;BYDAY=-1MO,TUE;;COUNT=9" in
  rule_parts v [(lit "FREQ", lit "DAILY"); (lit "UNTIL", lit "20240301"); (lit "BYDAY", lit "-1MO,TUE")] /\
  parse_rrule (cl_of_str v) = Ok (mk_recur Daily (Some (DDate 19783)) None 1 [] [] [] [mk_wdn Monday (Some (-1)); mk_wdn Tuesday None] [] [] [] [] [] None).
Proof. cbv zeta. split; [|vm_compute; reflexivity]. apply rule_run. eexists. vm_compute. reflexivity. Qed.

(** ** C76: GEO and REQUEST-STATUS *)
Theorem C76_geo : forall (E : Env) (c : content_line),
  (forall g, parse_geo c = Ok g <-> exists r1 r2, f32_parse (cl_value c) = Some (59 :: r1, g_lat g) /\ f32_parse r1 = Some (r2, g_lon g)) /\ parse_geo c <> Panic.
Proof.
  intros E c. unfold parse_geo, pmap, separated_pair, pbind, p_float, pchar, pret.
  destruct (f32_parse (cl_value c)) as [[r1 a]|]; [|split; [intros g; split; [discriminate|intros (r1 & r2 & H & _); discriminate]|discriminate]].
  destruct r1 as [|ch r1]; [split; [intros g; split; [discriminate|intros (r1 & r2 & H & _); discriminate]|discriminate]|].
  destruct (Z.eqb_spec ch 59) as [->|N]; [|split; [intros g; split; [discriminate|intros (r1' & r2 & H & _); inv H; congruence]|discriminate]].
  destruct (f32_parse r1) as [[r2 b]|] eqn:P; (split; [|discriminate]); intros g; split; try discriminate.
  - intros H. inv H. exists r1, r2. auto.
  - intros (r1' & r2' & H & K). inv H. rewrite P in K. inv K. destruct g. reflexivity.
  - intros (r1' & r2' & H & K). inv H. congruence.
Qed.
Theorem C76_request_status : forall (E : Env) (c : content_line),
  (forall s, parse_rstatus c = Ok s <-> exists r, f32_parse (cl_value c) = Some (59 :: r, rs_code s) /\ ~ In 59 (rs_desc s) /\
     r = rs_desc s ++ match rs_ext s with None => [] | Some e => 59 :: e end) /\
  parse_rstatus c <> Panic.
Proof.
  intros E c. unfold parse_rstatus, p_rstatus, preceded, pbind, p_float, pchar, pret.
  destruct (f32_parse (cl_value c)) as [[r1 a]|]; [|split; [intros g; split; [discriminate|intros (r1 & H & _); discriminate]|discriminate]].
  destruct r1 as [|ch r1]; [split; [intros g; split; [discriminate|intros (r1 & H & _); discriminate]|discriminate]|].
  destruct (Z.eqb_spec ch 59) as [->|N]; [|split; [intros g; split; [discriminate|intros (r1' & H & _); inv H; congruence]|discriminate]].
  destruct (take_till (fun c => c =? 59) r1) as [r2 ds| |] eqn:T.
  2,3: exfalso; revert T; unfold take_till, take_while; destruct (span _ _); discriminate.
  apply take_till_POk in T as (-> & D & Q). assert (ND : ~ In 59 ds) by (intros I; apply D in I; discriminate).
  assert (W : forall x, take_while (fun _ => true) x = POk [] x).
  { intros x. rewrite <- (app_nil_r x) at 1. apply take_while_app; [intros y _; reflexivity|exact I]. }
  unfold popt. split.
  - intros s. split.
    + destruct r2 as [|ch r2]; [intros H; inv H; exists (ds ++ []); auto|]. cbn in Q. apply Z.eqb_eq in Q. subst ch. cbn. rewrite W. intros H. inv H. cbn. eauto.
    + intros (r & H & Nd & K0). assert (K : ds ++ r2 = r /\ a = rs_code s) by (split; congruence). clear H. destruct K as [K Ka]. rewrite K0 in K. clear K0. destruct s as [cd de ex]. cbn [rs_code rs_desc rs_ext] in *. destruct r2 as [|ch r2].
      * destruct ex as [e|]; [|rewrite !app_nil_r in K; subst; reflexivity]. exfalso. rewrite app_nil_r in K. apply ND. rewrite K. apply in_or_app. right. left. reflexivity.
      * cbn in Q. apply Z.eqb_eq in Q. subst ch. cbn. rewrite W. destruct ex as [e|]; [|exfalso; apply Nd; rewrite app_nil_r in K; rewrite <- K; apply in_or_app; right; left; reflexivity].
        assert (X : ds = de /\ r2 = e).
        { clear - K ND Nd. revert de K Nd. induction ds as [|x ds IH]; intros [|y de] K Nd; cbn in K; inv K; auto.
          - exfalso. apply Nd. left. reflexivity.
          - exfalso. apply ND. left. reflexivity.
          - destruct (IH (fun I => ND (or_intror I)) de H1 (fun I => Nd (or_intror I))) as [-> ->]. auto. }
        destruct X as [-> ->]. subst. reflexivity.
  - destruct r2 as [|ch r2]; [discriminate|]. cbn in Q. apply Z.eqb_eq in Q. subst ch. cbn. rewrite W. discriminate.
Qed.
(** A world where floats are single digits. *)
Definition one_digit : Env := {| tz_offset := fun _ => 0; tz_local := fun _ => MSingle 0;
  f32_show := fun x => [x + 48]; f32_show1 := fun x => [x + 48];
  f32_parse := fun s => match s with c :: r => if is_digit c then Some (r, c - 48) else None | [] => None end; upper_nonascii := fun c => [c] |}.
Example C76_nonvacuous :
  @parse_geo one_digit (cl_of_str (lit "3;4 and more")) = Ok (mk_geo 3 4) /\
  @parse_rstatus one_digit (cl_of_str (lit "2;Success")) = Ok (mk_rs 2 (lit "Success") None) /\
  @parse_rstatus one_digit (cl_of_str (lit "2;Success;a;b")) = Ok (mk_rs 2 (lit "Success") (Some (lit "a;b"))) /\
  @parse_rstatus one_digit (cl_of_str (lit "Success;2")) = Err EParser.
Proof. repeat split; reflexivity. Qed.
