(** * C20, continued: every real date and date-time in RFC form is accepted, with the right value *)
From Verif Require Import Base Env Chrono Nom Types Ser Parser BaseFacts ChronoFacts DateText SpecCal SpecIter PropDate.

(** The value of [k] digits. *)
Lemma padded_digits k n s : padded k n s -> all_digits s = true /\ length s = k /\ digits_val s = n /\ 0 <= n.
Proof.
  intros (L & D & V). apply digit_string_all in D. rewrite value_of_digits in V. repeat split; auto. rewrite <- V. now apply digits_val_nonneg.
Qed.
Lemma small4 s : all_digits s = true -> (length s <= 4)%nat -> digits_val s <= I64MAX.
Proof.
  intros H L. rewrite digits_val_dval. pose proof (dval_bounds s H) as B. assert (10 ^ Z.of_nat (length s) <= 10 ^ 4) by (apply Z.pow_le_mono_r; lia).
  unfold I64MAX. change (10 ^ 4) with 10000 in *. lia.
Qed.
Lemma num2_padded n s r : padded 2 n s -> num2 (s ++ r) = Some (r, n).
Proof.
  intros P. apply padded_digits in P as (D & L & V & _). unfold num2. rewrite trim_start_digits by (auto; intros ->; discriminate).
  rewrite (scan_number_app 2 s r D L); [congruence|lia|apply small4; auto; lia].
Qed.
Lemma num_year_padded n s r : padded 4 n s -> num_year (s ++ r) = Some (r, n).
Proof.
  intros P. apply padded_digits in P as (D & L & V & _). unfold num_year. rewrite trim_start_digits by (auto; intros ->; discriminate).
  destruct s as [|c s]; [discriminate|]. destruct (head_not_sign _ _ _ D eq_refl) as [E1 E2]. cbn [app]. rewrite E1, E2.
  change (c :: s ++ r) with ((c :: s) ++ r). rewrite (scan_number_app 4 (c :: s) r D L); [congruence|lia|apply small4; auto; lia].
Qed.
Lemma scan_padded y m d sy sm sd r : padded 4 y sy -> padded 2 m sm -> padded 2 d sd -> scan_ymd (sy ++ sm ++ sd ++ r) = Some (r, (y, m, d)).
Proof. intros A B C. unfold scan_ymd. now rewrite (num_year_padded y), (num2_padded m), (num2_padded d). Qed.
Lemma real_date y m d : gregorian y m d -> 0 <= y <= 9999 -> exists n, from_ymd_opt y m d = Some n /\ ymd_of_days n = (y, m, d).
Proof.
  intros G Y. apply valid_ymd_spec in G. exists (days_of_ymd y m d). assert (H : from_ymd_opt y m d = Some (days_of_ymd y m d)).
  { apply from_ymd_opt_Some. repeat split; auto; unfold MIN_YEAR, MAX_YEAR in *; lia. }
  split; auto. apply from_ymd_opt_iff in H as [H _]. exact H.
Qed.
Lemma year4 y s : padded 4 y s -> 0 <= y <= 9999.
Proof.
  intros P. apply padded_digits in P as (D & L & V & N). rewrite digits_val_dval in V. pose proof (dval_bounds s D) as B. rewrite L in B.
  change (10 ^ Z.of_nat 4) with 10000 in B. lia.
Qed.
Theorem C20_dates_accepted : forall (E : Env) y m d sy sm sd, padded 4 y sy -> padded 2 m sm -> padded 2 d sd -> gregorian y m d ->
  exists n, ymd_of_days n = (y, m, d) /\ date_of_str (sy ++ sm ++ sd) = Ok (DDate n) /\ read_date (sy ++ sm ++ sd) = Ok (DDate n).
Proof.
  intros E y m d sy sm sd A B C G. destruct (real_date y m d G (year4 _ _ A)) as (n & F & Y). exists n. split; auto.
  assert (P : date_parse (sy ++ sm ++ sd) = Some n).
  { unfold date_parse. pose proof (scan_padded y m d sy sm sd [] A B C) as Q. rewrite app_nil_r in Q. now rewrite Q. }
  unfold date_of_str, read_date, p_date_or_dt, palt, pmap, pbind, p_date. now rewrite P.
Qed.
Lemma hms_real n h mi se : 0 <= h <= 23 -> 0 <= mi <= 59 -> 0 <= se <= 60 -> exists t, hms n h mi se = Some t /\ nd_date t = n /\
  (se <= 59 /\ nd_secs t = h * 3600 + mi * 60 + se /\ nd_nano t = 0 \/ se = 60 /\ nd_secs t = h * 3600 + mi * 60 + 59 /\ nd_nano t = 1000000000).
Proof.
  intros H1 H2 H3. unfold hms. assert (B : (0 <=? h) && (h <=? 23) && (0 <=? mi) && (mi <=? 59) && (0 <=? se) && (se <=? 60) = true) by lia. rewrite B.
  destruct (Z.eqb_spec se 60) as [->|N]; eexists; (split; [reflexivity|]); cbn [nd_date nd_secs nd_nano]; (split; [reflexivity|]); [right|left]; repeat split; lia.
Qed.
Lemma trim_end_Z s : all_digits s = true -> s <> [] -> forall a, trim_end_char 90 (a ++ s) = a ++ s /\ ends_with_char 90 (a ++ s) = false /\
  trim_end_char 90 ((a ++ s) ++ [90]) = a ++ s /\ ends_with_char 90 ((a ++ s) ++ [90]) = true.
Proof.
  intros D N a. unfold trim_end_char, ends_with_char. assert (Q : exists c r, rev (a ++ s) = c :: r /\ (c =? 90) = false).
  { destruct (exists_last N) as (s' & c & ->). rewrite app_assoc, rev_app_distr. cbn [rev app]. exists c, (rev (a ++ s')). split; auto.
    unfold all_digits in D. rewrite forallb_app in D. apply andb_true_iff in D as [_ D]. cbn in D. rewrite andb_true_r in D. apply is_digit_iff in D. lia. }
  destruct Q as (c & r & Q & C). rewrite (rev_app_distr (a ++ s) [90]). cbn [rev app]. cbn [drop_while]. change (90 =? 90) with true. cbv iota. rewrite Q. cbn [drop_while]. rewrite C, <- Q, rev_involutive. auto.
Qed.
(** The text YYYYMMDDTHHMMSS of an existing date and time is accepted by both readers with that value; with a final Z, the reader of properties
    takes it as UTC, and [FromStr] as a wall clock of the local zone, which panics unless that wall clock is unambiguous. *)
Theorem C20_times_accepted : forall (E : Env) y m d h mi se sy sm sd sh si ss,
  padded 4 y sy -> padded 2 m sm -> padded 2 d sd -> padded 2 h sh -> padded 2 mi si -> padded 2 se ss ->
  gregorian y m d -> h <= 23 -> mi <= 59 -> se <= 60 ->
  let s := sy ++ sm ++ sd ++ [84] ++ sh ++ si ++ ss in
  exists n, denotes n y m d h mi se /\
    date_of_str s = Ok (DDateTime (Naive n)) /\ read_date s = Ok (DDateTime (Naive n)) /\ datetime_of_str s = Ok (Naive n) /\ read_datetime s = Ok (Naive n) /\
    read_date (s ++ [90]) = Ok (DDateTime (Local n)) /\ read_datetime (s ++ [90]) = Ok (Local n) /\
    match tz_local (seconds n) with
    | MSingle o => datetime_of_str (s ++ [90]) = Ok (Local (ndt_shift n (- o))) /\ date_of_str (s ++ [90]) = Ok (DDateTime (Local (ndt_shift n (- o))))
    | _ => datetime_of_str (s ++ [90]) = Panic /\ date_of_str (s ++ [90]) = Panic
    end.
Proof.
  intros E y m d h mi se sy sm sd sh si ss A B C A' B' C' G Hh Hm Hs s. destruct (real_date y m d G (year4 _ _ A)) as (n & F & Y).
  destruct (hms_real n h mi se) as (t & T & T1 & T2); [apply padded_digits in A'; lia|apply padded_digits in B'; lia|apply padded_digits in C'; lia|].
  exists t. split; [split; [now rewrite T1|exact T2]|].
  assert (Sc : forall r, scan_ymd (s ++ r) = Some (84 :: sh ++ si ++ ss ++ r, (y, m, d))).
  { intros r. unfold s. replace ((sy ++ sm ++ sd ++ [84] ++ sh ++ si ++ ss) ++ r) with (sy ++ sm ++ sd ++ (84 :: sh ++ si ++ ss ++ r)) by (rewrite <- !app_assoc; reflexivity).
    now apply scan_padded. }
  assert (D0 : forall r, date_parse (s ++ r) = None) by (intros r; unfold date_parse; now rewrite Sc).
  assert (P : forall suf, ndt_parse suf (s ++ suf) = Some t).
  { intros suf. unfold ndt_parse. rewrite Sc. cbn [lit_char]. change (84 =? 84) with true. cbv iota. rewrite (num2_padded h), (num2_padded mi), (num2_padded se) by auto.
    rewrite <- (app_nil_r suf) at 2. rewrite strip_prefix_app. now rewrite F. }
  assert (N : ndt_parse [] (s ++ [90]) = None).
  { unfold ndt_parse. rewrite Sc. cbn [lit_char]. change (84 =? 84) with true. cbv iota. rewrite (num2_padded h), (num2_padded mi), (num2_padded se) by auto. reflexivity. }
  pose proof (P []) as P0. pose proof (P [90]) as P1. pose proof (D0 []) as D1. rewrite app_nil_r in P0, D1. specialize (D0 [90]).
  assert (Tr : trim_end_char 90 s = s /\ ends_with_char 90 s = false /\ trim_end_char 90 (s ++ [90]) = s /\ ends_with_char 90 (s ++ [90]) = true).
  { apply padded_digits in C' as (X & L & _). replace s with ((sy ++ sm ++ sd ++ [84] ++ sh ++ si) ++ ss) by (unfold s; rewrite <- !app_assoc; reflexivity).
    apply trim_end_Z; auto. intros ->. discriminate. }
  destruct Tr as (R1 & R2 & R3 & R4).
  unfold date_of_str, read_date, read_datetime, p_date_or_dt, palt, pmap, pbind, p_date, p_date_time, datetime_of_str.
  change (lit "Z") with [90]. rewrite D0, D1, R1, R2, R3, R4, P0, N, P1. cbn [pfinish omap obind pret].
  repeat (split; [reflexivity|]). unfold from_local. change (ndt_ts t) with (seconds t). destruct (tz_local (seconds t)); cbn; auto.
Qed.
(** And conversely what a text with a zone mark is read as. *)
Theorem C20_zoned_value : forall (E : Env) (s : str) (u : ndt),
  (read_datetime s = Ok (Local u) -> exists t1 t2 zs y m d h mi se, s = t1 ++ [84] ++ t2 ++ zs /\ zs <> [] /\ Forall (fun c => c = 90) zs /\
     date_text t1 y m d /\ time_text t2 h mi se /\ denotes u y m d h mi se) /\
  (datetime_of_str s = Ok (Local u) -> exists t1 t2 y m d h mi se n o, s = t1 ++ [84] ++ t2 ++ [90] /\
     date_text t1 y m d /\ time_text t2 h mi se /\ denotes n y m d h mi se /\ tz_local (seconds n) = MSingle o /\ u = ndt_shift n (- o)).
Proof.
  intros E s u. split; intros H.
  - unfold read_datetime, p_date_time in H. destruct (ndt_parse [] (trim_end_char 90 s)) as [n|] eqn:P; [|discriminate]. cbn [pfinish] in H.
    destruct (ends_with_char 90 s) eqn:W; inv H. apply ndt_parse_text in P as (t1 & t2 & y & m & d & h & mi & se & Hs & Hd & Ht & _ & _ & _ & _ & Hden).
    destruct (drop_while_split (fun x => x =? 90) (rev s)) as (w & Ew & Hw).
    exists t1, t2, (rev w), y, m, d, h, mi, se. split; [|split; [|split; [|auto]]].
    + rewrite <- (rev_involutive s), Ew, rev_app_distr. unfold trim_end_char in Hs. rewrite Hs, app_nil_r, <- !app_assoc. reflexivity.
    + intros X. apply (f_equal (@rev Z)) in X. rewrite rev_involutive in X. cbn in X. subst w. cbn [app] in Ew.
      unfold ends_with_char in W. destruct (rev s) as [|c r]; [discriminate|]. cbn [drop_while] in Ew. rewrite W in Ew.
      apply (f_equal (@length Z)) in Ew. cbn [length] in Ew. clear - Ew.
      assert (L : forall l, (length (drop_while (fun x => Z.eqb x 90) l) <= length l)%nat) by (induction l as [|a l IH]; cbn; [lia|destruct (a =? 90); cbn; lia]).
      specialize (L r). lia.
    + apply Forall_rev. eapply Forall_impl; [|exact Hw]. cbn. intros c Hc. now apply Z.eqb_eq.
  - unfold datetime_of_str in H. destruct (ndt_parse [] s) as [n|] eqn:P0; [discriminate|]. destruct (ndt_parse (lit "Z") s) as [n|] eqn:P; [|discriminate].
    apply ndt_parse_text in P as (t1 & t2 & y & m & d & h & mi & se & Hs & Hd & Ht & _ & _ & _ & _ & Hden).
    unfold from_local in H. change (ndt_ts n) with (seconds n) in H. destruct (tz_local (seconds n)) as [|o|o o'] eqn:Z0; cbn in H; inv H.
    exists t1, t2, y, m, d, h, mi, se, n, o. auto 10.
Qed.
Example C20_accepted_nonvacuous : padded 4 2024 (lit "2024") /\ padded 2 2 (lit "02") /\ padded 2 29 (lit "29") /\ gregorian 2024 2 29 /\
  exists n, denotes n 2024 2 29 23 59 60 /\ @datetime_of_str env_east (lit "20240229T235960Z") = Ok (Local (ndt_shift n (-3600))) /\ n = mk_ndt 19782 86399 1000000000.
Proof.
  assert (D : forall s, forallb (fun c => (48 <=? c) && (c <=? 57)) s = true -> digit_string s).
  { intros s H. apply Forall_forall. intros c I. rewrite forallb_forall in H. specialize (H c I). lia. }
  unfold padded. repeat match goal with |- _ /\ _ => split end; try reflexivity; try (apply D; reflexivity).
  - exists 29. split; [|lia]. apply ml_29. split; [exists 506; reflexivity|]. left. intros [k H]. lia.
  - exists (mk_ndt 19782 86399 1000000000). split; [split; [vm_compute; reflexivity|right; repeat split; vm_compute; reflexivity]|]. split; [vm_compute; reflexivity|reflexivity].
Qed.
