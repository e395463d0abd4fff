(** * C18-C22: the calendar, dates and date-times *)
From Verif Require Import Base Env Chrono Nom Types Ser Parser BaseFacts ChronoFacts DateText NomFacts SpecCal.

(** ** Links between model and specification *)
Lemma divides_mod a b : 0 < a -> divides a b <-> b mod a = 0.
Proof.
  intros Ha. split.
  - intros [k ->]. rewrite Z.mul_comm. apply Z.mod_mul. lia.
  - intros H. exists (b / a). pose proof (Z.div_mod b a ltac:(lia)). lia.
Qed.
Lemma is_leap_spec y : is_leap y = true <-> leap_year y.
Proof.
  unfold is_leap, leap_year. rewrite !divides_mod by lia.
  rewrite andb_true_iff, orb_true_iff, negb_true_iff, Z.eqb_neq, !Z.eqb_eq. tauto.
Qed.
Lemma days_in_month_spec y m n : 1 <= m <= 12 -> (days_in_month y m = n <-> month_length y m n).
Proof.
  intros Hm. split.
  - intros <-. destruct (m_cases m Hm) as [G|G]; mp_cases G; subst m; cbn;
      try (apply ml_31; cbn; tauto); try (apply ml_30; cbn; tauto).
    destruct (is_leap y) eqn:E; [apply ml_29; now apply is_leap_spec|apply ml_28].
    intros H. apply is_leap_spec in H. congruence.
  - intros H. inv H.
    + cbn in H0. repeat destruct H0 as [<-|H0]; try reflexivity. destruct H0.
    + cbn in H0. repeat destruct H0 as [<-|H0]; try reflexivity. destruct H0.
    + apply is_leap_spec in H0. cbn. now rewrite H0.
    + cbn. destruct (is_leap y) eqn:E; auto. apply is_leap_spec in E. tauto.
Qed.
Lemma month_length_range y m n : month_length y m n -> 1 <= m <= 12.
Proof. intros H; inv H; cbn in *; lia. Qed.
Lemma valid_ymd_spec y m d : valid_ymd y m d = true <-> gregorian y m d.
Proof.
  rewrite valid_ymd_iff. split.
  - intros [Hm Hd]. exists (days_in_month y m). split; auto. now apply days_in_month_spec.
  - intros (n & Hn & Hd). assert (Hm := month_length_range _ _ _ Hn). split; auto.
    apply days_in_month_spec in Hn; auto. lia.
Qed.

(** ** C18 *)
Theorem C18_gregorian_calendar :
  (* what is read from a day number is an existing date, whose day number it is *)
  (forall n y m d, ymd_of_days n = (y, m, d) -> gregorian y m d /\ days_of_ymd y m d = n) /\
  (* and conversely *)
  (forall y m d, gregorian y m d -> ymd_of_days (days_of_ymd y m d) = (y, m, d)) /\
  (* consecutive numbers are consecutive days; the origin is 1970-01-01 *)
  (forall n, next_day (ymd_of_days n) (ymd_of_days (n + 1))) /\
  ymd_of_days 0 = (1970, 1, 1) /\
  (* the numbering respects the order of dates *)
  (forall a b, a < b <-> before (ymd_of_days a) (ymd_of_days b)).
Proof.
  split; [|split; [|split; [|split]]].
  - intros n y m d H. apply valid_of_days in H as [V H]. split; auto. now apply valid_ymd_spec.
  - intros y m d H. apply ymd_of_days_of_ymd. now apply valid_ymd_spec.
  - intros n. destruct (ymd_of_days n) as [[y m] d] eqn:E. apply valid_of_days in E as [V <-].
    pose proof V as V'. apply valid_ymd_iff in V' as [Hm Hd].
    destruct (Z.eq_dec d (days_in_month y m)) as [->|Hn].
    + destruct (Z.eq_dec m 12) as [->|].
      * replace (days_of_ymd y 12 (days_in_month y 12) + 1) with (days_of_ymd (y + 1) 1 1).
        -- rewrite ymd_of_days_of_ymd by reflexivity. apply nd_year.
        -- rewrite days_next_year, (days_of_ymd_d y 12 (days_in_month y 12)). change (days_in_month y 12) with 31. lia.
      * replace (days_of_ymd y m (days_in_month y m) + 1) with (days_of_ymd y (m + 1) 1).
        -- rewrite ymd_of_days_of_ymd.
           ++ apply nd_month; [|lia]. now apply days_in_month_spec.
           ++ apply valid_ymd_iff. pose proof (days_in_month_bounds y (m + 1)). lia.
        -- rewrite days_next_month, (days_of_ymd_d y m (days_in_month y m)) by lia. lia.
    + replace (days_of_ymd y m d + 1) with (days_of_ymd y m (d + 1)) by (unfold days_of_ymd; lia).
      assert (V2 : valid_ymd y m (d + 1) = true) by (apply valid_ymd_iff; lia).
      rewrite ymd_of_days_of_ymd by auto. apply nd_day; now apply valid_ymd_spec.
  - reflexivity.
  - apply days_mono_iff.
Qed.
(** Building a date succeeds exactly for the existing dates of the supported years. *)
Theorem C18_from_ymd :
  forall y m d, (exists n, from_ymd_opt y m d = Some n) <-> gregorian y m d /\ -262143 <= y <= 262142.
Proof.
  intros y m d. split.
  - intros [n H]. apply from_ymd_opt_Some in H as (Hy & V & _). split; [now apply valid_ymd_spec|]. exact Hy.
  - intros [G Hy]. exists (days_of_ymd y m d). apply from_ymd_opt_Some. split; [exact Hy|]. split; auto. now apply valid_ymd_spec.
Qed.
Example C18_nonvacuous : gregorian 2024 2 29 /\ ~ gregorian 2023 2 29 /\ next_day (2024, 2, 29) (2024, 3, 1) /\ ymd_of_days 19782 = (2024, 2, 29).
Proof.
  assert (L : leap_year 2024). { apply is_leap_spec. reflexivity. }
  split; [exists 29; split; [now apply ml_29|lia]|]. split.
  - intros H. apply valid_ymd_spec in H. discriminate.
  - split; [|reflexivity]. apply (nd_month 2024 2 29); [now apply ml_29|lia].
Qed.

(** ** Texts *)
Lemma value_of_digits s : value_of s = digits_val s.
Proof.
  unfold value_of. rewrite digits_val_dval. rewrite <- (rev_involutive s) at 2. generalize (rev s). clear s.
  induction l as [|c l IH]; auto. cbn [value_rev rev]. rewrite dval_app, <- IH. cbn. lia.
Qed.
Lemma digit_string_all s : digit_string s <-> all_digits s = true.
Proof.
  unfold digit_string, all_digits. rewrite forallb_forall, Forall_forall. split; intros H c Hc; apply is_digit_iff; auto.
Qed.
Lemma show_pad_padded k n : (0 < k)%nat -> 0 <= n < 10 ^ Z.of_nat k -> padded k n (show_pad k n).
Proof.
  intros Hk Hn. split; [now apply show_pad_length|]. split; [apply digit_string_all, show_pad_digits; lia|].
  rewrite value_of_digits. apply show_pad_val. lia.
Qed.

(** The property parser of dates and date-times applied to a whole text. *)
Definition read_date (s : str) : outcome date := pfinish (p_date_or_dt s).
Definition read_datetime (s : str) : outcome datetime := pfinish (p_date_time s).

(** ** C19 *)
Theorem C19_date_round_trip :
  forall (E : Env) (n : ndate) y m d, ymd_of_days n = (y, m, d) -> 0 <= y <= 9999 ->
    (exists sy sm sd, date_str (DDate n) = sy ++ sm ++ sd /\ padded 4 y sy /\ padded 2 m sm /\ padded 2 d sd) /\
    date_of_str (date_str (DDate n)) = Ok (DDate n) /\
    read_date (date_str (DDate n)) = Ok (DDate n).
Proof.
  intros E n y m d H Hy. assert (Hyear : 0 <= date_year n < 10000) by (unfold date_year; rewrite H; cbn; lia).
  split; [|split].
  - cbn [date_str]. unfold date_show. rewrite H. apply month_range in H.
    exists (show_pad 4 y), (show_pad 2 m), (show_pad 2 d).
    split; [unfold show_year; destruct (Z.leb_spec 0 y), (Z.ltb_spec y 10000); try lia; reflexivity|].
    repeat split; try (apply show_pad_padded; cbn; lia).
  - cbn [date_str]. unfold date_of_str. now rewrite date_parse_show.
  - cbn [date_str]. unfold read_date, p_date_or_dt, palt, pmap, pbind, p_date. now rewrite date_parse_show.
Qed.
Theorem C19_other_years_rejected :
  forall (E : Env) (n : ndate) y m d, ymd_of_days n = (y, m, d) -> ~ 0 <= y <= 9999 ->
    (exists e, date_of_str (date_str (DDate n)) = Err e) /\ (exists e, read_date (date_str (DDate n)) = Err e).
Proof.
  intros E n y m d H Hy. assert (Hyear : ~ 0 <= date_year n < 10000) by (unfold date_year; rewrite H; cbn; lia).
  assert (N1 : forall suf, ndt_parse suf (date_show n) = None).
  { intros suf. rewrite <- (app_nil_r (date_show n)). apply ndt_parse_date_show; cbn; auto. }
  cbn [date_str]. split; eexists.
  - unfold date_of_str, datetime_of_str. rewrite date_parse_big by auto. rewrite !N1. reflexivity.
  - unfold read_date, p_date_or_dt, palt, pmap, pbind, p_date, p_date_time.
    rewrite date_parse_big by auto.
    replace (trim_end_char 90 (date_show n)) with (date_show n); [now rewrite N1|].
    unfold trim_end_char. pose proof (date_show_chars n) as Hc. rewrite <- (rev_involutive (date_show n)) at 1. f_equal.
    destruct (rev (date_show n)) as [|c r] eqn:Er; auto. cbn [drop_while].
    destruct (Z.eqb_spec c 90); auto. subst c. assert (Hin : In 90 (date_show n)) by (apply in_rev; rewrite Er; cbn; auto).
    rewrite Forall_forall in Hc. apply Hc in Hin. unfold date_char in Hin. lia.
Qed.
Example C19_nonvacuous : exists n, ymd_of_days n = (2024, 2, 29) /\ exists n', ymd_of_days n' = (12024, 2, 29).
Proof. exists 19782. split; [reflexivity|]. exists (days_of_ymd 12024 2 29). reflexivity. Qed.

(** ** C20 *)
Lemma drop_while_split f s : exists w, s = w ++ drop_while f s /\ Forall (fun c => f c = true) w.
Proof.
  induction s as [|c s (w & E & H)]; [now exists []|]. cbn. destruct (f c) eqn:Hc; [|now exists []].
  exists (c :: w). split; [cbn; congruence|auto].
Qed.
Lemma scan_number_text k s r v : scan_number k s = Some (r, v) -> exists ds, s = ds ++ r /\ digit_string ds /\ ds <> [] /\ (length ds <= k)%nat /\ value_of ds = v.
Proof.
  intros H. apply scan_number_inv in H as (ds & -> & Hd & Hn & Hl & Hv). exists ds.
  rewrite digit_string_all, value_of_digits. auto.
Qed.
Lemma num2_text s r v : num2 s = Some (r, v) -> exists t, s = t ++ r /\ number_text 2 t v.
Proof.
  unfold num2, trim_start. intros H. apply scan_number_text in H as (ds & E & Hd & Hn & Hl & Hv).
  destruct (drop_while_split is_whitespace s) as (w & Ew & Hw). rewrite E, app_assoc in Ew.
  exists (w ++ ds). split; auto. exists w, ds. auto 10.
Qed.
Lemma num_year_text s r v : num_year s = Some (r, v) -> exists t, s = t ++ r /\ year_text t v.
Proof.
  unfold num_year, trim_start. destruct (drop_while_split is_whitespace s) as (w & Ew & Hw).
  destruct (drop_while is_whitespace s) as [|c x] eqn:Ed; [congruence|].
  destruct (Z.eqb_spec c 45) as [->|H45].
  - destruct (scan_number (length x) x) as [[r0 v0]|] eqn:H; [|congruence]. intros [= <- <-].
    apply scan_number_text in H as (ds & -> & Hd & Hn & _ & <-).
    exists (w ++ [45] ++ ds). split; [rewrite Ew, <- !app_assoc; reflexivity|]. now apply yt_minus.
  - destruct (Z.eqb_spec c 43) as [->|H43].
    + intros H. apply scan_number_text in H as (ds & -> & Hd & Hn & _ & <-).
      exists (w ++ [43] ++ ds). split; [rewrite Ew, <- !app_assoc; reflexivity|]. now apply yt_plus.
    + intros H. apply scan_number_text in H as (ds & E & Hd & Hn & Hl & <-).
      exists (w ++ ds). split; [rewrite Ew, E, <- app_assoc; reflexivity|]. apply yt_plain. exists w, ds. auto 10.
Qed.
Lemma scan_ymd_text s r y m d : scan_ymd s = Some (r, (y, m, d)) -> exists t, s = t ++ r /\ date_text t y m d.
Proof.
  unfold scan_ymd. destruct (num_year s) as [[s1 y1]|] eqn:H1; [|congruence].
  destruct (num2 s1) as [[s2 m1]|] eqn:H2; [|congruence].
  destruct (num2 s2) as [[s3 d1]|] eqn:H3; [|congruence]. intros [= <- <- <- <-].
  apply num_year_text in H1 as (a & -> & Ha). apply num2_text in H2 as (b & -> & Hb). apply num2_text in H3 as (c & -> & Hc).
  exists (a ++ b ++ c). split; [now rewrite <- !app_assoc|]. exists a, b, c. auto.
Qed.
Lemma date_parse_text s n : date_parse s = Some n -> exists y m d, date_text s y m d /\ gregorian y m d /\ ymd_of_days n = (y, m, d).
Proof.
  unfold date_parse. destruct (scan_ymd s) as [[r [[y m] d]]|] eqn:H; [|congruence].
  destruct r; [|congruence]. intros Hf. apply scan_ymd_text in H as (t & -> & Ht). rewrite app_nil_r.
  exists y, m, d. split; auto. apply from_ymd_opt_iff in Hf as [E _]. split; auto.
  apply valid_of_days in E as [V _]. now apply valid_ymd_spec.
Qed.
(** The value of a date-time text: date, then seconds; :60 is a leap second. *)
Definition denotes (n : ndt) (y m d h mi se : Z) : Prop :=
  ymd_of_days (nd_date n) = (y, m, d) /\
  (se <= 59 /\ nd_secs n = h * 3600 + mi * 60 + se /\ nd_nano n = 0 \/
   se = 60 /\ nd_secs n = h * 3600 + mi * 60 + 59 /\ nd_nano n = 1000000000).
Lemma ndt_parse_text suf s n : ndt_parse suf s = Some n ->
  exists t1 t2 y m d h mi se, s = t1 ++ [84] ++ t2 ++ suf /\ date_text t1 y m d /\ time_text t2 h mi se /\
    gregorian y m d /\ 0 <= h <= 23 /\ 0 <= mi <= 59 /\ 0 <= se <= 60 /\ denotes n y m d h mi se.
Proof.
  unfold ndt_parse. destruct (scan_ymd s) as [[s1 [[y m] d]]|] eqn:H1; [|congruence].
  destruct (lit_char 84 s1) as [s2|] eqn:H2; [|congruence].
  destruct (num2 s2) as [[s3 h]|] eqn:H3; [|congruence].
  destruct (num2 s3) as [[s4 mi]|] eqn:H4; [|congruence].
  destruct (num2 s4) as [[s5 se]|] eqn:H5; [|congruence].
  destruct (strip_prefix suf s5) as [r|] eqn:H6; [|congruence]. destruct r; [|congruence].
  destruct (from_ymd_opt y m d) as [dd|] eqn:H7; [|congruence]. intros H8.
  apply scan_ymd_text in H1 as (t1 & -> & Ht1).
  assert (s1 = 84 :: s2) as ->.
  { unfold lit_char in H2. destruct s1 as [|x s1]; [congruence|]. destruct (Z.eqb_spec x 84); congruence. }
  apply num2_text in H3 as (a & -> & Ha). apply num2_text in H4 as (b & -> & Hb). apply num2_text in H5 as (c & -> & Hc).
  apply strip_prefix_Some in H6 as ->. rewrite app_nil_r.
  apply from_ymd_opt_iff in H7 as [E _]. pose proof E as G. apply valid_of_days in G as [V _].
  unfold hms in H8. destruct (_ && _) eqn:Hr; [|congruence]. bool_hyps.
  exists t1, (a ++ b ++ c), y, m, d, h, mi, se. split; [rewrite <- !app_assoc; reflexivity|].
  split; auto. split; [exists a, b, c; auto|]. split; [now apply valid_ymd_spec|].
  do 3 (split; [lia|]). unfold denotes. destruct (Z.eqb_spec se 60) as [->|Hse]; inv H8; cbn; split; auto.
  left. lia.
Qed.
Theorem C20_only_real_dates :
  forall (E : Env) (s : str) (d : date),
    date_of_str s = Ok d \/ read_date s = Ok d ->
    match d with
    | DDate n => exists y m d, date_text s y m d /\ gregorian y m d /\ ymd_of_days n = (y, m, d)
    | DDateTime _ =>
        (* [n] is the wall clock read from the text *)
        exists t1 t2 zs y m d h mi se, s = t1 ++ [84] ++ t2 ++ zs /\ Forall (fun c => c = 90) zs /\
          date_text t1 y m d /\ time_text t2 h mi se /\
          gregorian y m d /\ 0 <= h <= 23 /\ 0 <= mi <= 59 /\ 0 <= se <= 60
    end.
Proof.
  intros E s d [H|H].
  - unfold date_of_str in H. destruct (date_parse s) as [n|] eqn:Hd; [inv H; now apply date_parse_text|].
    ok_inv. unfold datetime_of_str in H.
    destruct (ndt_parse [] s) as [n|] eqn:H1; [|destruct (ndt_parse (lit "Z") s) as [n|] eqn:H2; [|congruence]].
    + apply ndt_parse_text in H1 as (t1 & t2 & y & m & d & h & mi & se & Hs & R). exists t1, t2, [], y, m, d, h, mi, se. intuition.
    + apply ndt_parse_text in H2 as (t1 & t2 & y & m & d & h & mi & se & Hs & R). exists t1, t2, [90], y, m, d, h, mi, se. intuition.
  - unfold read_date, p_date_or_dt, palt, pmap, pbind, p_date in H.
    destruct (date_parse s) as [n|] eqn:Hd; [cbn in H; inv H; now apply date_parse_text|].
    unfold p_date_time in H. destruct (ndt_parse [] (trim_end_char 90 s)) as [n|] eqn:H1; [|discriminate].
    cbn in H. inv H. apply ndt_parse_text in H1 as (t1 & t2 & y & m & d & h & mi & se & Hs & R).
    destruct (drop_while_split (fun x => x =? 90) (rev s)) as (w & Ew & Hw).
    exists t1, t2, (rev w), y, m, d, h, mi, se. split.
    + rewrite <- (rev_involutive s), Ew, rev_app_distr. unfold trim_end_char in Hs. rewrite Hs, app_nil_r, <- !app_assoc. reflexivity.
    + split; [|tauto]. apply Forall_rev. eapply Forall_impl; [|exact Hw]. cbn. intros c Hc. now apply Z.eqb_eq.
Qed.
(** The naive value is the one the text denotes. *)
Theorem C20_naive_value :
  forall (E : Env) (s : str) (n : ndt),
    datetime_of_str s = Ok (Naive n) \/ read_datetime s = Ok (Naive n) ->
    exists t1 t2 y m d h mi se, s = t1 ++ [84] ++ t2 /\ date_text t1 y m d /\ time_text t2 h mi se /\ denotes n y m d h mi se.
Proof.
  intros E s n H.
  assert (G : ndt_parse [] s = Some n).
  { destruct H as [H|H].
    - unfold datetime_of_str in H. destruct (ndt_parse [] s) as [n'|] eqn:H1; [congruence|].
      destruct (ndt_parse (lit "Z") s); [|congruence]. ok_inv. congruence.
    - unfold read_datetime, p_date_time in H. destruct (ndt_parse [] (trim_end_char 90 s)) as [n'|] eqn:H1; [|discriminate].
      cbn in H. destruct (ends_with_char 90 s) eqn:He; [discriminate|]. inv H.
      replace (trim_end_char 90 s) with s in H1; auto.
      unfold ends_with_char in He. unfold trim_end_char. destruct (rev s) as [|c r] eqn:Er.
      + rewrite <- (rev_involutive s), Er. reflexivity.
      + cbn [drop_while]. rewrite He, <- Er. now rewrite rev_involutive. }
  apply ndt_parse_text in G as (t1 & t2 & y & m & d & h & mi & se & Hs & Hd & Ht & _ & _ & _ & _ & Hden).
  rewrite app_nil_r in Hs. exists t1, t2, y, m, d, h, mi, se. auto.
Qed.
Example C20_nonvacuous : forall E : Env,
  date_of_str (lit "20240229T235960") = Ok (DDateTime (Naive (mk_ndt 19782 86399 1000000000))) /\
  (exists e, date_of_str (lit "20230229") = Err e) /\ (exists e, read_date (lit "20240101T240000") = Err e).
Proof. intros E. split; [reflexivity|]. split; eexists; vm_compute; reflexivity. Qed.

(** ** C21 *)
Lemma Z_not_date_char : ~ date_char 90. Proof. unfold date_char. lia. Qed.
Lemma trim_Z_app s : Forall date_char s -> trim_end_char 90 s = s /\ ends_with_char 90 s = false.
Proof.
  intros H. unfold trim_end_char, ends_with_char. destruct (rev s) as [|c r] eqn:Er.
  - rewrite <- (rev_involutive s), Er. auto.
  - assert (In c s) by (apply in_rev; rewrite Er; cbn; auto). rewrite Forall_forall in H. apply H in H0.
    assert ((c =? 90) = false) as Hc by (apply Z.eqb_neq; unfold date_char in H0; lia). cbn [drop_while]. rewrite Hc.
    rewrite <- Er, rev_involutive. auto.
Qed.
(** No fraction of a second; a leap second is second 60. *)
Definition whole_second (n : ndt) : Prop :=
  0 <= nd_secs n < 86400 /\ (nd_nano n = 0 \/ nd_nano n = 1000000000 /\ nd_secs n mod 60 = 59).
Definition year_of (n : ndt) (y : Z) : Prop := exists m d, ymd_of_days (nd_date n) = (y, m, d).
Lemma whole_wf n y : whole_second n -> year_of n y -> 0 <= y <= 9999 -> ndt_wf n = true /\ 0 <= date_year (nd_date n) < 10000.
Proof.
  intros [Hs Hn] (m & d & E) Hy. assert (H : 0 <= date_year (nd_date n) < 10000) by (unfold date_year; rewrite E; cbn; lia).
  split; auto. unfold ndt_wf. rewrite (year_date_ok _ H). cbn [andb]. unfold NANOS.
  rewrite !andb_true_iff, !Z.leb_le, !Z.ltb_lt. lia.
Qed.
Theorem C21_naive_round_trip :
  forall (E : Env) (n : ndt) y, whole_second n -> year_of n y -> 0 <= y <= 9999 ->
    let t := DDateTime (Naive n) in
    (exists sy sm sd sh si ss m d, date_str t = sy ++ sm ++ sd ++ [84] ++ sh ++ si ++ ss /\
        padded 4 y sy /\ padded 2 m sm /\ padded 2 d sd /\ padded 2 (nd_secs n / 3600) sh /\
        padded 2 (nd_secs n / 60 mod 60) si /\ padded 2 (nd_secs n mod 60 + nd_nano n / 1000000000) ss /\
        ymd_of_days (nd_date n) = (y, m, d)) /\
    date_of_str (date_str t) = Ok t /\ datetime_of_str (date_str t) = Ok (Naive n) /\
    read_date (date_str t) = Ok t /\ read_datetime (date_str t) = Ok (Naive n).
Proof.
  intros E n y Hw Hyo Hy t. destruct (whole_wf n y Hw Hyo Hy) as [Hwf Hyr].
  assert (Hp := ndt_parse_show_nil n Hyr Hw).
  assert (Hd := date_parse_ndt_show n []). rewrite app_nil_r in Hd.
  destruct (trim_Z_app (ndt_show n) (ndt_show_chars n Hwf)) as [Ht Hz].
  subst t. cbn [date_str dt_show]. split; [|split; [|split; [|split]]].
  - destruct Hyo as (m & d & Ey). pose proof (month_range _ _ _ _ Ey). destruct Hw as [Hs Hn].
    destruct (time_parts _ Hs) as (T1 & T2 & T3 & _). pose proof (sec_range _ _ Hs Hn) as T4. unfold NANOS in T4.
    exists (show_pad 4 y), (show_pad 2 m), (show_pad 2 d), (show_pad 2 (nd_secs n / 3600)), (show_pad 2 (nd_secs n / 60 mod 60)),
      (show_pad 2 (nd_secs n mod 60 + nd_nano n / 1000000000)), m, d.
    split.
    + unfold ndt_show, date_show, time_show, show_year. rewrite Ey.
      destruct (Z.leb_spec 0 y), (Z.ltb_spec y 10000); try lia. cbn [andb]. rewrite <- !app_assoc. reflexivity.
    + repeat (split; [apply show_pad_padded; cbn; lia|]). auto.
  - unfold date_of_str, datetime_of_str. rewrite Hd, Hp. reflexivity.
  - unfold datetime_of_str. now rewrite Hp.
  - unfold read_date, p_date_or_dt, palt, pmap, pbind, p_date, p_date_time. rewrite Hd, Ht, Hp, Hz. reflexivity.
  - unfold read_datetime, p_date_time. rewrite Ht, Hp, Hz. reflexivity.
Qed.
Example C21_nonvacuous : whole_second (mk_ndt 19782 86399 1000000000) /\ year_of (mk_ndt 19782 86399 1000000000) 2024.
Proof. split; [split; cbn; [lia|right; auto]|exists 2, 29; reflexivity]. Qed.

(** ** C22 *)
(** The written text of a zoned date-time is its local wall clock and 'Z'; the
    property parser takes that wall clock for UTC. *)
Theorem C22_property_parser_shifts :
  forall (E : Env) (u : ndt) y, whole_second (naive_local u) -> year_of (naive_local u) y -> 0 <= y <= 9999 ->
    dt_show (Local u) = dt_show (Naive (naive_local u)) ++ [90] /\
    read_datetime (dt_show (Local u)) = Ok (Local (naive_local u)) /\
    ndt_ts (naive_local u) = ndt_ts u + tz_offset (ndt_ts u) /\
    (read_datetime (dt_show (Local u)) = Ok (Local u) <-> tz_offset (ndt_ts u) = 0 /\ 0 <= nd_secs u < 86400).
Proof.
  intros E u y Hw Hyo Hy. destruct (whole_wf _ y Hw Hyo Hy) as [Hwf Hyr].
  assert (Hp := ndt_parse_show_nil _ Hyr Hw).
  destruct (trim_Z_app _ (ndt_show_chars _ Hwf)) as [Ht Hz].
  assert (R : read_datetime (dt_show (Local u)) = Ok (Local (naive_local u))).
  { unfold read_datetime, p_date_time. cbn [dt_show].
    assert (E1 : trim_end_char 90 (ndt_show (naive_local u) ++ lit "Z") = ndt_show (naive_local u)).
    { unfold trim_end_char. rewrite rev_app_distr. cbn [lit rev app]. change (rev (lit "Z")) with [90]. cbn [app drop_while]. exact Ht. }
    assert (E2 : ends_with_char 90 (ndt_show (naive_local u) ++ lit "Z") = true).
    { unfold ends_with_char. rewrite rev_app_distr. reflexivity. }
    rewrite E1, E2, Hp. reflexivity. }
  assert (Ts : ndt_ts (naive_local u) = ndt_ts u + tz_offset (ndt_ts u)).
  { unfold naive_local, ndt_shift, ndt_ts. cbn. pose proof (Z.div_mod (nd_secs u + tz_offset (nd_date u * 86400 + nd_secs u)) 86400 ltac:(lia)). lia. }
  split; [reflexivity|]. split; auto. split; auto. rewrite R. split.
  - intros [= Eu]. rewrite Eu in Ts. split; [lia|]. rewrite <- Eu. unfold naive_local, ndt_shift; cbn. apply Z.mod_pos_bound. lia.
  - intros [H0 Hs]. do 2 f_equal. unfold naive_local, ndt_shift. rewrite H0, Z.add_0_r.
    rewrite Z.div_small, Z.mod_small, Z.add_0_r by lia. now destruct u.
Qed.
(** [FromStr] instead asks for the instant of that wall clock: it gives the
    original back when the zone maps the wall clock to it alone, and panics when
    the wall clock is skipped or ambiguous. *)
Theorem C22_from_str :
  forall (E : Env) (u : ndt) y, whole_second (naive_local u) -> year_of (naive_local u) y -> 0 <= y <= 9999 ->
    let l := naive_local u in
    (tz_local (ndt_ts l) = MSingle (tz_offset (ndt_ts u)) -> 0 <= nd_secs u < 86400 -> datetime_of_str (dt_show (Local u)) = Ok (Local u)) /\
    ((forall o, tz_local (ndt_ts l) <> MSingle o) -> datetime_of_str (dt_show (Local u)) = Panic).
Proof.
  intros E u y Hw Hyo Hy l. destruct (whole_wf _ y Hw Hyo Hy) as [Hwf Hyr].
  assert (N : ndt_parse [] (dt_show (Local u)) = None).
  { cbn [dt_show]. destruct (ndt_parse [] (ndt_show (naive_local u) ++ lit "Z")) as [n|] eqn:H; auto. exfalso.
    unfold ndt_parse in H. unfold ndt_show, time_show in H. rewrite <- !app_assoc in H. rewrite scan_ymd_show in H by auto.
    destruct (ymd_of_days (nd_date (naive_local u))) as [[yy mm] dd]. change (lit "T") with [84] in H. cbn [app] in H.
    unfold lit_char in H. change (84 =? 84) with true in H. cbv iota in H.
    destruct Hw as [Hs Hn]. destruct (time_parts _ Hs) as (T1 & T2 & T3 & _). pose proof (sec_range _ _ Hs Hn) as T4.
    rewrite num2_pad in H by lia. rewrite num2_pad in H by lia. rewrite num2_pad in H by lia. cbn in H. congruence. }
  assert (P : ndt_parse (lit "Z") (dt_show (Local u)) = Some l) by (apply ndt_parse_show; auto).
  unfold datetime_of_str. rewrite N, P. unfold from_local. split.
  - intros H Hs. rewrite H. cbn. do 2 f_equal. subst l. unfold naive_local, ndt_shift. cbn [nd_secs nd_date nd_nano].
    set (o := tz_offset (ndt_ts u)). pose proof (Z.div_mod (nd_secs u + o) 86400 ltac:(lia)).
    pose proof (Z.mod_pos_bound (nd_secs u + o) 86400 ltac:(lia)).
    set (q := (nd_secs u + o) / 86400) in *. set (r := (nd_secs u + o) mod 86400) in *.
    rewrite (div_is (r + - o) 86400 (- q) (nd_secs u)) by lia. rewrite (mod_is (r + - o) 86400 (- q) (nd_secs u)) by lia.
    replace (nd_date u + q + - q) with (nd_date u) by lia. now destruct u.
  - intros H. destruct (tz_local (ndt_ts l)) as [|o|a b]; auto. now exfalso; apply (H o).
Qed.
(** A zone one hour east of UTC: the hypotheses hold and the cycle moves the instant. *)
Definition env_east : Env := {| tz_offset := fun _ => 3600; tz_local := fun _ => MSingle 3600;
  f32_show := fun _ => []; f32_show1 := fun _ => []; f32_parse := fun _ => None; upper_nonascii := fun c => [c] |}.
Example C22_nonvacuous :
  let u := mk_ndt 19782 0 0 in
  @whole_second (@naive_local env_east u) /\ year_of (@naive_local env_east u) 2024 /\
  read_datetime (@dt_show env_east (Local u)) = Ok (Local (mk_ndt 19782 3600 0)) /\
  @datetime_of_str env_east (@dt_show env_east (Local u)) = Ok (Local u).
Proof. split; [split; cbn; [lia|auto]|]. split; [exists 2, 29; reflexivity|]. split; vm_compute; reflexivity. Qed.
