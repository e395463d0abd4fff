(** * Texts of dates, date-times, offsets and durations. *)
From Verif Require Import Base Env Chrono BaseFacts ChronoFacts.

Lemma take_digits_app k ds s : all_digits ds = true -> length ds = k -> take_digits k (ds ++ s) = (ds, s).
Proof.
  intros H <-. revert H. induction ds as [|c ds IH]; cbn; [auto|]. intros H. bool_hyps.
  rewrite H. fold (all_digits ds) in H0. now rewrite IH.
Qed.
Definition not_digit_head (s : str) : Prop := match s with c :: _ => is_digit c = false | [] => True end.
Lemma take_digits_short k ds s : all_digits ds = true -> (length ds <= k)%nat -> not_digit_head s ->
  take_digits k (ds ++ s) = (ds, s).
Proof.
  revert ds; induction k as [|k IH]; intros ds H Hl Hs.
  - destruct ds; [|cbn in Hl; lia]. reflexivity.
  - destruct ds as [|c ds]; cbn.
    + destruct s as [|c s]; auto. cbn in Hs. now rewrite Hs.
    + cbn in H. bool_hyps. rewrite H. fold (all_digits ds) in H0. cbn in Hl. rewrite IH; auto. lia.
Qed.
Lemma take_digits_inv k s ds r : take_digits k s = (ds, r) ->
  s = ds ++ r /\ all_digits ds = true /\ (length ds <= k)%nat.
Proof.
  revert s ds r; induction k as [|k IH]; intros s ds r; cbn; [intros [= <- <-]; auto|].
  destruct s as [|c s]; [intros [= <- <-]; auto with arith|].
  destruct (is_digit c) eqn:Hc; [|intros [= <- <-]; cbn; auto with arith].
  destruct (take_digits k s) as [a b] eqn:Ht. intros [= <- <-]. apply IH in Ht as (-> & H & Hl).
  cbn. rewrite Hc. repeat split; auto. lia.
Qed.
Lemma digit_not_ws c : is_digit c = true -> is_whitespace c = false.
Proof.
  intros H. apply is_digit_iff in H. unfold is_whitespace.
  repeat match goal with |- context [?a <=? ?b] => destruct (Z.leb_spec a b); try lia end;
  repeat match goal with |- context [?a =? ?b] => destruct (Z.eqb_spec a b); try lia end; auto.
Qed.
Lemma trim_start_digits ds s : all_digits ds = true -> ds <> [] -> trim_start (ds ++ s) = ds ++ s.
Proof.
  destruct ds as [|c ds]; [congruence|]. cbn. intros H _. bool_hyps. now rewrite digit_not_ws.
Qed.
Lemma digits_val_nonneg s : all_digits s = true -> 0 <= digits_val s.
Proof. intros. rewrite digits_val_dval. now apply dval_bounds. Qed.

Lemma scan_number_app k ds s : all_digits ds = true -> length ds = k -> (0 < k)%nat ->
  digits_val ds <= I64MAX -> scan_number k (ds ++ s) = Some (s, digits_val ds).
Proof.
  intros H Hl Hk Hv. unfold scan_number. rewrite take_digits_app by auto.
  destruct ds; [cbn in Hl; lia|]. now destruct (Z.leb_spec (digits_val (z :: ds)) I64MAX); [|lia].
Qed.
Lemma scan_number_short k ds s : all_digits ds = true -> (length ds <= k)%nat -> ds <> [] ->
  not_digit_head s -> digits_val ds <= I64MAX -> scan_number k (ds ++ s) = Some (s, digits_val ds).
Proof.
  intros H Hl Hk Hs Hv. unfold scan_number. rewrite take_digits_short by auto.
  destruct ds; [congruence|]. now destruct (Z.leb_spec (digits_val (z :: ds)) I64MAX); [|lia].
Qed.
Lemma scan_number_inv k s r v : scan_number k s = Some (r, v) ->
  exists ds, s = ds ++ r /\ all_digits ds = true /\ ds <> [] /\ (length ds <= k)%nat /\ digits_val ds = v.
Proof.
  unfold scan_number. destruct (take_digits k s) as [ds r'] eqn:Ht.
  apply take_digits_inv in Ht as (-> & H & Hl).
  destruct ds as [|c ds]; [congruence|]. destruct (_ <=? _); [|congruence]. intros [= <- <-].
  exists (c :: ds). repeat split; auto. congruence.
Qed.
Lemma num2_pad n s : 0 <= n < 100 -> num2 (show_pad 2 n ++ s) = Some (s, n).
Proof.
  intros H. unfold num2. rewrite trim_start_digits; [|apply show_pad_digits; lia|apply show_pad_nonnil].
  rewrite (scan_number_app 2); auto with arith.
  - rewrite show_pad_val; [auto|lia].
  - apply show_pad_digits; lia.
  - apply show_pad_length; cbn; lia.
  - rewrite show_pad_val by lia. unfold I64MAX. lia.
Qed.
Lemma head_not_sign s c r : all_digits s = true -> s = c :: r -> (c =? 45) = false /\ (c =? 43) = false.
Proof. intros H ->. cbn in H. bool_hyps. apply is_digit_iff in H. lia. Qed.
Lemma num_year_pad y s : 0 <= y < 10000 -> num_year (show_year y ++ s) = Some (s, y).
Proof.
  intros H. unfold show_year.
  destruct (Z.leb_spec 0 y), (Z.ltb_spec y 10000); try lia. cbn [andb].
  assert (Hd := show_pad_digits 4 y ltac:(lia)). assert (Hn := show_pad_nonnil 4 y).
  assert (Hl := show_pad_length 4 y ltac:(lia) ltac:(cbn; lia)). assert (Hv := show_pad_val 4 y ltac:(lia)).
  unfold num_year. rewrite trim_start_digits by auto.
  remember (show_pad 4 y) as p. destruct p as [|c r]; [congruence|].
  destruct (head_not_sign _ _ _ Hd eq_refl) as [E1 E2]. cbn [app]. rewrite E1, E2.
  change (c :: r ++ s) with ((c :: r) ++ s). rewrite (scan_number_app 4); auto; try lia.
  - now rewrite Hv.
  - rewrite Hv. unfold I64MAX. lia.
Qed.

(** ** Dates *)
Lemma month_range n y m d : ymd_of_days n = (y, m, d) -> 1 <= m <= 12 /\ 1 <= d <= 31.
Proof.
  intros E. apply valid_of_days in E as [V _]. apply valid_ymd_iff in V.
  pose proof (days_in_month_bounds y m). lia.
Qed.
Lemma scan_ymd_show n s : 0 <= date_year n < 10000 -> scan_ymd (date_show n ++ s) = Some (s, ymd_of_days n).
Proof.
  unfold date_year, date_show, scan_ymd. destruct (ymd_of_days n) as [[y m] d] eqn:E. cbn [fst].
  intros Hy. apply month_range in E as [Hm Hd]. rewrite <- !app_assoc.
  rewrite num_year_pad, num2_pad, num2_pad by lia. reflexivity.
Qed.
Lemma from_ymd_opt_of_days n : date_ok n = true ->
  (let '(y, m, d) := ymd_of_days n in from_ymd_opt y m d) = Some n.
Proof. intros H. destruct (ymd_of_days n) as [[y m] d] eqn:E. apply from_ymd_opt_iff; auto. Qed.
Lemma year_date_ok n : 0 <= date_year n < 10000 -> date_ok n = true.
Proof. intros. apply date_ok_year. unfold MIN_YEAR, MAX_YEAR. lia. Qed.
Lemma date_parse_show n : 0 <= date_year n < 10000 -> date_parse (date_show n) = Some n.
Proof.
  intros H. unfold date_parse. rewrite <- (app_nil_r (date_show n)), scan_ymd_show by auto.
  pose proof (from_ymd_opt_of_days n (year_date_ok n H)). now destruct (ymd_of_days n) as [[y m] d].
Qed.

(** A signed year swallows every digit that follows. *)
Lemma num_year_signed c ds s : c = 45 \/ c = 43 -> all_digits ds = true -> not_digit_head s ->
  num_year (c :: ds ++ s) = None \/ exists v, num_year (c :: ds ++ s) = Some (s, v).
Proof.
  intros Hc Hd Hs. unfold num_year.
  assert (T : trim_start (c :: ds ++ s) = c :: ds ++ s) by (unfold trim_start; destruct Hc as [-> | ->]; reflexivity).
  rewrite T.
  assert (S : scan_number (length (ds ++ s)) (ds ++ s) = None \/
              scan_number (length (ds ++ s)) (ds ++ s) = Some (s, digits_val ds)).
  { unfold scan_number. rewrite take_digits_short; auto; [|rewrite app_length; lia].
    destruct ds; auto. destruct (_ <=? _); auto. }
  destruct Hc as [-> | ->].
  - change (45 =? 45) with true. cbv iota. destruct S as [-> | ->]; eauto.
  - change (43 =? 45) with false. change (43 =? 43) with true. cbv iota. destruct S as [-> | ->]; eauto.
Qed.
Lemma num2_not_digit s : match s with c :: _ => is_digit c = false /\ is_whitespace c = false | [] => True end ->
  num2 s = None.
Proof.
  unfold num2, trim_start, scan_number. destruct s as [|c s]; cbn; auto. intros [H ->]. cbn. now rewrite H.
Qed.
Lemma show_year_big y : ~ (0 <= y < 10000) ->
  exists c ds, (c = 45 \/ c = 43) /\ all_digits ds = true /\ show_year y = c :: ds.
Proof.
  intros H. unfold show_year.
  destruct (Z.leb_spec 0 y), (Z.ltb_spec y 10000); try lia; cbn [andb];
    destruct (Z.ltb_spec y 0); try lia; eexists _, _; (split; [|split; [|reflexivity]]);
      auto; apply show_pad_digits; lia.
Qed.
Lemma scan_ymd_big n s : ~ (0 <= date_year n < 10000) ->
  match s with c :: _ => is_digit c = false /\ is_whitespace c = false | [] => True end ->
  scan_ymd (date_show n ++ s) = None.
Proof.
  unfold date_year, date_show, scan_ymd. destruct (ymd_of_days n) as [[y m] d] eqn:E. cbn [fst].
  intros Hy Hs. apply month_range in E as [Hm Hd].
  destruct (show_year_big y Hy) as (c & ds & Hc & Hds & ->).
  replace ((( c :: ds) ++ show_pad 2 m ++ show_pad 2 d) ++ s)
    with (c :: (ds ++ show_pad 2 m ++ show_pad 2 d) ++ s) by (cbn; now rewrite <- !app_assoc).
  destruct (num_year_signed c (ds ++ show_pad 2 m ++ show_pad 2 d) s) as [-> | [v ->]]; auto.
  - now rewrite !all_digits_app, Hds, !show_pad_digits by lia.
  - destruct s; cbn; tauto.
  - now rewrite num2_not_digit.
Qed.

(** ** Date-times *)
Definition whole (n : ndt) : Prop :=
  0 <= nd_secs n < 86400 /\ (nd_nano n = 0 \/ nd_nano n = NANOS /\ nd_secs n mod 60 = 59).
Lemma time_parts s : 0 <= s < 86400 ->
  0 <= s / 3600 < 24 /\ 0 <= s / 60 mod 60 < 60 /\ 0 <= s mod 60 < 60 /\
  s = s / 3600 * 3600 + s / 60 mod 60 * 60 + s mod 60.
Proof.
  intros H. pose proof (Z.div_mod s 60 ltac:(lia)). pose proof (Z.mod_pos_bound s 60 ltac:(lia)).
  pose proof (Z.div_mod (s / 60) 60 ltac:(lia)). pose proof (Z.mod_pos_bound (s / 60) 60 ltac:(lia)).
  rewrite Z.div_div in H2 by lia. change (60 * 60) with 3600 in H2.
  set (x := s / 3600) in *. set (y := s / 60) in *. lia.
Qed.
Lemma hms_time d s nano : 0 <= s < 86400 -> (nano = 0 \/ nano = NANOS /\ s mod 60 = 59) ->
  hms d (s / 3600) (s / 60 mod 60) (s mod 60 + nano / NANOS) = Some (mk_ndt d s nano).
Proof.
  intros Hs Hn. destruct (time_parts s Hs) as (Hh & Hm & Hse & E).
  set (h := s / 3600) in *. set (mi := s / 60 mod 60) in *. set (se := s mod 60) in *.
  unfold hms. destruct Hn as [-> | [-> H59]].
  - change (0 / NANOS) with 0. rewrite Z.add_0_r.
    destruct (Z.leb_spec 0 h), (Z.leb_spec h 23), (Z.leb_spec 0 mi), (Z.leb_spec mi 59), (Z.leb_spec 0 se), (Z.leb_spec se 60);
      cbn [andb]; try lia.
    destruct (Z.eqb_spec se 60); [lia|]. do 2 f_equal. lia.
  - change (NANOS / NANOS) with 1.
    destruct (Z.leb_spec 0 h), (Z.leb_spec h 23), (Z.leb_spec 0 mi), (Z.leb_spec mi 59), (Z.leb_spec 0 (se + 1)), (Z.leb_spec (se + 1) 60);
      cbn [andb]; try lia.
    destruct (Z.eqb_spec (se + 1) 60); [|lia]. do 2 f_equal. lia.
Qed.
Lemma sec_range s nano : 0 <= s < 86400 -> (nano = 0 \/ nano = NANOS /\ s mod 60 = 59) -> 0 <= s mod 60 + nano / NANOS <= 60.
Proof.
  intros H Hn. pose proof (Z.mod_pos_bound s 60 ltac:(lia)).
  destruct Hn as [-> | [-> ?]]; [change (0 / NANOS) with 0|change (NANOS / NANOS) with 1]; lia.
Qed.
Lemma ndt_parse_show n suf : 0 <= date_year (nd_date n) < 10000 -> whole n ->
  ndt_parse suf (ndt_show n ++ suf) = Some n.
Proof.
  intros Hy [Hs Hn]. destruct n as [d s nano]. cbn [nd_date nd_secs nd_nano] in *.
  unfold ndt_parse, ndt_show, time_show. cbn [nd_date nd_secs nd_nano].
  rewrite <- !app_assoc. rewrite scan_ymd_show by auto.
  pose proof (from_ymd_opt_of_days d (year_date_ok d Hy)) as Hd.
  destruct (ymd_of_days d) as [[y m] dd].
  destruct (time_parts s Hs) as (Hh & Hm & Hse & E).
  cbn [app]. change (lit "T") with [84]. cbn [app]. unfold lit_char. change (84 =? 84) with true. cbv iota.
  rewrite num2_pad by lia. rewrite num2_pad by lia.
  pose proof (sec_range s nano Hs Hn). rewrite num2_pad by lia.
  replace (strip_prefix suf suf) with (Some (@nil Z)).
  2:{ symmetry. apply strip_prefix_Some. now rewrite app_nil_r. }
  rewrite Hd. now apply hms_time.
Qed.
Lemma ndt_parse_show_nil n : 0 <= date_year (nd_date n) < 10000 -> whole n -> ndt_parse [] (ndt_show n) = Some n.
Proof. intros. rewrite <- (app_nil_r (ndt_show n)). now apply ndt_parse_show. Qed.
(** A date-time text is never a date, nor a date text a date-time. *)
Lemma date_parse_ndt_show n suf : date_parse (ndt_show n ++ suf) = None.
Proof.
  unfold date_parse, ndt_show. rewrite <- app_assoc.
  destruct (Z_le_gt_dec 0 (date_year (nd_date n))) as [H0|H0];
  [destruct (Z_lt_ge_dec (date_year (nd_date n)) 10000) as [H1|H1]|].
  - rewrite scan_ymd_show by lia. now destruct (ymd_of_days _) as [[y m] d].
  - rewrite scan_ymd_big; [auto|lia|]. cbn. auto.
  - rewrite scan_ymd_big; [auto|lia|]. cbn. auto.
Qed.
Lemma ndt_parse_big n suf : ~ (0 <= date_year (nd_date n) < 10000) -> forall suf', ndt_parse suf' (ndt_show n ++ suf) = None.
Proof.
  intros H suf'. unfold ndt_parse, ndt_show. rewrite <- app_assoc.
  rewrite scan_ymd_big; [auto|lia|]. cbn. auto.
Qed.
Lemma ndt_parse_date_show n suf suf' : lit_char 84 suf = None ->
  match suf with c :: _ => is_digit c = false /\ is_whitespace c = false | [] => True end ->
  ndt_parse suf' (date_show n ++ suf) = None.
Proof.
  intros H Hs. unfold ndt_parse.
  destruct (Z_le_gt_dec 0 (date_year n)) as [H0|H0];
  [destruct (Z_lt_ge_dec (date_year n) 10000) as [H1|H1]|].
  - rewrite scan_ymd_show by lia. destruct (ymd_of_days n) as [[y m] d]. now rewrite H.
  - rewrite scan_ymd_big; [auto|lia|auto].
  - rewrite scan_ymd_big; [auto|lia|auto].
Qed.
Lemma date_parse_big n : ~ (0 <= date_year n < 10000) -> date_parse (date_show n) = None.
Proof.
  intros H. unfold date_parse. rewrite <- (app_nil_r (date_show n)). rewrite scan_ymd_big; cbn; auto.
Qed.

(** Characters of date texts. *)
Definition date_char (c : char) : Prop := 48 <= c <= 57 \/ c = 43 \/ c = 45 \/ c = 84.
Lemma digits_date_char s : all_digits s = true -> Forall date_char s.
Proof. intros H. apply Forall_forall. intros c Hc. left. now apply all_digits_In with s. Qed.
Lemma show_year_chars y : Forall date_char (show_year y).
Proof.
  unfold show_year. destruct (_ && _) eqn:H; bool_hyps; [apply digits_date_char, show_pad_digits; lia|].
  destruct (Z.ltb_spec y 0); constructor; try (unfold date_char; lia);
    apply digits_date_char, show_pad_digits; lia.
Qed.
Lemma date_show_chars n : Forall date_char (date_show n).
Proof.
  unfold date_show. destruct (ymd_of_days n) as [[y m] d] eqn:E. apply month_range in E.
  rewrite !Forall_app. split; [apply show_year_chars|].
  split; apply digits_date_char, show_pad_digits; lia.
Qed.
Lemma date_show_nonnil n : date_show n <> [].
Proof.
  unfold date_show. destruct (ymd_of_days n) as [[y m] d]. pose proof (show_pad_nonnil 2 d).
  intros H0. apply app_eq_nil in H0 as [_ H0]. apply app_eq_nil in H0 as [_ H0]. auto.
Qed.
Lemma ndt_show_chars n : ndt_wf n = true -> Forall date_char (ndt_show n).
Proof.
  unfold ndt_wf. intros H; bool_hyps. unfold ndt_show, time_show. rewrite !Forall_app. split; [apply date_show_chars|].
  split; [constructor; [unfold date_char; cbn; lia|constructor]|].
  assert (0 <= nd_secs n / 3600) by (apply Z.div_pos; lia).
  pose proof (Z.mod_pos_bound (nd_secs n / 60) 60 ltac:(lia)).
  pose proof (Z.mod_pos_bound (nd_secs n) 60 ltac:(lia)).
  assert (0 <= nd_nano n / NANOS) by (apply Z.div_pos; unfold NANOS; lia).
  repeat split; apply digits_date_char, show_pad_digits; lia.
Qed.
Lemma ndt_show_nonnil n : ndt_show n <> [].
Proof. unfold ndt_show. intros H. apply app_eq_nil in H as [H _]. now apply date_show_nonnil in H. Qed.
