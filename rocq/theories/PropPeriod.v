(** * C31, C33-C37: periods, triggers, comma lists, orders *)
From Verif Require Import Base Env Chrono Nom Types Ser Parser BaseFacts ChronoFacts DateText NomFacts SpecLine LineFacts SpecText SerFacts PropText PropLine
  SpecCal SpecDur PropDate PropDur PropVocab PropRule.

(** A value chrono can hold. *)
Definition real_datetime (d : datetime) : Prop := match d with Naive n => ndt_wf n = true | Local u => ndt_wf u = true end.
Definition real_date (d : date) : Prop := match d with DDate n => date_ok n = true | DDateTime t => real_datetime t end.
(** A zone-less date-time of the years 0 to 9999 without fraction of a second. *)
Definition writable_datetime (d : datetime) : Prop :=
  match d with Naive n => whole_second n /\ exists y, year_of n y /\ 0 <= y <= 9999 | Local _ => False end.
Lemma writable_dt_reads {E : Env} d : writable_datetime d ->
  pfinish (p_date_time (dt_show d)) = Ok d /\ datetime_of_str (dt_show d) = Ok d /\ Forall date_char (dt_show d) /\ dt_show d <> [].
Proof.
  destruct d as [n|u]; cbn [writable_datetime]; [|tauto]. intros (Hw & y & Hy & Hr).
  destruct (C21_naive_round_trip E n y Hw Hy Hr) as (_ & _ & R1 & _ & R2). split; [exact R2|]. split; [exact R1|].
  cbn [dt_show]. split; [|apply ndt_show_nonnil]. apply ndt_show_chars. eapply whole_wf; eauto.
Qed.
Lemma ndt_chars n : 0 <= nd_secs n -> 0 <= nd_nano n -> Forall date_char (ndt_show n).
Proof.
  intros H0 H1. unfold ndt_show, time_show. rewrite !Forall_app. split; [apply date_show_chars|].
  split; [constructor; [unfold date_char; cbn; lia|constructor]|].
  assert (0 <= nd_secs n / 3600) by (apply Z.div_pos; lia).
  pose proof (Z.mod_pos_bound (nd_secs n / 60) 60 ltac:(lia)).
  pose proof (Z.mod_pos_bound (nd_secs n) 60 ltac:(lia)).
  assert (0 <= nd_nano n / NANOS) by (apply Z.div_pos; unfold NANOS; lia).
  repeat split; apply digits_date_char, show_pad_digits; lia.
Qed.
(** Digits, signs, 'T' and 'Z'. *)
Definition dt_char (c : char) : Prop := date_char c \/ c = 90.
Lemma dt_chars {E : Env} d : real_datetime d -> Forall dt_char (dt_show d).
Proof.
  destruct d as [n|u]; cbn [real_datetime dt_show]; unfold ndt_wf; intros H; bool_hyps.
  - eapply Forall_impl; [|apply ndt_chars; lia]. cbn. unfold dt_char. auto.
  - apply Forall_app. split; [|repeat constructor; unfold dt_char; right; reflexivity].
    eapply Forall_impl; [|apply ndt_chars]; [unfold dt_char; auto| |].
    + unfold naive_local, ndt_shift. cbn. apply Z.mod_pos_bound. lia.
    + unfold naive_local, ndt_shift. cbn. lia.
Qed.
Lemma date_chars {E : Env} d : real_date d -> Forall dt_char (date_str d).
Proof.
  destruct d as [n|t]; cbn [real_date date_str]; [|apply dt_chars]. intros _. eapply Forall_impl; [|apply date_show_chars]. unfold dt_char. auto.
Qed.
(** Visible ASCII: no space, no line break. *)
Definition visible (s : str) : Prop := Forall (fun c => 33 <= c <= 126) s.
Lemma visible_app a b : visible a -> visible b -> visible (a ++ b).
Proof. intros. now apply Forall_app. Qed.
Lemma visible_lit s : forallb (fun c => (33 <=? c) && (c <=? 126)) s = true -> visible s.
Proof. intros H. rewrite forallb_forall in H. apply Forall_forall. intros c Hc. apply H in Hc. bool_hyps. lia. Qed.
Lemma visible_digits s : all_digits s = true -> visible s.
Proof. intros H. apply Forall_forall. intros c Hc. apply (all_digits_In s c H) in Hc. lia. Qed.
Lemma visible_no_eol s : visible s -> no_eol s.
Proof. intros H. split; eapply no_char; try exact H; unfold CR, LF; lia. Qed.
Lemma visible_dt {E : Env} d : real_datetime d -> visible (dt_show d).
Proof. intros H. eapply Forall_impl; [|apply dt_chars; auto]. unfold dt_char, date_char. lia. Qed.
Lemma visible_date {E : Env} d : real_date d -> visible (date_str d).
Proof. intros H. eapply Forall_impl; [|apply date_chars; auto]. unfold dt_char, date_char. lia. Qed.
Lemma visible_join sep l : 33 <= sep <= 126 -> Forall visible l -> visible (join [sep] l).
Proof. intros. now apply join_chars. Qed.
Lemma strip_zeros_nonneg f k n : 0 <= n -> 0 <= snd (strip_zeros f k n).
Proof. revert k n; induction f as [|f IH]; intros k n H; cbn; auto. destruct (n mod 10 =? 0); [apply IH; apply Z.div_pos; lia|auto]. Qed.
Lemma visible_td d : visible (td_show d).
Proof.
  unfold td_show.
  assert (N : 0 <= Z.abs d / NANOS) by (apply Z.div_pos; unfold NANOS; lia).
  assert (M : 0 <= Z.abs d mod NANOS) by (apply Z.mod_pos_bound; unfold NANOS; lia).
  assert (S : visible (if d <? 0 then [45] else [])) by (destruct (d <? 0); apply visible_lit; reflexivity).
  destruct (Z.abs d =? 0); [apply visible_app; [auto|apply visible_lit; reflexivity]|].
  repeat apply visible_app; auto; try (apply visible_lit; reflexivity).
  - apply visible_digits, show_nat_digits. auto.
  - destruct (_ =? 0); [constructor|]. pose proof (strip_zeros_nonneg 9 9 _ M). destruct (strip_zeros 9 9 (Z.abs d mod NANOS)) as [fig n].
    cbn [snd] in H. constructor; [lia|]. apply visible_digits, show_pad_digits. auto.
Qed.
Lemma visible_int n : visible (show_int n).
Proof. eapply Forall_impl; [|apply show_int_ok]. cbn. lia. Qed.
Lemma td_head d : exists r, td_show d = (if d <? 0 then [45] else []) ++ 80 :: r.
Proof. unfold td_show. destruct (Z.abs d =? 0); eexists; cbn [app lit]; [reflexivity|reflexivity]. Qed.

(** ** C31 *)
Definition writable_period (p : period) : Prop :=
  match p with
  | StartEnd s e => writable_datetime s /\ writable_datetime e
  | StartDur s d => writable_datetime s /\ exists n, d = n * sec /\ 0 <= n /\ n * sec <= longest
  end.
Lemma no_slash s : Forall dt_char s -> ~ In 47 s.
Proof. intros H. eapply no_char; [exact H|]. unfold dt_char, date_char. lia. Qed.
Lemma date_dt_chars s : Forall date_char s -> Forall dt_char s.
Proof. apply Forall_impl. unfold dt_char. auto. Qed.
Lemma starts_P_dt s : Forall dt_char s -> starts_with (lit "P") s = false.
Proof.
  intros H. destruct s as [|c s]; auto. inv H. cbn [lit]. change (lit "P") with [80]. cbn [starts_with].
  destruct (Z.eqb_spec 80 c); auto. subst. unfold dt_char, date_char in H2. lia.
Qed.
Theorem C31_period_round_trip :
  forall (E : Env) (p : period), writable_period p -> period_of_str (period_show p) = Ok p.
Proof.
  intros E p H. unfold period_of_str, parse_period. destruct p as [s e|s d]; destruct H as [Hs He]; cbn [period_show].
  - destruct (writable_dt_reads s Hs) as (R1 & _ & C1 & _). destruct (writable_dt_reads e He) as (R2 & _ & C2 & _).
    change ([47] ++ dt_show e) with (47 :: dt_show e). rewrite splitn2_app by (apply no_slash, date_dt_chars; auto).
    rewrite R1. cbn [obind]. rewrite starts_P_dt by (apply date_dt_chars; auto). now rewrite R2.
  - destruct (writable_dt_reads s Hs) as (R1 & _ & C1 & _). destruct He as (n & -> & H0 & Hn).
    change ([47] ++ td_show (n * sec)) with (47 :: td_show (n * sec)). rewrite splitn2_app by (apply no_slash, date_dt_chars; auto).
    rewrite R1. cbn [obind]. destruct (td_head (n * sec)) as [r Hr].
    assert (Hlt : (n * sec <? 0) = false) by (apply Z.ltb_ge; unfold sec; lia). rewrite Hlt in Hr.
    assert (St : starts_with (lit "P") (td_show (n * sec)) = true) by (rewrite Hr; reflexivity). rewrite St.
    assert (Hab : Z.abs n * sec <= longest) by (rewrite Z.abs_eq; auto).
    destruct (C23_duration_round_trip n (mk_cl [] [] (td_show (n * sec))) Hab eq_refl) as [_ R].
    unfold parse_dur in R. cbn [cl_value] in R. now rewrite R.
Qed.
Lemma ndt_parse_minus_P suf r : ndt_parse suf (45 :: 80 :: r) = None.
Proof. reflexivity. Qed.
Lemma trim_keeps c d r : d <> 90 -> c <> 90 -> exists x, trim_end_char 90 (c :: d :: r) = c :: d :: x.
Proof.
  intros Hd Hc. unfold trim_end_char. cbn [rev].
  assert (G : forall l, exists y, drop_while (fun x => x =? 90) ((l ++ [d]) ++ [c]) = (y ++ [d]) ++ [c]).
  { induction l as [|x l [y IH]].
    - cbn [app drop_while]. destruct (Z.eqb_spec d 90); [tauto|]. now exists [].
    - cbn [app drop_while]. destruct (x =? 90); [now exists y|now exists (x :: l)]. }
  destruct (G (rev r)) as [y ->]. rewrite !rev_app_distr. cbn. now exists (rev y).
Qed.
Theorem C31_negative_duration_rejected :
  forall (E : Env) (s : datetime) (d : tdelta), real_datetime s -> d < 0 -> exists e, period_of_str (period_show (StartDur s d)) = Err e.
Proof.
  intros E s d Hs Hd. cbn [period_show]. unfold period_of_str, parse_period.
  change ([47] ++ td_show d) with (47 :: td_show d). rewrite splitn2_app by (apply no_slash, dt_chars; auto).
  unfold p_date_time at 1. destruct (ndt_parse [] (trim_end_char 90 (dt_show s))); cbn [pfinish obind]; [|eauto].
  destruct (td_head d) as [r Hr]. assert (Hlt : (d <? 0) = true) by (apply Z.ltb_lt; lia). rewrite Hlt in Hr. rewrite Hr. cbn [app].
  change (starts_with (lit "P") (45 :: 80 :: r)) with false. cbv iota.
  unfold p_date_time. destruct (trim_keeps 45 80 r) as [x ->]; [lia|lia|]. rewrite ndt_parse_minus_P. cbn. eauto.
Qed.
(** A period text without '/' and with a readable start makes the parser panic. *)
Theorem C31_no_slash_panics : forall s d, ~ In 47 s -> read_datetime s = Ok d -> period_of_str s = Panic.
Proof.
  intros s d Hs Hd. unfold period_of_str, parse_period. rewrite splitn2_none by auto. unfold read_datetime in Hd. now rewrite Hd.
Qed.
(** RDATE never survives: what is written is one line whose own parser fails. *)
Definition real_rdate (r : rdate) : Prop :=
  match r with RDates l => Forall real_date l | RPeriods l => Forall (fun p => match p with StartEnd s e => real_datetime s /\ real_datetime e | StartDur s _ => real_datetime s end) l end.
Lemma date_or_dt_V x r : x = 86 -> p_date_or_dt (x :: 65 :: r) = PErr.
Proof.
  intros ->. unfold p_date_or_dt, palt, pmap, pbind, p_date. change (date_parse (86 :: 65 :: r)) with (@None ndate).
  unfold p_date_time. destruct (trim_keeps 86 65 r) as [y ->]; [lia|lia|]. reflexivity.
Qed.
Theorem C31_rdate_never_read_back :
  forall (E : Env) (r : rdate) (c : content_line), cl_value c = rdate_show r -> mget (lit "VALUE") (cl_params c) = None ->
    exists e, parse_rdate c = Err e.
Proof.
  intros E r c Hc Hv. unfold parse_rdate. rewrite Hv, Hc.
  assert (G : exists h t, split_on 44 (rdate_show r) = (86 :: 65 :: h) :: t).
  { destruct r as [l|l]; cbn [rdate_show].
    - destruct (split_on 44 (join [44] (map date_str l))) as [|a b] eqn:S; [now apply split_on_nonnil in S|].
      exists (lit "LUE=DATE:" ++ a), b. cbn. rewrite S. reflexivity.
    - destruct (split_on 44 (join [44] (map period_show l))) as [|a b] eqn:S; [now apply split_on_nonnil in S|].
      exists (lit "LUE=PERIOD:" ++ a), b. cbn. rewrite S. reflexivity. }
  destruct G as (h & t & ->). cbn [ocollect]. rewrite date_or_dt_V by auto. cbn. eauto.
Qed.
Lemma visible_rdate {E : Env} r : real_rdate r -> visible (rdate_show r).
Proof.
  destruct r as [l|l]; cbn [real_rdate rdate_show]; intros H; (apply visible_app; [apply visible_lit; reflexivity|]);
    apply visible_join; try lia; apply Forall_map; eapply Forall_impl; try exact H.
  - intros d. apply visible_date.
  - intros [s e|s d]; cbn [period_show]; [intros [A B]|intros A]; repeat apply visible_app; auto using visible_dt, visible_td; apply visible_lit; reflexivity.
Qed.
(** Reading back the written line of a property. *)
Lemma field_reads {T} (S : serialize T) name v value m out :
  s_component S = None -> s_ical S v = Ok value -> value <> [] -> s_attr S v = params_attr m -> good_params m -> no_eol value ->
  key_text name -> ~ reserved name -> ser_field S name v = Ok out ->
  (forall rest, not_continuation rest -> p_content_line (unfold_lines (out ++ rest)) = POk (unfold_lines rest) (mk_cl name m value)).
Proof.
  intros Hc Hi Hn Ha Hm Hv Hk Hr H rest Hnc.
  assert (O : one_line name) by (intros Hin; unfold key_text in Hk; rewrite Forall_forall in Hk; apply Hk in Hin; unfold key_char, LF in Hin; lia).
  destruct (C01_unfold_undoes_fold T S name v value out Hc Hi Hn H) as [_ U].
  destruct U as [_ U].
  - apply logical_line_no_fold; auto; [|apply Hv]. rewrite Ha. apply params_attr_one_line.
    intros k w Hkw Hin. destruct Hm as [_ Hm]. specialize (Hm k w Hkw) as [Hpn _].
    unfold param_name, key_text in Hpn. rewrite Forall_forall in Hpn. apply Hpn in Hin. unfold key_char, LF in Hin. lia.
  - rewrite U by auto. rewrite Ha. now apply written_line_reads.
Qed.
Theorem C31_rdate_line :
  forall (E : Env) (r : rdate) (out : str), real_rdate r -> ser_field ser_rdate (lit "RDATE") r = Ok out ->
    exists c, p_content_line (unfold_lines out) = POk [] c /\ cl_key c = lit "RDATE" /\ exists e, parse_rdate c = Err e.
Proof.
  intros E r out Hr H.
  assert (Hne : rdate_show r <> []) by (destruct r; discriminate).
  exists (mk_cl (lit "RDATE") [] (rdate_show r)). split; [|split; [reflexivity|eapply C31_rdate_never_read_back; reflexivity]].
  rewrite <- (app_nil_r out). change (@nil Z) with (unfold_lines []) at 2.
  eapply (field_reads ser_rdate (lit "RDATE") r (rdate_show r) []); eauto.
  - split; [constructor|intros ? ? []].
  - apply visible_no_eol, visible_rdate, Hr.
  - now apply key_text_lit.
  - intros [X|X]; discriminate.
  - intros x. discriminate.
Qed.
Example C31_nonvacuous : forall E : Env,
  let t := Naive (mk_ndt 19782 3600 0) in
  writable_period (StartDur t (90 * sec)) /\ period_show (StartDur t (90 * sec)) = lit "20240229T010000/PT90S" /\
  period_of_str (lit "20240229T010000/-PT90S") = Err EParser /\
  real_rdate (RDates [DDate 19782; DDateTime t]) /\ rdate_show (RDates [DDate 19782]) = lit "VALUE=DATE:20240229".
Proof.
  intros E t. split; [split; [split; [split; cbn; [lia|auto]|exists 2024; split; [exists 2, 29; reflexivity|lia]]|exists 90; unfold sec, longest; lia]|].
  split; [vm_compute; reflexivity|]. split; [vm_compute; reflexivity|].
  split; [repeat constructor|vm_compute; reflexivity].
Qed.

(** ** C33 *)
Lemma duration_needs_P s : ~ In 80 s -> p_duration s = PErr.
Proof.
  intros H. unfold p_duration, pmap_res, pbind, popt.
  assert (T : forall r, ~ In 80 r -> tag (lit "P") r = PErr).
  { intros r Hr. unfold tag. destruct (strip_prefix (lit "P") r) as [x|] eqn:E; auto. apply strip_prefix_Some in E. subst. exfalso. apply Hr. left. reflexivity. }
  destruct (tag (lit "-") s) as [r a| |] eqn:E.
  - unfold tag in E. destruct (strip_prefix (lit "-") s) as [x|] eqn:E1; [|congruence]. apply strip_prefix_Some in E1. inv E.
    rewrite T; auto. intros Hin. apply H. apply in_or_app. auto.
  - now rewrite T.
  - unfold tag in E. destruct (strip_prefix (lit "-") s); congruence.
Qed.
Lemma pfinish_Ok {A} (r : pres A) a : pfinish r = Ok a <-> exists x, r = POk x a.
Proof. destruct r; cbn; split; intros H; try (now destruct H); try discriminate; inv H; eauto. inv H0. auto. Qed.
Lemma trigger_duration c d : parse_dur c = Ok d -> parse_trigger c = Ok (TrDuration d).
Proof.
  unfold parse_dur, parse_trigger. intros H. apply pfinish_Ok in H as [x H]. unfold palt, pmap, pbind. now rewrite H.
Qed.
Lemma trigger_datetime c : ~ In 80 (cl_value c) -> parse_trigger c = omap TrDateTime (parse_datetime c).
Proof.
  unfold parse_datetime, parse_trigger. intros H. unfold palt, pmap, pbind. rewrite duration_needs_P by auto.
  destruct (p_date_time (cl_value c)); reflexivity.
Qed.
Lemma dt_no_P {E : Env} d : real_datetime d -> ~ In 80 (dt_show d).
Proof. intros H. eapply no_char; [apply dt_chars; exact H|]. unfold dt_char, date_char. lia. Qed.
Definition trigger_text {E : Env} (t : trigger) : str := match t with TrDateTime d => dt_show d | TrDuration d => td_show d end.
Lemma dt_of_td_text {E : Env} d : exists e, datetime_of_str (td_show d) = Err e.
Proof.
  destruct (td_head d) as [r ->]. exists EDate. destruct (d <? 0); reflexivity.
Qed.
Lemma parse_duration_whole n : Z.abs n * sec <= longest -> parse_duration (td_show (n * sec)) = Ok (n * sec).
Proof.
  intros Hn.
  unfold td_show. destruct (Z.eq_dec n 0) as [->|Hz].
  { reflexivity. }
  assert (Ha : Z.abs (n * sec) = Z.abs n * sec) by (unfold sec; lia). rewrite Ha.
  assert (Z1 : (Z.abs n * sec =? 0) = false) by (apply Z.eqb_neq; unfold sec; lia). rewrite Z1.
  change NANOS with sec. rewrite Z.div_mul, Z.mod_mul by (unfold sec; lia). rewrite Z.eqb_refl. cbn [app].
  destruct (show_nat_decimal (Z.abs n) ltac:(lia)) as (A & B & C).
  pose proof (C25_single_part (n * sec <? 0) true (show_nat (Z.abs n)) 83 1 A B) as G.
  rewrite C in G. change (lit "S") with [83]. rewrite Z.mul_1_r in G.
  assert (Q : (if n * sec <? 0 then [45] else []) ++ lit "PT" ++ show_nat (Z.abs n) ++ [83] =
          (if n * sec <? 0 then lit "-P" else lit "P") ++ lit "T" ++ show_nat (Z.abs n) ++ [83]) by (destruct (n * sec <? 0); reflexivity).
  rewrite Q, G; [|cbn; lia|exact Hn].
  f_equal. unfold signed, sec. destruct (Z.ltb_spec (n * 1000000000) 0); lia.
Qed.
(** A trigger that is a whole number of seconds, of either sign, or a zone-less
    date-time is read back by the property parser and by [FromStr]. *)
Definition writable_trigger (t : trigger) : Prop :=
  match t with TrDateTime d => writable_datetime d | TrDuration d => exists n, d = n * sec /\ Z.abs n * sec <= longest end.
Theorem C33_trigger_round_trip :
  forall (E : Env) (t : trigger) (c : content_line), writable_trigger t -> cl_value c = trigger_text t ->
    parse_trigger c = Ok t /\ trigger_of_str (trigger_text t) = Ok t.
Proof.
  intros E [d|d] c H Hc; cbn [writable_trigger trigger_text] in *.
  - destruct (writable_dt_reads d H) as (R1 & R2 & C & _). split.
    + rewrite trigger_datetime; [unfold parse_datetime; rewrite Hc, R1; reflexivity|].
      rewrite Hc. eapply no_char; [exact C|]. unfold date_char. lia.
    + unfold trigger_of_str. now rewrite R2.
  - destruct H as (n & -> & Hn). split.
    + apply trigger_duration. now apply (C23_duration_round_trip n c Hn Hc).
    + unfold trigger_of_str. destruct (dt_of_td_text (n * sec)) as [e ->]. now rewrite parse_duration_whole.
Qed.
(** No written date-time is read as a duration, nor conversely, whatever the
    value: the reader returns the kind written or an error (or panics on a
    skipped or repeated local time). *)
Definition same_kind (a b : trigger) : Prop :=
  match a, b with TrDateTime _, TrDateTime _ | TrDuration _, TrDuration _ => True | _, _ => False end.
Lemma parse_duration_needs_P s : ~ In 80 s -> exists e, parse_duration s = Err e.
Proof.
  intros H. unfold parse_duration.
  assert (G : forall r, ~ In 80 r -> strip_prefix (lit "P") r = None).
  { intros r Hr. destruct (strip_prefix (lit "P") r) as [x|] eqn:X; auto. apply strip_prefix_Some in X. subst. exfalso. apply Hr. left. reflexivity. }
  destruct (strip_prefix (lit "-") s) as [x|] eqn:X.
  - apply strip_prefix_Some in X. rewrite G; [eauto|]. subst. intros Hi. apply H. apply in_or_app. auto.
  - rewrite G; eauto.
Qed.
Theorem C33_kinds_never_confused :
  forall (E : Env) (t u : trigger) (c : content_line), match t with TrDateTime d => real_datetime d | TrDuration d => True end -> cl_value c = trigger_text t ->
    (parse_trigger c = Ok u -> same_kind t u) /\ (trigger_of_str (trigger_text t) = Ok u -> same_kind t u).
Proof.
  intros E [d|d] u c H Hc; cbn [trigger_text] in *; split; intros Hu.
  - rewrite trigger_datetime in Hu by (rewrite Hc; now apply dt_no_P). unfold omap in Hu. destruct (parse_datetime c); inv Hu. exact I.
  - unfold trigger_of_str in Hu. destruct (datetime_of_str (dt_show d)); inv Hu; [exact I|].
    destruct (parse_duration_needs_P (dt_show d)) as [e' He]; [now apply dt_no_P|]. rewrite He in H1. discriminate.
  - unfold parse_trigger, palt, pmap, pbind in Hu. destruct (p_duration (cl_value c)) as [r x| |]; cbn in Hu; inv Hu; [exact I|].
    rewrite Hc in H1. unfold p_date_time in H1. destruct (td_head d) as [r Hr]. rewrite Hr in H1.
    assert (exists y, trim_end_char 90 ((if d <? 0 then [45] else []) ++ 80 :: r) = (if d <? 0 then [45] else []) ++ 80 :: y) as [y Hy].
    { destruct (d <? 0); cbn [app]; [apply trim_keeps; lia|].
      unfold trim_end_char. cbn [rev].
      assert (G : forall l, exists z, drop_while (fun x => x =? 90) (l ++ [80]) = z ++ [80]).
      { induction l as [|x l [z IH]]; cbn [app drop_while]; [now exists []|]. destruct (x =? 90); [now exists z|now exists (x :: l)]. }
      destruct (G (rev r)) as [z ->]. rewrite rev_app_distr. cbn. now exists (rev z). }
    rewrite Hy in H1. destruct (d <? 0); cbn in H1; discriminate.
  - unfold trigger_of_str in Hu. destruct (dt_of_td_text d) as [e He]. rewrite He in Hu. unfold omap in Hu. destruct (parse_duration (td_show d)); inv Hu. exact I.
Qed.
Example C33_nonvacuous : forall E : Env,
  writable_trigger (TrDuration ((-900) * sec)) /\ trigger_text (TrDuration ((-900) * sec)) = lit "-PT900S" /\
  writable_trigger (TrDateTime (Naive (mk_ndt 19782 3600 0))).
Proof.
  intros E. split; [exists (-900); split; [reflexivity|unfold sec, longest; lia]|]. split; [vm_compute; reflexivity|].
  split; [split; cbn; [lia|auto]|exists 2024; split; [exists 2, 29; reflexivity|lia]].
Qed.
