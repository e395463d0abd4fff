(** * One generation, value by value, and one more. *)
From Verif Require Import Base Env Chrono Nom Types Ser Parser Derive BaseFacts NomFacts ChronoFacts SpecLine LineFacts SpecText SerFacts PropText PropLine
  SpecCal SpecDur PropDate PropDur PropVocab PropRule PropPeriod PropList DateText Components SpecComp DeriveFacts SpecFields PropComp SpecFile PropFile SpecRound RoundFacts FrameFacts BackFacts
  FieldFacts ChildFacts CalFacts AlarmFacts PropRound SpecLoss LossFacts PropLoss SpecFatal PropDurAll SpecValue PropValue SpecHistory HistFacts.

Section Env.
Context {E : Env}.

(** ** Dates and times *)
Lemma to_second_whole n : 0 <= nd_secs n < 86400 -> 0 <= nd_nano n < 2000000000 -> DateText.whole (to_second n) /\ ndt_show (to_second n) = ndt_show n /\ nd_date (to_second n) = nd_date n.
Proof.
  intros W1 W2. unfold to_second, DateText.whole, ndt_show, time_show. unfold NANOS in *.
  destruct (Z.ltb_spec (nd_nano n) 1000000000) as [L|L]; [|destruct (Z.eqb_spec (nd_secs n mod 60) 59) as [Q|Q]]; cbn [nd_date nd_secs nd_nano].
  - split; [split; [lia|now left]|]. split; [|reflexivity].
    rewrite (Z.div_small (nd_nano n)) by lia. reflexivity.
  - split; [split; [lia|right; split; auto]|]. split; [|reflexivity].
    change (1000000000 / 1000000000) with 1. assert (nd_nano n / 1000000000 = 1) as -> by (symmetry; apply (Z.div_unique_pos _ _ 1 (nd_nano n - 1000000000)); lia). reflexivity.
  - assert (M : 0 <= nd_secs n mod 60 < 59) by (pose proof (Z.mod_pos_bound (nd_secs n) 60); lia).
    assert (B : nd_secs n + 1 < 86400).
    { destruct (Z.eq_dec (nd_secs n) 86399) as [X|X]; [|lia]. rewrite X in M. change (86399 mod 60) with 59 in M. lia. }
    split; [split; [lia|now left]|]. split; [|reflexivity].
    assert (nd_nano n / 1000000000 = 1) as -> by (symmetry; apply (Z.div_unique_pos _ _ 1 (nd_nano n - 1000000000)); lia).
      pose proof (Z.div_mod (nd_secs n) 60 ltac:(lia)) as DM. 
      assert (D60 : (nd_secs n + 1) / 60 = nd_secs n / 60) by (symmetry; apply (Z.div_unique_pos _ _ _ (nd_secs n mod 60 + 1)); lia).
      assert (M60 : (nd_secs n + 1) mod 60 = nd_secs n mod 60 + 1) by (symmetry; apply (Z.mod_unique_pos _ _ (nd_secs n / 60)); lia).
      assert (H60 : (nd_secs n + 1) / 3600 = nd_secs n / 3600).
      { replace 3600 with (60 * 60) by lia. rewrite <- !Z.div_div by lia. now rewrite D60. }
      rewrite ?D60, ?M60, ?H60. change (0 / 1000000000) with 0. replace (nd_secs n mod 60 + 1 + 0) with (nd_secs n mod 60 + 1) by lia. reflexivity.
Qed.
Lemma naive_local_time u : ndt_wf u = true -> 0 <= nd_secs (naive_local u) < 86400 /\ 0 <= nd_nano (naive_local u) < 2000000000.
Proof.
  intros W. unfold ndt_wf in W. bool_hyps. unfold naive_local, ndt_shift. unfold NANOS in *. cbn [nd_secs nd_nano].
  split; [|lia]. apply Z.mod_pos_bound. lia.
Qed.
Lemma wf_time n : ndt_wf n = true -> 0 <= nd_secs n < 86400 /\ 0 <= nd_nano n < 2000000000.
Proof. intros W. unfold ndt_wf in W. bool_hyps. unfold NANOS in *. lia. Qed.
Lemma ndt_again n x : 0 <= nd_secs n < 86400 -> 0 <= nd_nano n < 2000000000 -> ndt_parse [] (ndt_show n) = Some x ->
  x = to_second n /\ 0 <= date_year (nd_date n) < 10000.
Proof.
  intros A B H. destruct (to_second_whole n A B) as (W & S' & D).
  assert (Y : 0 <= date_year (nd_date n) < 10000).
  { destruct (Z_le_dec 0 (date_year (nd_date n))); [destruct (Z_lt_dec (date_year (nd_date n)) 10000)|]; auto; exfalso;
      rewrite <- (app_nil_r (ndt_show n)) in H; rewrite ndt_parse_big in H by lia; discriminate. }
  split; auto. rewrite <- S' in H. rewrite ndt_parse_show_nil in H; auto; [now inv H|]. now rewrite D.
Qed.
Lemma ndt_chars' n : 0 <= nd_secs n < 86400 -> 0 <= nd_nano n < 2000000000 -> Forall date_char (ndt_show n).
Proof. intros. apply ndt_chars; lia. Qed.
Lemma dt_step d d' : real_datetime d -> pfinish (p_date_time (dt_show d)) = Ok d' -> datetime_after 1 d d'.
Proof.
  intros R H. apply pfinish_Ok in H as [x H]. unfold p_date_time in H. destruct d as [n|u]; cbn [real_datetime dt_show datetime_after] in *.
  - destruct (wf_time n R) as [A B]. destruct (trim_Z_app (ndt_show n) (ndt_chars' n A B)) as [T Z']. rewrite T, Z' in H.
    destruct (ndt_parse [] (ndt_show n)) as [y|] eqn:Q; inv H. apply ndt_again in Q as [-> _]; auto.
  - destruct (naive_local_time u R) as [A B]. pose proof (ndt_chars' _ A B) as CH.
    assert (T : trim_end_char 90 (ndt_show (naive_local u) ++ lit "Z") = ndt_show (naive_local u) /\ ends_with_char 90 (ndt_show (naive_local u) ++ lit "Z") = true).
    { destruct (trim_Z_app _ CH) as [T Z']. unfold trim_end_char, ends_with_char in *. rewrite rev_app_distr. cbn [rev app lit]. change (rev (lit "Z")) with [90]. cbn [app drop_while].
      change (90 =? 90) with true. cbv iota. auto. }
    destruct T as [T Z']. rewrite T, Z' in H. destruct (ndt_parse [] (ndt_show (naive_local u))) as [y|] eqn:Q; inv H. apply ndt_again in Q as [-> _]; auto.
Qed.
Lemma date_step d d' : real_date d -> pfinish (p_date_or_dt (date_str d)) = Ok d' -> date_after 1 d d'.
Proof.
  intros R H. destruct d as [n|t]; cbn [real_date date_str date_after] in *.
  - destruct (Z_le_dec 0 (date_year n)) as [A|A]; [destruct (Z_lt_dec (date_year n) 10000) as [B|B]|].
    + unfold p_date_or_dt, palt, pmap, pbind, p_date in H. rewrite date_parse_show in H by lia. now inv H.
    + exfalso. destruct (ymd_of_days n) as [[y m] dd] eqn:Y. unfold date_year in *. rewrite Y in *. cbn [fst] in *.
      destruct (C19_other_years_rejected E n y m dd Y ltac:(lia)) as [_ [e X]]. unfold read_date in X. cbn [date_str] in X. congruence.
    + exfalso. destruct (ymd_of_days n) as [[y m] dd] eqn:Y. unfold date_year in *. rewrite Y in *. cbn [fst] in *.
      destruct (C19_other_years_rejected E n y m dd Y ltac:(lia)) as [_ [e X]]. unfold read_date in X. cbn [date_str] in X. congruence.
  - assert (N : date_parse (dt_show t) = None).
    { destruct t; cbn [dt_show]; [rewrite <- (app_nil_r (ndt_show n))|]; apply date_parse_ndt_show. }
    apply pfinish_Ok in H as [x H]. unfold p_date_or_dt, palt, pmap, pbind, p_date in H. rewrite N in H.
    destruct (p_date_time (dt_show t)) as [r t'| |] eqn:Q; inv H. exists t'. split; auto. apply dt_step; auto. now rewrite Q.
Qed.
Lemma iter_S {A} (f : A -> A) n x : Nat.iter n f (f x) = f (Nat.iter n f x).
Proof. induction n as [|n IH]; cbn; [auto|]. change (f (Nat.iter n f (f x)) = f (f (Nat.iter n f x))). now rewrite IH. Qed.
Lemma to_second_idem n : to_second (to_second n) = to_second n.
Proof.
  unfold to_second. destruct (nd_nano n <? 1000000000) eqn:A; [reflexivity|]. destruct (nd_secs n mod 60 =? 59) eqn:B; cbn [nd_nano nd_secs nd_date]; [|reflexivity].
  now rewrite B.
Qed.
Lemma datetime_trans n x y z : datetime_after n x y -> datetime_after 1 y z -> datetime_after (S n) x z.
Proof.
  destruct x as [a|u]; cbn [datetime_after]; intros -> H; cbn [datetime_after] in H; rewrite H; [now rewrite to_second_idem|reflexivity].
Qed.
Lemma date_trans n x y z : date_after n x y -> date_after 1 y z -> date_after (S n) x z.
Proof.
  destruct x as [a|u]; cbn [date_after]; [now intros ->|]. intros (t & -> & A) H. cbn [date_after] in H. destruct H as (t' & -> & B). exists t'. split; auto.
  eapply datetime_trans; eauto.
Qed.

(** ** The other values *)
Lemma number_step max n m : parse_int (parse_unsigned max (show_int n)) = Ok m -> m = n.
Proof.
  intros H. unfold parse_int in H. destruct (parse_unsigned max (show_int n)) as [k|] eqn:Q; inv H.
  unfold show_int in Q. destruct (Z.ltb_spec n 0) as [N|N].
  - unfold parse_unsigned in Q. change (45 =? 43) with false in Q. cbv iota in Q. unfold parse_digits, all_digits in Q. cbn [forallb andb] in Q. discriminate.
  - pose proof (show_nat_val n N) as V. pose proof (show_nat_digits n N) as D. unfold parse_unsigned in Q. destruct (show_nat n) as [|c r]; [discriminate|].
    destruct (head_not_sign _ _ _ D eq_refl) as [_ P43]. rewrite P43 in Q. unfold parse_digits in Q. destruct (_ && _); [|discriminate]. inv Q. congruence.
Qed.
Lemma escaped_nil s : escaped s = [] -> s = [].
Proof. destruct s as [|c s]; auto. cbn [escaped flat_map]. unfold escaped_char. repeat match goal with |- context[if ?b then _ else _] => destruct b end; discriminate. Qed.
Lemma escaped_iter n s : s <> [] -> Nat.iter n escaped s <> [].
Proof. intros N. induction n as [|n IH]; [exact N|]. change (escaped (Nat.iter n escaped s) <> []). intros H. now apply escaped_nil in H. Qed.
Lemma text_trans n x y z : text_after n x y -> text_after 1 y z -> text_after (S n) x z.
Proof. unfold text_after. now intros -> ->. Qed.
Lemma uri_trans n x y z : uri_after n x y -> uri_after 1 y z -> uri_after (S n) x z.
Proof. unfold uri_after. now intros -> ->. Qed.
Lemma same_trans {T} n (x y z : T) : same n x y -> same 1 y z -> same (S n) x z.
Proof. unfold same. now intros -> ->. Qed.
Lemma duration_trans n x y z : duration_after n x y -> duration_after 1 y z -> duration_after (S n) x z.
Proof.
  unfold duration_after. intros A B L. specialize (A L). subst y. destruct (x mod sec =? 0) eqn:Q; [specialize (B L); now rewrite Q in B|].
  apply B. unfold longest. lia.
Qed.
Lemma offset_trans n x y z : offset_after n x y -> offset_after 1 y z -> offset_after (S n) x z.
Proof. unfold offset_after. intros -> ->. rewrite Z.quot_mul by lia. reflexivity. Qed.
Lemma trigger_trans n x y z : trigger_after n x y -> trigger_after 1 y z -> trigger_after (S n) x z.
Proof.
  destruct x; cbn [trigger_after]; intros (a & -> & A) H; cbn [trigger_after] in H; destruct H as (b & -> & B); exists b; split; auto.
  - eapply datetime_trans; eauto.
  - eapply duration_trans; eauto.
Qed.
Lemma period_trans n x y z : period_after n x y -> period_after 1 y z -> period_after (S n) x z.
Proof.
  destruct x; cbn [period_after]; intros (a & b & -> & A & B) H; cbn [period_after] in H; destruct H as (c & e & -> & C & D); exists c, e; split; auto; split;
    eauto using datetime_trans, duration_trans.
Qed.
Lemma rule_trans n x y z : rule_after n x y -> rule_after 1 y z -> rule_after (S n) x z.
Proof.
  intros A B N. destruct (A N) as (u & -> & U). destruct (B N) as (u' & -> & U'). cbn [r_freq r_until r_count r_interval r_by_second r_by_minute r_by_hour
    r_by_day r_by_monthday r_by_yearday r_by_weekno r_by_month r_by_setpos r_wkst] in *. exists u'. split; [reflexivity|].
  clear A B N. destruct (r_until x) as [d|]; [|now subst u]. destruct U as (d' & -> & U). destruct U' as (d2 & -> & U'). exists d2. split; auto. eapply date_trans; eauto.
Qed.
Definition named_class (s : str) : class :=
  if str_eqb s (lit "PUBLIC") then Public else if str_eqb s (lit "PRIVATE") then Private else if str_eqb s (lit "CONFIDENTIAL") then Confidential else Custom s.
Lemma upper_named s : In s [lit "PUBLIC"; lit "PRIVATE"; lit "CONFIDENTIAL"] -> to_uppercase s = s.
Proof. intros [<-|[<-|[<-|[]]]]; reflexivity. Qed.
Lemma class_trans n x y z : class_after n x y -> class_after 1 y z -> class_after (S n) x z.
Proof.
  destruct x as [| | |s]; cbn [class_after]; try (now intros -> ->). cbn zeta. change (Nat.iter (S n) to_uppercase s) with (to_uppercase (Nat.iter n to_uppercase s)).
  generalize (Nat.iter n to_uppercase s). clear s n. intros s. change (y = named_class s -> class_after 1 y z -> z = named_class (to_uppercase s)).
  intros ->. unfold named_class at 1.
  destruct (str_eqb s (lit "PUBLIC")) eqn:A; [apply str_eqb_eq in A; subst s; now intros ->|].
  destruct (str_eqb s (lit "PRIVATE")) eqn:B; [apply str_eqb_eq in B; subst s; now intros ->|].
  destruct (str_eqb s (lit "CONFIDENTIAL")) eqn:C; [apply str_eqb_eq in C; subst s; now intros ->|].
  intros ->. reflexivity.
Qed.

(** ** Steps *)
Lemma dur_step d d' c : cl_value c = td_show d -> parse_dur c = Ok d' -> duration_after 1 d d'.
Proof.
  intros V H L. destruct (Z.eqb_spec (d mod sec) 0) as [Q|Q].
  - pose proof (Z.div_mod d sec ltac:(unfold sec; lia)) as DM. assert (EQ : d = d / sec * sec) by lia. rewrite EQ in V.
    assert (L' : Z.abs (d / sec) * sec <= longest).
    { rewrite EQ, Z.abs_mul in L. now replace (Z.abs sec) with sec in L by (unfold sec; lia). }
    destruct (C23_duration_round_trip (d / sec) c L' V) as [_ R]. rewrite R in H. injection H as H. lia.
  - pose proof (C23_fraction_lost d c Q V) as R. congruence.
Qed.

Lemma td_never_err d c : cl_value c = td_show d -> p_duration (cl_value c) <> PErr.
Proof.
  intros V H. assert (X : exists e, parse_dur c = Err e) by (unfold parse_dur; rewrite H; eexists; reflexivity).
  pose proof (proj1 (proj2 (C24_panics_iff c)) X) as X2. clear X. rename X2 into X. rewrite V in X. destruct (td_head d) as [r R]. destruct (X r) as [A B]. rewrite R in A, B. destruct (d <? 0); cbn [app] in *; congruence.
Qed.
Lemma trigger_step c t t' : real_trigger t -> cl_value c = trigger_text t -> parse_trigger c = Ok t' -> trigger_after 1 t t'.
Proof.
  intros R V H. destruct t as [d|d]; cbn [trigger_text real_trigger trigger_after] in *.
  - rewrite trigger_datetime in H by (rewrite V; now apply dt_no_P). unfold parse_datetime in H. rewrite V in H.
    destruct (pfinish (p_date_time (dt_show d))) as [d'| |] eqn:Q; cbn [omap] in H; inv H. exists d'. split; auto. now apply dt_step.
  - pose proof (td_never_err d c V) as N. unfold parse_trigger, palt, pmap, pbind in H. destruct (p_duration (cl_value c)) as [r d'| |] eqn:Q; cbn [pfinish] in H; try congruence.
    inv H. exists d'. split; auto. apply (dur_step d d' c V). unfold parse_dur. now rewrite Q.
Qed.
Lemma period_step p p' : real_period p -> parse_period (period_show p) = Ok p' -> period_after 1 p p'.
Proof.
  intros R H. destruct p as [s e|s d]; cbn [period_show real_period period_after] in *.
  - destruct R as [R1 R2]. unfold parse_period in H. change ([47] ++ dt_show e) with (47 :: dt_show e) in H. rewrite splitn2_app in H by (apply no_slash, dt_chars; auto).
    destruct (pfinish (p_date_time (dt_show s))) as [s'| |] eqn:A; cbn [obind] in H; try discriminate. rewrite starts_P_dt in H by (apply dt_chars; auto).
    destruct (pfinish (p_date_time (dt_show e))) as [e'| |] eqn:B; cbn [obind] in H; inv H. exists s', e'. split; auto. split; now apply dt_step.
  - destruct (Z_lt_dec d 0) as [N|N].
    { destruct (C31_negative_duration_rejected E s d R N) as [er X]. unfold period_of_str in X. cbn [period_show] in X. congruence. }
    unfold parse_period in H. change ([47] ++ td_show d) with (47 :: td_show d) in H. rewrite splitn2_app in H by (apply no_slash, dt_chars; auto).
    destruct (pfinish (p_date_time (dt_show s))) as [s'| |] eqn:A; cbn [obind] in H; try discriminate. destruct (td_head d) as [r Hr].
    assert (Hlt : (d <? 0) = false) by lia. rewrite Hlt in Hr.
    assert (St : starts_with (lit "P") (td_show d) = true) by (rewrite Hr; reflexivity). rewrite St in H.
    destruct (pfinish (p_duration (td_show d))) as [d'| |] eqn:B; cbn [obind] in H; inv H. exists s', d'. split; auto. split; [now apply dt_step|].
    apply (dur_step d d' (cl_of_str (td_show d)) eq_refl). exact B.
Qed.
Lemma class_step k c' c : cl_value c = class_show k -> parse_class c = Ok c' -> class_after 1 k c'.
Proof.
  intros V H. unfold parse_class in H. rewrite V in H. destruct k as [| | |s]; cbn [class_after]; try (now inv H).
  cbn [class_show] in H. change (Nat.iter 1 to_uppercase s) with (to_uppercase s). cbn zeta. unfold class_of_str in H.
  repeat (destruct (str_eqb (to_uppercase s) _); [now inv H|]). now inv H.
Qed.
Lemma offset_step o o' c : real_offset o -> cl_value c = offset_show o -> parse_offset c = Ok o' -> offset_after 1 o o'.
Proof.
  intros R V H. destruct (C30_utc_offset_round_trip o c R V) as (_ & Q & _). rewrite Q in H. injection H as <-. unfold offset_after.
  destruct (Z.ltb_spec o 0) as [N|N].
  - replace o with (- Z.abs o) at 2 by lia. rewrite Z.quot_opp_l by lia. rewrite Z.quot_div_nonneg by lia. lia.
  - rewrite Z.abs_eq by lia. rewrite Z.quot_div_nonneg by lia. lia.
Qed.
Lemma status_step k c' c : cl_value c = status_show k -> parse_status c = Ok c' -> c' = k.
Proof. intros V H. unfold parse_status in H. rewrite V in H. destruct k; now inv H. Qed.
Lemma transp_step k c' c : cl_value c = transp_show k -> parse_transp c = Ok c' -> c' = k.
Proof. intros V H. unfold parse_transp in H. rewrite V in H. destruct k; now inv H. Qed.
Lemma priority_step n m c : cl_value c = show_int n -> parse_priority c = Ok m -> m = n.
Proof.
  intros V H. unfold parse_priority in H. rewrite V in H. destruct (parse_int _) as [k| |] eqn:Q; cbn [obind] in H; try discriminate.
  destruct (9 <? k); inv H. eapply number_step; eauto.
Qed.
Lemma date_str_nonnil d : date_str d <> [].
Proof.
  destruct d as [n|[n|u]]; cbn [date_str dt_show]; [apply date_show_nonnil|apply ndt_show_nonnil|]. intros H. apply app_eq_nil in H as [H _]. now apply ndt_show_nonnil in H.
Qed.
Lemma rule_step r r' c : tidy_rule r -> cl_value c = rule_shown r -> parse_rrule c = Ok r' -> rule_after 1 r r'.
Proof.
  unfold tidy_rule, holds. intros Hu V P (_ & Hc & Hi & H1 & H2 & H3 & H4 & H5 & H6 & H7 & H8 & H9).
  cbn [r_freq r_until r_count r_interval r_by_second r_by_minute r_by_hour r_by_day r_by_monthday r_by_yearday r_by_weekno r_by_month r_by_setpos r_wkst] in *.
  set (UN := match r_until r with Some d => omap Some (pfinish (p_date_or_dt (date_str d))) | None => Ok None end).
  assert (R : parse_rrule c = match UN with Err _ => Err EParser | Panic => Panic | Ok u => Ok (mk_recur (r_freq r) u (r_count r) (r_interval r) (r_by_second r) (r_by_minute r) (r_by_hour r)
    (r_by_day r) (r_by_monthday r) (r_by_yearday r) (r_by_weekno r) (r_by_month r) (r_by_setpos r) (r_wkst r)) end).
  2:{ rewrite R in P. destruct UN as [u| |] eqn:U; inv P. exists u. split; [reflexivity|]. subst UN.
      destruct (r_until r) as [d|] eqn:D; [|now inv U]. destruct (pfinish (p_date_or_dt (date_str d))) as [d'| |] eqn:Q; cbn [omap] in U; inv U.
      exists d'. split; auto. apply date_step; auto. }
  clear P. rewrite rule_shown_eq in V. transitivity (recur_of_str (rule_text (nonempty (rule_fields r)))).
  { unfold recur_of_str, parse_rrule. now rewrite V. }
  clear V. rewrite rule_reads.
  - unfold recur_of_items. fold (@map_of str (nonempty (rule_fields r))). rewrite !map_of_get, !get_with_map, !get_list_map.
    assert (ND : NoDup (map fst (rule_fields r))).
    { change (map fst (rule_fields r)) with known_names.
      assert (G : nodup (list_eq_dec Z.eq_dec) known_names = known_names) by (vm_compute; reflexivity). rewrite <- G. apply NoDup_nodup. }
    repeat match goal with |- context [last_binding (nonempty (rule_fields r)) ?n] =>
      erewrite (last_binding_nonempty (rule_fields r) n) by (exact ND || (unfold rule_fields; repeat (left; reflexivity) || (repeat (first [left; reflexivity|right])))) end.
    rewrite (ne_Some (freq_show (r_freq r))) by (destruct (r_freq r); discriminate).
    assert (F : freq_of_str (freq_show (r_freq r)) = Ok (r_freq r)) by (destruct (r_freq r); reflexivity). rewrite F. cbn [obind].
    assert (U : match ne (opt_show date_str (r_until r)) with Some v => omap Some (pfinish (p_date_or_dt v)) | None => Ok None end = UN).
    { subst UN. destruct (r_until r) as [d|]; [|reflexivity]. cbn [opt_show]. rewrite ne_Some; [reflexivity|apply date_str_nonnil]. }
    assert (C : match ne (opt_show show_int (r_count r)) with Some v => omap Some (parse_u8 v) | None => Ok None end = Ok (r_count r)).
    { destruct (r_count r) as [n|]; [|reflexivity]. cbn [opt_show]. rewrite ne_Some by apply show_int_ok.
      unfold parse_u8, parse_int. rewrite parse_unsigned_show; [reflexivity|]. unfold U8MAX. auto. }
    assert (I : match ne (show_int (r_interval r)) with Some v => omap Some (parse_u8 v) | None => Ok None end = Ok (Some (r_interval r))).
    { rewrite ne_Some by apply show_int_ok. unfold parse_u8, parse_int. rewrite parse_unsigned_show; [reflexivity|]. unfold U8MAX. auto. }
    assert (W : match ne (opt_show weekday_show (r_wkst r)) with Some v => omap Some (weekday_of_str v) | None => Ok None end = Ok (r_wkst r)).
    { destruct (r_wkst r) as [w|]; [|reflexivity]. destruct w; reflexivity. }
    assert (L : forall l, small_ints l -> match ne (ints_show l) with Some v => by_list v | None => Ok [] end = Ok l).
    { intros l Hl. apply ints_read in Hl. destruct (ne (ints_show l)); congruence. }
    assert (LD : match ne (join [44] (map wdn_show (r_by_day r))) with Some v => bywdaylist v | None => Ok [] end = Ok (r_by_day r)).
    { apply wdns_read in H4. destruct (ne _); congruence. }
    rewrite U. destruct UN as [u| |]; cbn [obind]; auto. rewrite C. cbn [obind]. rewrite I. cbn [obind].
    do 3 (rewrite L by assumption; cbn [obind]). rewrite LD. cbn [obind].
    do 5 (rewrite L by assumption; cbn [obind]). rewrite W. cbn [obind]. reflexivity.
  - intros H. assert (X : In (lit "FREQ", freq_show (r_freq r)) (nonempty (rule_fields r))).
    { unfold nonempty. apply in_flat_map. exists (lit "FREQ", freq_show (r_freq r)). split; [cbn; auto|]. destruct (r_freq r); cbn; auto. }
    rewrite H in X. destruct X.
  - assert (G : Forall rule_part (rule_fields r)).
    { assert (K : forall n v, key_text n -> ~ In 59 v -> rule_part (n, v)) by (intros; split; auto).
      unfold rule_fields. repeat (apply Forall_cons; [apply K; [apply key_text_lit; reflexivity|auto using ints_no_semi]|]); [..|apply Forall_nil].
      - destruct (r_freq r); cbn; lia.
      - destruct (r_until r) as [d|]; [|cbn; tauto]. cbn [opt_show]. eapply no_char; [apply (date_chars d (Hu d eq_refl))|]. unfold dt_char, date_char. lia.
      - destruct (r_count r) as [n|]; [|cbn; tauto]. eapply no_char; [apply show_int_ok|]. cbn; lia.
      - eapply no_char; [apply show_int_ok|]. cbn; lia.
      - apply (no_char (fun c => 48 <= c <= 57 \/ c = 45 \/ 65 <= c <= 90 \/ c = 44)); [|cbn; lia]. apply join_chars; [auto|].
        apply Forall_forall. intros s Hs. apply in_map_iff in Hs as (y & <- & _). eapply Forall_impl; [|apply wdn_chars]. cbn. tauto.
      - destruct (r_wkst r) as [[]|]; cbn; lia. }
    unfold nonempty. apply Forall_flat_map. eapply Forall_impl; [|exact G]. intros [k v] Hp. cbn [snd]. destruct v; auto.
Qed.
End Env.
