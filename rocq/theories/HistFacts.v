(** * What is read from clean lines is tidy, and what is written from tidy values is clean lines. *)
From Verif Require Import Base Env Chrono Nom Types Ser Parser Derive BaseFacts NomFacts ChronoFacts SpecLine LineFacts SpecText SerFacts PropText PropLine
  SpecCal SpecDur PropDate PropDur PropVocab PropRule PropPeriod PropList DateText Components SpecComp DeriveFacts SpecFields PropComp SpecFile PropFile SpecRound RoundFacts FrameFacts BackFacts SpecValue PropValue SpecHistory.

Section Env.
Context {E : Env}.
Hypothesis SE : sane_env.

(** ** The readers *)
Lemma no_eol_nil : no_eol []. Proof. split; intros []. Qed.
Lemma no_eol_app a b : no_eol (a ++ b) <-> no_eol a /\ no_eol b.
Proof. unfold no_eol. rewrite !in_app_iff. tauto. Qed.
Lemma no_eol_cons c s : no_eol (c :: s) <-> c <> CR /\ c <> LF /\ no_eol s.
Proof. unfold no_eol. cbn [In]. intuition congruence. Qed.
Lemma T_text l v : clean_line l -> parse_text l = Ok v -> tidy_text v.
Proof. intros (K & P & V) H. inv H. split; [exact P|apply V]. Qed.
Lemma T_uri l v : clean_line l -> parse_uri l = Ok v -> tidy_uri v.
Proof. intros (K & P & V) H. inv H. split; [exact P|apply V]. Qed.
Lemma good_nil : good_params []. Proof. split; [constructor|intros ? ? []]. Qed.
Lemma split_in c s p x : In p (split_on c s) -> In x p -> In x s.
Proof.
  revert p. induction s as [|y s IH]; intros p; cbn [split_on]; [intros [<-|[]] []|].
  destruct (y =? c).
  - intros [<-|H] Hx; [destruct Hx|right; eauto].
  - destruct (split_on c s) as [|q qs] eqn:Q; [intros [<-|[]] [->|[]]; now left|].
    intros [<-|H] Hx; [destruct Hx as [->|Hx]; [now left|right; eapply IH; [now left|auto]]|right; eapply IH; [right; eauto|auto]].
Qed.
Lemma T_texts l v : clean_line l -> parse_texts l = Ok v -> Forall tidy_text v.
Proof.
  intros (K & P & V) H. inv H. rewrite Forall_map. apply Forall_forall. intros p Hp. split; [apply good_nil|]. cbn [text_of_str t_text]. intros Q.
  apply (proj1 V). eapply split_in; eauto.
Qed.
Lemma ndt_parse_wf suf s n : ndt_parse suf s = Some n -> ndt_wf n = true /\ date_ok (nd_date n) = true.
Proof.
  unfold ndt_parse. destruct (scan_ymd s) as [[s1 [[y m] d]]|] eqn:H1; [|congruence].
  destruct (lit_char 84 s1) as [s2|] eqn:H2; [|congruence].
  destruct (num2 s2) as [[s3 h]|] eqn:H3; [|congruence].
  destruct (num2 s3) as [[s4 mi]|] eqn:H4; [|congruence].
  destruct (num2 s4) as [[s5 se]|] eqn:H5; [|congruence].
  destruct (strip_prefix suf s5) as [r|] eqn:H6; [|congruence]. destruct r; [|congruence].
  destruct (from_ymd_opt y m d) as [dd|] eqn:H7; [|congruence]. intros H8.
  apply from_ymd_opt_iff in H7 as [_ O].
  unfold hms in H8. destruct (_ && _) eqn:Hr; [|congruence]. bool_hyps.
  unfold ndt_wf. destruct (Z.eqb_spec se 60) as [->|Hse]; inv H8; cbn [nd_date nd_secs nd_nano]; rewrite O; unfold NANOS; split; auto; cbn [andb]; lia.
Qed.
Lemma T_dt s v : pfinish (p_date_time s) = Ok v -> real_datetime v.
Proof.
  intros H. apply pfinish_Ok in H as [x H]. unfold p_date_time in H. destruct (ndt_parse [] (trim_end_char 90 s)) as [n|] eqn:Q; inv H.
  apply ndt_parse_wf in Q as [Q _]. destruct (ends_with_char 90 s); exact Q.
Qed.
Lemma T_datetime l v : clean_line l -> parse_datetime l = Ok v -> real_datetime v.
Proof. intros _. apply T_dt. Qed.
Lemma T_dd s v : pfinish (p_date_or_dt s) = Ok v -> real_date v.
Proof.
  intros H. apply pfinish_Ok in H as [x H]. unfold p_date_or_dt, palt, pmap, pbind in H. destruct (p_date s) as [r d| |] eqn:Q; inv H.
  - unfold p_date in Q. destruct (date_parse s) as [n|] eqn:P; inv Q. cbn [real_date]. unfold date_parse in P.
    destruct (scan_ymd s) as [[s1 [[y m] d']]|]; [|congruence]. destruct s1; [|congruence]. apply from_ymd_opt_iff in P as [_ O]. exact O.
  - destruct (p_date_time s) as [r d| |] eqn:P; inv H1. cbn [real_date]. apply (T_dt s). rewrite P. reflexivity.
Qed.
Lemma T_date l v : clean_line l -> parse_date l = Ok v -> real_date v.
Proof. intros _. apply T_dd. Qed.
Lemma ocollect_all {A B} (f : A -> outcome B) (Q : B -> Prop) l r : (forall x y, f x = Ok y -> Q y) -> ocollect f l = Ok r -> Forall Q r.
Proof. intros F H. apply ocollect_Ok in H. induction H; constructor; eauto. Qed.
Lemma T_exdate l v : clean_line l -> parse_exdate l = Ok v -> Forall real_date v.
Proof. intros _ H. unfold parse_exdate in H. eapply ocollect_all; [|exact H]. intros x y. apply T_dd. Qed.
Lemma T_period' s v : parse_period s = Ok v -> real_period v.
Proof.
  unfold parse_period. destruct (splitn2 47 s) as [a [b|]]; destruct (pfinish (p_date_time a)) as [st| |] eqn:A; cbn [obind]; try congruence.
  apply T_dt in A. destruct (starts_with (lit "P") b).
  - destruct (pfinish (p_duration b)) as [d| |]; cbn [obind]; try congruence. intros H. inv H. exact A.
  - destruct (pfinish (p_date_time b)) as [d| |] eqn:B; cbn [obind]; try congruence. intros H. inv H. split; [exact A|]. now apply T_dt in B.
Qed.
Lemma T_freebusy l v : clean_line l -> parse_freebusy l = Ok v -> Forall real_period v.
Proof. intros _ H. unfold parse_freebusy in H. eapply ocollect_all; [|exact H]. intros x y. apply T_period'. Qed.
Lemma T_rdate l v : clean_line l -> parse_rdate l = Ok v -> real_rdate v.
Proof.
  intros _ H. unfold parse_rdate in H.
  assert (D : forall r, omap RDates (ocollect (fun x => pfinish (p_date_or_dt x)) (split_on 44 (cl_value l))) = Ok r -> real_rdate r).
  { clear H. intros r. destruct (ocollect _ _) as [ds| |] eqn:Q; cbn [omap]; intros X; inv X. cbn [real_rdate]. eapply ocollect_all; [|exact Q]. intros x y. apply T_dd. }
  destruct (mget (lit "VALUE") (cl_params l)) as [p|]; [|auto]. destruct (str_eqb p (lit "PERIOD")); [|auto].
  destruct (ocollect parse_period _) as [ds| |] eqn:Q; cbn [omap] in H; inv H. cbn [real_rdate]. eapply ocollect_all; [|exact Q]. intros x y Y.
  apply T_period' in Y. exact Y.
Qed.
Lemma T_rule l v : clean_line l -> parse_rrule l = Ok v -> tidy_rule v.
Proof.
  intros _ H. apply pfinish_Ok in H as [x H]. unfold pmap_res in H. apply pbind_POk in H as (r & items & _ & H).
  destruct (recur_of_items items) as [w| |] eqn:Q; try discriminate. injection H as _ <-. unfold recur_of_items in Q. destruct (mget (lit "FREQ") _) as [fs|]; [|discriminate].
  destruct (freq_of_str fs) as [fr| |]; cbn [obind] in Q; try discriminate.
  destruct (get_with _ (lit "UNTIL") _) as [un| |] eqn:U; cbn [obind] in Q; try discriminate.
  assert (R : holds real_date un).
  { unfold get_with in U. destruct (mget (lit "UNTIL") _) as [us|]; [|inv U; intros ? ?; discriminate].
    destruct (pfinish (p_date_or_dt us)) as [d| |] eqn:D; cbn in U; inv U. intros z Hz. inv Hz. now apply T_dd in D. }
  repeat match type of Q with obind ?o _ = Ok _ => destruct o; cbn [obind] in Q; try discriminate end. injection Q as <-. exact R.
Qed.
Lemma T_status l v : clean_line l -> parse_status l = Ok v -> anything v. Proof. intros _ _. exact I. Qed.
Lemma upper_no_eol s : no_eol s -> no_eol (to_uppercase s).
Proof.
  induction s as [|c s IH]; intros H; [apply no_eol_nil|]. apply no_eol_cons in H as (A & B & C). unfold to_uppercase. cbn [flat_map]. apply no_eol_app.
  split; [|now apply IH]. destruct (Z.ltb_spec c 128).
  - apply no_eol_cons. unfold ascii_upper, CR, LF in *. destruct (_ && _) eqn:Q; (split; [|split; [|apply no_eol_nil]]); bool_hyps; lia.
  - apply SE. lia.
Qed.
Lemma T_class l v : clean_line l -> parse_class l = Ok v -> tidy_class v.
Proof.
  intros (K & P & V) H. unfold parse_class, class_of_str in H.
  repeat (destruct (str_eqb _ _); [inv H; apply visible_no_eol, visible_lit; vm_compute; reflexivity|]). inv H. now apply upper_no_eol.
Qed.
Lemma T_geo l v : clean_line l -> parse_geo l = Ok v -> tidy_geo v.
Proof. intros _ _. split; apply SE. Qed.
Lemma T_rs l v : clean_line l -> parse_rstatus l = Ok v -> tidy_rs v.
Proof.
  intros (K & P & V) H. unfold parse_rstatus in H. apply pfinish_Ok in H as [x Q].
  unfold p_rstatus in Q. apply pbind_POk in Q as (r1 & code & F & Q). apply pbind_POk in Q as (r2 & c1 & C & Q). apply pchar_POk in C as [-> ->].
  apply pbind_POk in Q as (r3 & d & D & Q). apply take_while_POk in D as (-> & _). apply pbind_POk in Q as (r4 & e & X & Q). inv Q.
  unfold p_float in F. destruct (f32_parse (cl_value l)) as [[r0 y]|] eqn:FP; inv F. destruct SE as (_ & _ & _ & S4). destruct (S4 _ _ _ FP) as [u Hu]. rewrite Hu in V.
  apply no_eol_app in V as [_ V]. apply no_eol_cons in V as (_ & _ & V). apply no_eol_app in V as [Vd Vr].
  split; [apply SE|]. split; [apply Vd|]. cbn [rs_ext].
  unfold popt in X. destruct (preceded (pchar 59) (take_while (fun _ => true)) r3) as [r5 e5| |] eqn:Y; inv X; [|intros ? ?; discriminate].
  unfold preceded in Y. apply pbind_POk in Y as (r6 & c2 & C & Y). apply pchar_POk in C as [-> ->]. apply take_while_POk in Y as (-> & _).
  apply no_eol_cons in Vr as (_ & _ & Vr). apply no_eol_app in Vr as [Ve _]. intros z Hz. inv Hz. apply Ve.
Qed.
Lemma T_trigger l v : clean_line l -> parse_trigger l = Ok v -> real_trigger v.
Proof.
  intros _ H. apply pfinish_Ok in H as [x H]. unfold palt, pmap, pbind in H. destruct (p_duration (cl_value l)); inv H; [exact I|].
  destruct (p_date_time (cl_value l)) as [r d| |] eqn:P; inv H1. cbn [real_trigger]. apply (T_dt (cl_value l)). now rewrite P.
Qed.
Lemma T_offset l v : clean_line l -> parse_offset l = Ok v -> real_offset v.
Proof.
  intros _ H. unfold parse_offset in H. destruct (offset_parse (cl_value l)) as [o|] eqn:Q; inv H. unfold offset_parse in Q.
  destruct (cl_value l) as [|c r]; [discriminate|]. destruct (_ || _); [|discriminate]. destruct (two_digits r) as [[[r1 h1] h2]|]; [|discriminate].
  destruct (two_digits _) as [[[r2 m1] m2]|]; [|discriminate]. destruct (m1 <=? 5); [|discriminate]. cbn zeta in Q.
  destruct (_ && _) eqn:B; [|discriminate]. inv Q. unfold real_offset. bool_hyps. lia.
Qed.

(** ** The kinds of fields *)
Lemma R_req {T} (p : content_line -> outcome T) (P : T -> Prop) n ls v : (forall l v, clean_line l -> p l = Ok v -> P v) ->
  Forall clean_line ls -> required p n ls v -> P v.
Proof.
  intros F C (l & (b & a & -> & _ & _) & H). apply Forall_app in C as [_ C]. inversion C; subst. eauto.
Qed.
Lemma R_opt {T} (p : content_line -> outcome T) (P : T -> Prop) n ls v : (forall l v, clean_line l -> p l = Ok v -> P v) ->
  Forall clean_line ls -> optional p n ls v -> holds P v.
Proof. intros F C (_ & H) x ->. eapply R_req; eauto. Qed.
Lemma clean_named n ls : Forall clean_line ls -> Forall clean_line (lines_named n ls).
Proof. intros H. apply Forall_forall. intros l Hl. apply filter_In in Hl as [Hl _]. rewrite Forall_forall in H. auto. Qed.
Lemma R_rep {T} (p : content_line -> outcome T) (P : T -> Prop) n ls v : (forall l v, clean_line l -> p l = Ok v -> P v) ->
  Forall clean_line ls -> repeated p n ls v -> Forall P v.
Proof. intros F C H. unfold repeated in H. apply (clean_named n) in C. induction H; [constructor|]. inversion C; subst. constructor; eauto. Qed.
Lemma R_app {T} (p : content_line -> outcome (list T)) (P : T -> Prop) n ls v : (forall l v, clean_line l -> p l = Ok v -> Forall P v) ->
  Forall clean_line ls -> appended p n ls v -> Forall P v.
Proof.
  intros F C (vss & H & ->). apply (clean_named n) in C. induction H; [constructor|]. inversion C; subst. cbn [concat]. apply Forall_app. split; eauto.
Qed.
Lemma mget_of_in {V} (m : smap V) k v : sorted_map m -> In (k, v) m -> mget k m = Some v.
Proof.
  induction 1 as [|k' v' m F Sm IH]; [intros []|]. intros [H|H]; cbn [mget].
  - inv H. now rewrite str_eqb_refl.
  - destruct (str_eqb k k') eqn:Q; [|auto]. apply str_eqb_eq in Q. subst k'. rewrite Forall_forall in F. specialize (F _ H). cbn [fst] in F.
    rewrite str_cmp_refl in F. discriminate.
Qed.
Lemma key_no_eol k : key_text k -> no_eol k.
Proof.
  intros H. unfold key_text in H. rewrite Forall_forall in H. split; intros X; apply H in X; unfold key_char, CR, LF in X; lia.
Qed.
Lemma R_ext names ls x i : Forall clean_line ls -> extensions names ls x i -> tidy_ext x /\ tidy_ext i.
Proof.
  intros C (S1 & S2 & X & I). rewrite Forall_forall in C.
  assert (G : forall n l, last_line n ls l -> no_eol n /\ ~ In CR (cl_value l)).
  { intros n l (b & a & -> & <- & _). destruct (C l) as (K & P & V); [apply in_app_iff; right; now left|]. split; [now apply key_no_eol|apply V]. }
  split; intros k l H.
  - apply mget_of_in in H; auto. apply X in H as (_ & _ & H). now apply G.
  - apply mget_of_in in H; auto. apply I in H as (_ & _ & H). now apply G.
Qed.

(** ** The writers *)
Definition fine_key (n : str) : Prop := key_text n.
Lemma W_line n m value : key_text n -> good_params m -> no_eol value -> Forall clean_line (line n m value).
Proof. intros K P V. unfold line. destruct value; constructor; auto. split; auto. Qed.
Lemma W_plain {T} (S' : serialize T) (show : T -> str) (P : T -> Prop) n x : lineable S' (plain_line show) show P -> key_text n -> P x -> Forall clean_line (plain_line show n x).
Proof. intros L K H. apply W_line; auto; [apply good_nil|]. now apply (L x H). Qed.
Lemma escaped_no_eol s : ~ In CR s -> no_eol (escaped s).
Proof.
  induction s as [|c s IH]; intros H; [apply no_eol_nil|]. cbn [escaped flat_map]. apply no_eol_app. split.
  - unfold escaped_char. assert (c <> CR) by (intros ->; apply H; now left). unfold CR, LF, BACKSLASH in *.
    repeat match goal with |- context[if ?b then _ else _] => destruct b eqn:? end; apply no_eol_cons; unfold CR, LF, BACKSLASH; (split; [lia|]); (split; [lia|]);
      try apply no_eol_nil; apply no_eol_cons; unfold CR, LF, BACKSLASH; (split; [lia|]); (split; [lia|]); apply no_eol_nil.
  - apply IH. intros X. apply H. now right.
Qed.
Lemma W_text n t : key_text n -> tidy_text t -> Forall clean_line (text_line n t).
Proof. intros K (P & C). apply W_line; auto. now apply escaped_no_eol. Qed.
Lemma W_uri n t : key_text n -> tidy_uri t -> Forall clean_line (uri_line n t).
Proof. intros K (P & C). apply W_line; auto. now apply escaped_no_eol. Qed.
Lemma good_VALUE v : param_value v -> good_params [(lit "VALUE", v)].
Proof.
  intros H. split; [repeat constructor|]. intros k w [X|[]]. inv X. split; auto. apply Forall_forall. intros c Hc. 
  assert (Q : forallb (fun c => (65 <=? c) && (c <=? 90)) (lit "VALUE") = true) by reflexivity. rewrite forallb_forall in Q. specialize (Q c Hc).
  unfold key_char. bool_hyps. lia.
Qed.
Lemma value_word v : forallb (fun c => (65 <=? c) && (c <=? 90) || (c =? 45)) v = true -> param_value v.
Proof.
  intros H. rewrite forallb_forall in H. unfold param_value. repeat split; try (intros X; apply H in X; unfold SEMI, COLON, CR, LF in X; lia).
  intros r ->. specialize (H QUOTE (or_introl eq_refl)). unfold QUOTE in H. lia.
Qed.
Lemma W_date n d : key_text n -> real_date d -> Forall clean_line (date_line n d).
Proof.
  intros K H. apply W_line; auto; [|now apply visible_no_eol, visible_date]. destruct d; cbn [date_params]; [|apply good_nil].
  apply good_VALUE, value_word. reflexivity.
Qed.
Lemma W_trigger n d : key_text n -> real_trigger d -> Forall clean_line (trigger_line n d).
Proof.
  intros K H. apply W_line; auto; [|now apply (L_trigger d H)]. unfold trigger_params. destruct d; apply good_VALUE, value_word; reflexivity.
Qed.
Lemma W_opt {T} (one : str -> T -> list content_line) (P : T -> Prop) n o : (forall x, P x -> Forall clean_line (one n x)) -> holds P o -> Forall clean_line (opt_lines one n o).
Proof. intros F H. destruct o as [x|]; [|constructor]. apply F. now apply H. Qed.
Lemma join_no_eol sep l : sep <> CR -> sep <> LF -> Forall no_eol l -> no_eol (join [sep] l).
Proof.
  intros A B. induction 1 as [|x l H F IH]; [apply no_eol_nil|]. destruct l as [|y l]; [exact H|].
  change (no_eol (x ++ [sep] ++ join [sep] (y :: l))). apply no_eol_app. split; auto. apply no_eol_cons. auto.
Qed.
Lemma W_list {T} (S' : serialize T) (one : str -> T -> list content_line) (show : T -> str) (P : T -> Prop) n l : key_text n -> lineable S' one show P ->
  (forall x, P x -> Forall clean_line (one n x)) -> Forall P l -> Forall clean_line (list_lines one show n l).
Proof.
  intros K L F H. assert (G : Forall clean_line (line n [] (join [44] (map show l)))).
  { apply W_line; auto; [apply good_nil|]. apply join_no_eol; [unfold CR; lia|unfold LF; lia|]. rewrite Forall_map. eapply Forall_impl; [|exact H].
    intros x X. now apply (L x X). }
  unfold list_lines. destruct l as [|x [|y l]]; auto. inversion H; subst. auto.
Qed.
Lemma W_ext n m : key_text n -> tidy_ext m -> Forall clean_line (ext_line n m).
Proof.
  intros K H. apply W_line; auto; [apply good_nil|]. apply join_no_eol; [unfold CR; lia|unfold LF; lia|]. rewrite Forall_map. apply Forall_forall.
  intros [k l] Hk. cbn [fst snd]. destruct (H k l Hk) as [A B]. apply no_eol_app. split; auto. apply no_eol_cons. unfold CR, LF.
  split; [lia|]. split; [lia|]. now apply escaped_no_eol.
Qed.
End Env.
