(** * One generation of a field, and one more. *)
From Verif Require Import Base Env Chrono Nom Types Ser Parser Derive BaseFacts NomFacts ChronoFacts SpecLine LineFacts SpecText SerFacts PropText PropLine
  SpecCal SpecDur PropDate PropDur PropVocab PropRule PropPeriod PropList DateText Components SpecComp DeriveFacts SpecFields PropComp SpecFile PropFile SpecRound RoundFacts FrameFacts BackFacts
  FieldFacts ChildFacts CalFacts AlarmFacts PropRound SpecLoss LossFacts PropLoss SpecFatal PropDurAll SpecValue PropValue SpecHistory HistFacts HistStep.

(** ** Generic *)
Lemma req_step {T} (p : content_line -> outcome T) n m value w (P : Prop) : (forall c, cl_value c = value -> cl_params c = m -> p c = Ok w -> P) -> back_req p (line n m value) w -> P.
Proof.
  intros F (l & L & H). unfold line in L. destruct value as [|c r]; [discriminate|]. injection L as <-. now apply (F (mk_cl n m (c :: r))).
Qed.
Lemma kept_step {T} (p : content_line -> outcome T) (one : str -> T -> list content_line) (after : T -> T -> Prop) n o o' :
  (forall x, one n x <> []) -> (forall x w, o = Some x -> back_req p (one n x) w -> after x w) -> back_opt p (opt_lines one n o) o' -> kept after o o'.
Proof.
  intros N F H. destruct o as [x|]; cbn [opt_lines kept] in *; [|now apply back_opt_nil in H].
  destruct o' as [y|]; cbn [back_opt] in H; [|now apply N in H]. exists y. split; auto.
Qed.
Lemma eq_step {T} (p : content_line -> outcome T) (one : str -> T -> list content_line) n o o' :
  (forall x, one n x <> []) -> (forall x w, o = Some x -> back_req p (one n x) w -> w = x) -> back_opt p (opt_lines one n o) o' -> o' = o.
Proof.
  intros N F H. apply (kept_step p one (fun x y => y = x)) in H; auto. destruct o as [x|]; cbn [kept] in H; auto. now destruct H as (y & -> & ->).
Qed.
Lemma maybe_step {T} (p : content_line -> outcome T) (one : str -> T -> list content_line) shown (after : T -> T -> Prop) n o o' :
  (forall x, one n x = [] <-> shown x = []) -> (forall x w, o = Some x -> back_req p (one n x) w -> after x w) -> back_opt p (opt_lines one n o) o' -> maybe shown after o o'.
Proof.
  intros N F H. destruct o as [x|]; cbn [opt_lines maybe] in *; [|now apply back_opt_nil in H].
  destruct o' as [y|]; cbn [back_opt] in H.
  - right. exists y. split; [|split; auto]. intros X. apply N in X. destruct H as (l & L & _). congruence.
  - left. split; auto. now apply N.
Qed.
Lemma kept_trans {T} (after : nat -> T -> T -> Prop) n : (forall x y z, after n x y -> after 1%nat y z -> after (S n) x z) ->
  forall x y z, kept (after n) x y -> kept (after 1%nat) y z -> kept (after (S n)) x z.
Proof.
  intros F [x|] y z; cbn [kept]; [|now intros ->]. intros (y' & -> & A). cbn [kept]. intros (z' & -> & B). eauto.
Qed.
Lemma maybe_trans {T} (after : nat -> T -> T -> Prop) shown n : (forall x y z, after n x y -> after 1%nat y z -> after (S n) x z) ->
  (forall x y, shown x <> [] -> after n x y -> shown y <> []) ->
  forall x y z, maybe shown (after n) x y -> maybe shown (after 1%nat) y z -> maybe shown (after (S n)) x z.
Proof.
  intros F G [x|] y z; cbn [maybe]; [|now intros ->]. intros [[N ->]|(y' & N & -> & A)]; cbn [maybe].
  - intros ->. now left.
  - intros [[M _]|(z' & M & -> & B)]; [exfalso; revert M; eapply G; eauto|]. right. eauto.
Qed.
Lemma list_trans {T} (after : nat -> T -> T -> Prop) n : (forall x y z, after n x y -> after 1%nat y z -> after (S n) x z) ->
  forall x y z, Forall2 (after n) x y -> Forall2 (after 1%nat) y z -> Forall2 (after (S n)) x z.
Proof.
  intros F x y z A. revert z. induction A as [|a b x y A1 A2 IH]; intros z B; inversion B; subst; constructor; eauto.
Qed.

(** ** Texts *)
Lemma line_nil n m v : line n m v = [] <-> v = [].
Proof. destruct v; cbn [line]; split; congruence. Qed.
Lemma text_req n t w : back_req parse_text (text_line n t) w -> text_after 1 t w.
Proof.
  apply req_step. intros c V M H. injection H as <-. unfold text_after, text_of_cl. rewrite V, M. reflexivity.
Qed.
Lemma uri_req n t w : back_req parse_uri (uri_line n t) w -> uri_after 1 t w.
Proof.
  apply req_step. intros c V M H. injection H as <-. unfold uri_after, uri_of_cl. rewrite V, M. reflexivity.
Qed.
Lemma text_opt n o o' : back_opt parse_text (opt_lines text_line n o) o' -> maybe text_shown (text_after 1) o o'.
Proof. apply maybe_step; [intros x; apply line_nil|]. intros. eapply text_req; eauto. Qed.
Lemma uri_opt n o o' : back_opt parse_uri (opt_lines uri_line n o) o' -> maybe uri_shown (uri_after 1) o o'.
Proof. apply maybe_step; [intros x; apply line_nil|]. intros. eapply uri_req; eauto. Qed.
Lemma iter_shift {A} (f : A -> A) n x : f (Nat.iter n f x) = Nat.iter (S n) f x.
Proof. reflexivity. Qed.
Lemma text_shown_after n t y : text_shown t <> [] -> text_after n t y -> text_shown y <> [].
Proof.
  intros N ->. unfold text_shown in *. cbn [t_text]. intros H. apply escaped_nil in H. revert H. apply escaped_iter. intros X. now rewrite X in N.
Qed.
Lemma uri_shown_after n t y : uri_shown t <> [] -> uri_after n t y -> uri_shown y <> [].
Proof.
  intros N ->. unfold uri_shown in *. cbn [u_uri]. intros H. apply escaped_nil in H. revert H. apply escaped_iter. intros X. now rewrite X in N.
Qed.
Lemma textopt_trans n x y z : maybe text_shown (text_after n) x y -> maybe text_shown (text_after 1) y z -> maybe text_shown (text_after (S n)) x z.
Proof. apply maybe_trans; [apply text_trans|apply text_shown_after]. Qed.
Lemma uriopt_trans n x y z : maybe uri_shown (uri_after n) x y -> maybe uri_shown (uri_after 1) y z -> maybe uri_shown (uri_after (S n)) x z.
Proof. apply maybe_trans; [apply uri_trans|apply uri_shown_after]. Qed.

Lemma texts_step n l l' : back_vec parse_text (list_lines text_line text_shown n l) l' -> texts_after 1 l l'.
Proof.
  intros H. destruct l as [|t [|u l]]; cbn [texts_after].
  - cbn [list_lines map join line] in H. now inversion H.
  - cbn [list_lines] in H. unfold text_line in H. destruct (text_shown t) as [|c r] eqn:Q; cbn [line] in H.
    + inversion H; subst. split; auto. left. auto.
    + apply vec_one in H as (x & -> & P). split; auto. right. exists x. split; [congruence|]. split; auto. injection P as <-. unfold text_after, text_of_cl. cbn [cl_params cl_value Nat.iter nat_rect].
      unfold text_shown in Q. now rewrite Q.
  - change (l' = [mk_text [] (joined (map text_shown (t :: u :: l)))]). rewrite list2 in H by (cbn [length]; lia). apply vec_one in H as (x & -> & P). injection P as <-. reflexivity.
Qed.
Lemma uris_step n l l' : back_vec parse_uri (list_lines uri_line uri_shown n l) l' -> uris_after 1 l l'.
Proof.
  intros H. destruct l as [|t [|u l]]; cbn [uris_after].
  - cbn [list_lines map join line] in H. now inversion H.
  - cbn [list_lines] in H. unfold uri_line in H. destruct (uri_shown t) as [|c r] eqn:Q; cbn [line] in H.
    + inversion H; subst. split; auto. left. auto.
    + apply vec_one in H as (x & -> & P). split; auto. right. exists x. split; [congruence|]. split; auto. injection P as <-. unfold uri_after, uri_of_cl. cbn [cl_params cl_value Nat.iter nat_rect].
      unfold uri_shown in Q. now rewrite Q.
  - change (l' = [mk_uri [] (joined (map uri_shown (t :: u :: l)))]). rewrite list2 in H by (cbn [length]; lia). apply vec_one in H as (x & -> & P). injection P as <-. reflexivity.
Qed.
Lemma joined2_nonnil {T} (show : T -> str) a b l : joined (map show (a :: b :: l)) <> [].
Proof. apply (join2_nonempty show (a :: b :: l)). cbn [length]. lia. Qed.
Lemma short {A} (l : list A) : (length l <= 1)%nat -> l = match hd_error l with Some x => [x] | None => [] end.
Proof. destruct l as [|x [|y l]]; cbn; auto. lia. Qed.
Lemma texts_trans n x y z : (1 <= n)%nat -> texts_after n x y -> texts_after 1 y z -> texts_after (S n) x z.
Proof.
  intros L. destruct x as [|t [|u x]]; cbn [texts_after].
  - intros ->. auto.
  - intros [A B] C. rewrite (short y B) in C. destruct (hd_error y) as [t'|]; cbn [texts_after] in C.
    + destruct C as [C D]. split; auto. eapply textopt_trans; eauto.
    + subst z. split; auto. destruct A as [[A _]|(? & _ & X & _)]; [left; auto|discriminate].
  - intros -> C. cbn [texts_after] in C. destruct C as [C D]. rewrite (short z D). destruct C as [[C _]|(w & _ & -> & W)].
    + exfalso. unfold text_shown in C. cbn [t_text] in C. apply escaped_nil in C. revert C. apply escaped_iter, joined2_nonnil.
    + rewrite W. cbn [t_params t_text]. f_equal. f_equal. cbn [Nat.iter nat_rect]. destruct n as [|n]; [lia|]. replace (S n - 1)%nat with n by lia. replace (S (S n) - 1)%nat with (S n) by lia. reflexivity.
Qed.
Lemma uris_trans n x y z : (1 <= n)%nat -> uris_after n x y -> uris_after 1 y z -> uris_after (S n) x z.
Proof.
  intros L. destruct x as [|t [|u x]]; cbn [uris_after].
  - intros ->. auto.
  - intros [A B] C. rewrite (short y B) in C. destruct (hd_error y) as [t'|]; cbn [uris_after] in C.
    + destruct C as [C D]. split; auto. eapply uriopt_trans; eauto.
    + subst z. split; auto. destruct A as [[A _]|(? & _ & X & _)]; [left; auto|discriminate].
  - intros -> C. cbn [uris_after] in C. destruct C as [C D]. rewrite (short z D). destruct C as [[C _]|(w & _ & -> & W)].
    + exfalso. unfold uri_shown in C. cbn [u_uri] in C. apply escaped_nil in C. revert C. apply escaped_iter, joined2_nonnil.
    + rewrite W. cbn [u_params u_uri]. f_equal. f_equal. cbn [Nat.iter nat_rect]. destruct n as [|n]; [lia|]. replace (S n - 1)%nat with n by lia. replace (S (S n) - 1)%nat with (S n) by lia. reflexivity.
Qed.

(** ** Comma lists *)
Lemma no_comma_escaped s : ~ In 44 s -> ~ In 44 (escaped s).
Proof.
  intros N H. unfold escaped in H. apply in_flat_map in H as (c & I & H).
  destruct (escaped_char_cases c) as [[-> Q]|[[-> Q]|[[-> Q]|(A & B & C & Q)]]]; rewrite Q in H; cbn [In] in H; unfold BACKSLASH, LF in *; intuition (subst; auto; lia).
Qed.
Lemma no_comma_iter n s : ~ In 44 s -> ~ In 44 (Nat.iter n escaped s).
Proof. intros N. induction n as [|n IH]; auto. now apply no_comma_escaped. Qed.
Lemma list_value {T} (m : T -> smap str) (show : T -> str) n l : exists ps, list_lines (fun n x => line n (m x) (show x)) show n l = line n ps (joined (map show l)).
Proof. destruct l as [|x [|y l]]; cbn [list_lines map]; eexists; reflexivity. Qed.
Lemma app_cases {T U} (p : content_line -> outcome (list U)) (m : T -> smap str) (show : T -> str) n l ws :
  back_app p (list_lines (fun n x => line n (m x) (show x)) show n l) ws ->
  (joined (map show l) = [] /\ ws = []) \/ (joined (map show l) <> [] /\ exists c, cl_value c = joined (map show l) /\ p c = Ok ws).
Proof.
  intros H. destruct (list_value m show n l) as [ps Q]. rewrite Q in H. destruct (joined (map show l)) as [|c r]; cbn [line back_app] in H; [left; auto|].
  right. split; [discriminate|]. eexists. split; [|exact H]. reflexivity.
Qed.
Lemma names_step n l l' : back_app parse_texts (list_lines text_line text_shown n l) l' -> names_after 1 l l'.
Proof.
  intros H. apply (app_cases parse_texts t_params text_shown n l) in H. unfold names_after. destruct H as [[-> ->]|[N (c & V & P)]]; [reflexivity|].
  injection P as <-. rewrite V. destruct (joined (map text_shown l)) as [|a r]; [congruence|]. reflexivity.
Qed.
Lemma join_nil_cases l : join [44] l = [] -> l = [] \/ l = [[]].
Proof. destruct l as [|a [|b l]]; cbn [join]; auto; [intros ->; auto|]. intros H. apply app_eq_nil in H as [_ H]. discriminate. Qed.
Lemma names_trans n x y z : (1 <= n)%nat -> names_after n x y -> names_after 1 y z -> names_after (S n) x z.
Proof.
  intros L. unfold names_after at 1 3. destruct (joined (map text_shown x)) as [|a r] eqn:J.
  - intros ->. unfold names_after. cbn [map joined join]. auto.
  - set (s := a :: r) in *. intros -> H. unfold names_after in H.
    assert (Q : map text_shown (map (fun x => mk_text [] (Nat.iter (n - 1) escaped x)) (split_on 44 s)) = map (Nat.iter n escaped) (split_on 44 s)).
    { rewrite map_map. apply map_ext. intros q. unfold text_shown. cbn [t_text]. destruct n as [|n]; [lia|]. replace (S n - 1)%nat with n by lia. reflexivity. }
    rewrite Q in H. clear Q.
    assert (NJ : joined (map (Nat.iter n escaped) (split_on 44 s)) <> []).
    { intros X. apply join_nil_cases in X as [X|X]; [apply map_eq_nil in X; now apply split_on_nonnil in X|].
      destruct (split_on 44 s) as [|q [|q' l]] eqn:Sp; try discriminate. injection X as X.
      pose proof (join_split_on 44 s) as K. rewrite Sp in K. cbn [join] in K. subst q. revert X. apply escaped_iter. discriminate. }
    assert (SP : split_on 44 (joined (map (Nat.iter n escaped) (split_on 44 s))) = map (Nat.iter n escaped) (split_on 44 s)).
    { apply split_on_join; [intros X; apply map_eq_nil in X; now apply split_on_nonnil in X|]. rewrite Forall_map. eapply Forall_impl; [|apply split_on_notin]. intros q. apply no_comma_iter. }
    destruct (joined (map (Nat.iter n escaped) (split_on 44 s))) as [|b t]; [congruence|]. rewrite SP in H. rewrite H, map_map. apply map_ext. intros q.
    f_equal. replace (S n - 1)%nat with n by lia. reflexivity.
Qed.
(** ** Extensions *)
Lemma ext_step n m m' : back_ext (ext_line n m) m' -> ext_after n 1 m m'.
Proof.
  intros H. unfold back_ext, ext_line in H. destruct m as [|[k l] m]; cbn [ext_after]; [exact H|].
  set (V := join [59] (map _ ((k, l) :: m))) in *.
  assert (N : V <> []).
  { unfold V. cbn [map fst snd]. destruct (map _ m) as [|b x]; cbn [join]; destruct k; discriminate. }
  rewrite line_nonempty in H by exact N. exact H.
Qed.
Lemma ext_trans name n x y z : (1 <= n)%nat -> ext_after name n x y -> ext_after name 1 y z -> ext_after name (S n) x z.
Proof.
  intros L. destruct x as [|a x]; cbn [ext_after]; [intros ->; auto|]. intros -> H. cbn [ext_after map fst snd cl_value join] in H. rewrite H.
  destruct n as [|n]; [lia|]. replace (S n - 1)%nat with n by lia. replace (S (S n) - 1)%nat with (S n) by lia. replace (1 - 1)%nat with O by lia. reflexivity.
Qed.

Section Env.
Context {E : Env}.
(** ** Lists of dates and periods *)
Lemma list_step {T U} (f : str -> outcome U) (m : T -> smap str) (show : T -> str) (after : T -> U -> Prop) (P : T -> Prop) (p : content_line -> outcome (list U)) n l l' :
  (forall c, p c = ocollect f (split_on 44 (cl_value c))) -> (forall x, P x -> show x <> []) -> (forall x, P x -> ~ In 44 (show x)) ->
  (forall x y, P x -> f (show x) = Ok y -> after x y) -> Forall P l ->
  back_app p (list_lines (fun n x => line n (m x) (show x)) show n l) l' -> Forall2 after l l'.
Proof.
  intros Hp NE NC St A H. apply app_cases in H as [[J ->]|[N (c & V & Q)]].
  - destruct l as [|x l]; [constructor|]. exfalso. apply Forall_inv in A. apply join_nil_cases in J as [J|J]; [discriminate|]. cbn [map] in J. injection J as J _. now apply (NE x).
  - rewrite Hp, V in Q. assert (LN : l <> []) by (intros ->; now apply N). unfold joined in Q. rewrite split_on_join in Q.
    + apply ocollect_Ok in Q. clear -Q A St. revert l' Q. induction A as [|x l A1 A2 IH]; intros l' Q; cbn [map] in Q; inversion Q; subst; constructor; auto.
    + intros X. apply map_eq_nil in X. congruence.
    + rewrite Forall_map. eapply Forall_impl; [|exact A]. auto.
Qed.
Lemma exdate_step n l l' : Forall real_date l -> back_app parse_exdate (list_lines date_line date_str n l) l' -> Forall2 (date_after 1) l l'.
Proof.
  intros A H. eapply (list_step (fun x => pfinish (p_date_or_dt x)) date_params date_str (date_after 1) real_date); try exact H; auto.
  - intros x _. apply date_str_nonnil.
  - intros x R. eapply no_char; [apply date_chars; exact R|]. unfold dt_char, date_char. lia.
  - intros x y R. now apply date_step.
Qed.
Lemma td_no_comma d : ~ In 44 (td_show d).
Proof.
  assert (V : Forall (fun c => 33 <= c <= 126 /\ c <> 44) (td_show d)).
  { unfold td_show. assert (Dg : forall s, all_digits s = true -> Forall (fun c => 33 <= c <= 126 /\ c <> 44) s).
    { intros s D. apply Forall_forall. intros c Hc. apply (all_digits_In _ c D) in Hc. lia. }
    assert (Sg : Forall (fun c => 33 <= c <= 126 /\ c <> 44) (if d <? 0 then [45] else [])) by (destruct (d <? 0); repeat constructor; lia).
    destruct (_ =? 0); [apply Forall_app; split; auto; now apply uncomma_lit|].
    rewrite !Forall_app. split; auto. split; [now apply uncomma_lit|]. split; [|split; [|now apply uncomma_lit]].
    - apply Dg, show_nat_digits. apply Z.div_pos; unfold NANOS; lia.
    - assert (M : 0 <= Z.abs d mod NANOS) by (apply Z.mod_pos_bound; unfold NANOS; lia). pose proof (strip_zeros_nonneg 9 9 _ M).
      destruct (_ =? 0); [constructor|]. destruct (strip_zeros 9 9 (Z.abs d mod NANOS)) as [fig n]. constructor; [lia|]. apply Dg, show_pad_digits. exact H. }
  eapply no_char; [exact V|]. cbn. lia.
Qed.
Lemma period_no_comma p : real_period p -> ~ In 44 (period_show p).
Proof.
  assert (D : forall d, real_datetime d -> ~ In 44 (dt_show d)). { intros d R. eapply no_char; [apply dt_chars; exact R|]. unfold dt_char, date_char. lia. }
  destruct p as [s e|s d]; cbn [period_show real_period]; [intros [A B]|intros A]; rewrite !in_app_iff; cbn [In]; intros [X|[[X|[]]|X]]; try lia; try (now apply D in X). now apply td_no_comma in X.
Qed.
Lemma period_nonnil p : period_show p <> [].
Proof. destruct p; cbn [period_show]; intros X; apply app_eq_nil in X as [_ X]; discriminate. Qed.
Lemma freebusy_step n l l' : Forall real_period l -> back_app parse_freebusy (list_lines (plain_line period_show) period_show n l) l' -> Forall2 (period_after 1) l l'.
Proof.
  intros A H. eapply (list_step parse_period (fun _ => []) period_show (period_after 1) real_period); try exact H; auto.
  - intros x _. apply period_nonnil.
  - apply period_no_comma.
  - intros x y R. now apply period_step.
Qed.
(** ** Single values *)
Lemma datetime_req n d w : real_datetime d -> back_req parse_datetime (plain_line dt_show n d) w -> datetime_after 1 d w.
Proof. intros R. apply req_step. intros c V _ H. unfold parse_datetime in H. rewrite V in H. now apply dt_step. Qed.
Lemma date_req n d w : real_date d -> back_req parse_date (date_line n d) w -> date_after 1 d w.
Proof. intros R. apply req_step. intros c V _ H. unfold parse_date in H. rewrite V in H. now apply date_step. Qed.
Lemma trigger_req n d w : real_trigger d -> back_req parse_trigger (trigger_line n d) w -> trigger_after 1 d w.
Proof. intros R. apply req_step. intros c V _ H. eapply trigger_step; eauto. Qed.
Lemma offset_req n d w : real_offset d -> back_req parse_offset (plain_line offset_show n d) w -> offset_after 1 d w.
Proof. intros R. apply req_step. intros c V _ H. eapply offset_step; eauto. Qed.
Lemma dt_nonnil d : dt_show d <> [].
Proof. apply (date_str_nonnil (DDateTime d)). Qed.
Lemma plain_ne {T} (show : T -> str) n x : show x <> [] -> plain_line show n x <> [].
Proof. intros N H. apply N. now apply line_nil in H. Qed.
Lemma datetime_opt n o w : holds real_datetime o -> back_opt parse_datetime (opt_lines (plain_line dt_show) n o) w -> kept (datetime_after 1) o w.
Proof. intros R. apply kept_step; [intros; apply plain_ne, dt_nonnil|]. intros x y -> H. eapply datetime_req; eauto. Qed.
Lemma date_opt n o w : holds real_date o -> back_opt parse_date (opt_lines date_line n o) w -> kept (date_after 1) o w.
Proof. intros R. apply kept_step; [intros x H; apply line_nil in H; now apply date_str_nonnil in H|]. intros x y -> H. eapply date_req; eauto. Qed.
Lemma dur_opt n o w : back_opt parse_dur (opt_lines (plain_line td_show) n o) w -> kept (duration_after 1) o w.
Proof. apply kept_step; [intros; apply plain_ne, td_nonempty|]. intros x y _. apply req_step. intros c V _ H. eapply dur_step; eauto. Qed.
Lemma geo_opt n o w : back_opt parse_geo (opt_lines (plain_line geo_show) n o) w -> kept (geo_after 1) o w.
Proof.
  apply kept_step; [intros x; apply plain_ne; unfold geo_show; intros X; apply app_eq_nil in X as [_ X]; discriminate|].
  intros x y _ (l & L & H) Sf. destruct (B_geo x Sf n) as (c & C & _ & P). rewrite C in L. injection L as <-. congruence.
Qed.
Lemma rule_shown_nonnil r : rule_shown r <> [].
Proof.
  rewrite rule_shown_eq. unfold rule_text, nonempty, rule_fields. cbn [flat_map snd]. destruct (r_freq r); cbn [freq_show app map fst snd]; apply join_nonnil; discriminate.
Qed.
Lemma rule_opt n o w : holds tidy_rule o -> back_opt parse_rrule (opt_lines (plain_line rule_shown) n o) w -> kept (rule_after 1) o w.
Proof. intros R. apply kept_step; [intros; apply plain_ne, rule_shown_nonnil|]. intros x y -> . apply req_step. intros c V _ H. eapply rule_step; eauto. Qed.
Lemma class_opt n o w : back_opt parse_class (opt_lines (plain_line class_show) n o) w -> maybe class_show (class_after 1) o w.
Proof. apply maybe_step; [intros; apply line_nil|]. intros x y _. apply req_step. intros c V _ H. eapply class_step; eauto. Qed.
Lemma u32_opt n o w : back_opt parse_u32 (opt_lines (plain_line show_int) n o) w -> w = o.
Proof. apply eq_step; [intros; apply plain_ne, show_int_nonempty|]. intros x y _. apply req_step. intros c V _ H. unfold parse_u32 in H. rewrite V in H. eapply number_step; eauto. Qed.
Lemma percent_opt n o w : back_opt parse_percent (opt_lines (plain_line show_int) n o) w -> w = o.
Proof. apply eq_step; [intros; apply plain_ne, show_int_nonempty|]. intros x y _. apply req_step. intros c V _ H. unfold parse_percent in H. rewrite V in H. eapply number_step; eauto. Qed.
Lemma priority_opt n o w : back_opt parse_priority (opt_lines (plain_line show_int) n o) w -> w = o.
Proof. apply eq_step; [intros; apply plain_ne, show_int_nonempty|]. intros x y _. apply req_step. intros c V _ H. eapply priority_step; eauto. Qed.
Lemma status_opt n o w : back_opt parse_status (opt_lines (plain_line status_show) n o) w -> w = o.
Proof. apply eq_step; [intros x; apply plain_ne; destruct x; discriminate|]. intros x y _. apply req_step. intros c V _ H. eapply status_step; eauto. Qed.
Lemma transp_opt n o w : back_opt parse_transp (opt_lines (plain_line transp_show) n o) w -> w = o.
Proof. apply eq_step; [intros x; apply plain_ne; destruct x; discriminate|]. intros x y _. apply req_step. intros c V _ H. eapply transp_step; eauto. Qed.
Lemma rstatus_vec n l w : back_vec parse_rstatus (list_lines (plain_line rs_shown) rs_shown n l) w -> rstatus_after 1 l w.
Proof.
  intros H [->|(x & -> & Sf)]; cbn [list_lines] in H; [cbn [map join line] in H; now inversion H|].
  destruct (B_rs x Sf n) as (c & C & _ & P). rewrite C in H. apply vec_one in H as (y & -> & P'). congruence.
Qed.
Lemma rdate_vec n l w : back_vec parse_rdate (list_lines (plain_line rdate_show) rdate_show n l) w -> l = [] /\ w = [].
Proof. intros H. pose proof (rdate_lost _ _ _ H) as ->. split; auto. cbn [list_lines map join line] in H. now inversion H. Qed.
(** ** One more *)
Lemma geo_trans n x y z : geo_after n x y -> geo_after 1 y z -> geo_after (S n) x z.
Proof. unfold geo_after. intros A B Sf. specialize (A Sf). subst y. auto. Qed.
Lemma rstatus_trans n x y z : rstatus_after n x y -> rstatus_after 1 y z -> rstatus_after (S n) x z.
Proof. unfold rstatus_after. intros A B Sf. specialize (A Sf). subst y. auto. Qed.
Lemma upper_nil s : sane_env -> to_uppercase s = [] -> s = [].
Proof.
  intros (_ & _ & U & _). destruct s as [|c s]; auto. unfold to_uppercase. cbn [flat_map]. intros H. apply app_eq_nil in H as [H _]. exfalso.
  destruct (Z.ltb_spec c 128) as [L|L]; [discriminate|]. now destruct (U c L).
Qed.
Lemma upper_iter n s : sane_env -> s <> [] -> Nat.iter n to_uppercase s <> [].
Proof. intros SE N. induction n as [|n IH]; auto. intros H. apply IH. apply (upper_nil _ SE). exact H. Qed.
Lemma class_shown_after n k y : sane_env -> class_show k <> [] -> class_after n k y -> class_show y <> [].
Proof.
  intros SE N H. destruct k as [| | |s]; cbn [class_after] in H; try (subst y; exact N). cbn zeta in H. cbn [class_show] in N.
  repeat match type of H with context[if ?b then _ else _] => destruct b; [subst y; discriminate|] end. subst y. cbn [class_show].
  intros X. apply (upper_nil _ SE) in X. revert X. apply upper_iter; auto. intros ->. now apply N.
Qed.
Lemma classopt_trans n x y z : sane_env -> maybe class_show (class_after n) x y -> maybe class_show (class_after 1) y z -> maybe class_show (class_after (S n)) x z.
Proof. intros SE. apply maybe_trans; [apply class_trans|intros; eapply class_shown_after; eauto]. Qed.
End Env.
