(** * C34-C37: comma lists and orders *)
From Verif Require Import Base Env Chrono Nom Types Ser Parser Derive BaseFacts ChronoFacts DateText NomFacts SpecLine LineFacts SpecText SerFacts PropText PropLine
  SpecCal SpecDur PropDate PropDur PropVocab PropRule PropPeriod.

(** ** C34 *)
Lemma no_eol_join l : Forall no_eol l -> no_eol (join [44] l).
Proof.
  intros H. split; eapply (no_char (fun c => c <> CR /\ c <> LF)); try tauto;
    (apply join_chars; [unfold CR, LF; lia|]); eapply Forall_impl; try exact H;
    intros s [A B]; apply Forall_forall; intros c Hc; split; intros ->; auto.
Qed.
Lemma vec_ical_show {T} (S : serialize T) show l : (forall x, In x l -> s_ical S x = Ok (show x)) -> vec_ical S l = Ok (join [44] (map show l)).
Proof.
  intros H. unfold vec_ical.
  assert (O : ocollect (s_ical S) l = Ok (map show l)).
  { induction l as [|x l IH]; cbn [ocollect map]; auto. rewrite H by (left; auto). cbn [obind]. rewrite IH by (intros; apply H; right; auto). reflexivity. }
  rewrite O. cbn [obind]. now rewrite join_pop.
Qed.
Lemma good_nil : good_params [].
Proof. split; [constructor|intros ? ? []]. Qed.
(** Reading back the line of a list field: one item keeps its parameters, several
    lose them. *)
Lemma vec_field_reads {T} (S : serialize T) (show : T -> str) (par : T -> smap str) name l out :
  s_component S = None ->
  (forall x, In x l -> s_ical S x = Ok (show x) /\ s_attr S x = params_attr (par x) /\ good_params (par x) /\ no_eol (show x)) ->
  key_text name -> ~ reserved name -> join [44] (map show l) <> [] -> vec_field S name l = Ok out ->
  forall rest, not_continuation rest ->
    p_content_line (unfold_lines (out ++ rest)) =
    POk (unfold_lines rest) (mk_cl name (match l with [x] => par x | _ => [] end) (join [44] (map show l))).
Proof.
  intros Hc Hl Hk Hr Hne Hout rest Hnc.
  assert (E : no_eol (join [44] (map show l))).
  { apply no_eol_join. apply Forall_map, Forall_forall. intros x Hx. now destruct (Hl x Hx) as (_ & _ & _ & ?). }
  assert (G : vec_field S name l = ser_field (ser_vec S) name l ->
    p_content_line (unfold_lines (out ++ rest)) = POk (unfold_lines rest) (mk_cl name [] (join [44] (map show l)))).
  { intros Hv. rewrite Hv in Hout. eapply (field_reads (ser_vec S) name l); eauto using good_nil. cbn [s_ical ser_vec]. apply vec_ical_show. intros x Hx. now destruct (Hl x Hx). }
  destruct l as [|x [|y l]]; try (now apply G).
  destruct (Hl x (or_introl eq_refl)) as (A & B & C & D).
  eapply (field_reads S name x); eauto.
Qed.
(** A list of texts: no ';', ',' or line break in the entries. *)
Theorem C34_text_lists :
  forall (name : str) (l : list str) (out : str),
    key_text name -> ~ reserved name -> l <> [] -> l <> [[]] ->
    Forall (fun s => plain_text s /\ ~ In CR s) l ->
    vec_field ser_text name (map text_of_str l) = Ok out ->
    exists c, p_content_line (unfold_lines out) = POk [] c /\ cl_key c = name /\ parse_texts c = Ok (map text_of_str l).
Proof.
  intros name l out Hk Hr H0 H1 Hl Hout.
  assert (M : map (fun t => escape (t_text t)) (map text_of_str l) = l).
  { rewrite map_map. clear -Hl. induction Hl as [|s l [Hs _] Hl IH]; cbn [map]; auto. f_equal; auto. now apply escape_plain. }
  eexists. split; [|split].
  - rewrite <- (app_nil_r out). change (@nil Z) with (unfold_lines []) at 2.
    eapply (vec_field_reads ser_text (fun t => escape (t_text t)) t_params); eauto.
    + intros x Hx. apply in_map_iff in Hx as (s & <- & Hs). rewrite Forall_forall in Hl. destruct (Hl s Hs) as [P Q]. cbn [t_text text_of_str t_params s_ical ser_text s_attr].
      split; [reflexivity|]. split; [reflexivity|]. split; [apply good_nil|]. split; [rewrite escape_CR; auto|apply escape_no_LF].
    + rewrite M. intros J. destruct l as [|a [|b l]]; [congruence| |].
      * cbn in J. congruence.
      * cbn [join] in J. apply app_eq_nil in J as [_ J]. discriminate.
    + intros x. discriminate.
  - reflexivity.
  - unfold parse_texts. cbn [cl_value]. rewrite M, split_on_join; auto.
    eapply Forall_impl; [|exact Hl]. intros s [(_ & ? & _) _]. auto.
Qed.
(** Entries with commas are cut: the number of entries read back is the number
    written plus the number of commas in them. *)
Definition commas (s : str) : nat := count_occ Z.eq_dec s 44.
Lemma split_length s : length (split_on 44 s) = S (commas s).
Proof.
  unfold commas. induction s as [|c s IH]; cbn [split_on count_occ]; auto.
  destruct (Z.eqb_spec c 44); destruct (Z.eq_dec c 44); try lia.
  - cbn [length]. now rewrite IH.
  - destruct (split_on 44 s) eqn:X; [cbn in IH; lia|]. cbn [length] in *. auto.
Qed.
Lemma commas_app a b : commas (a ++ b) = (commas a + commas b)%nat.
Proof. apply count_occ_app. Qed.
Lemma commas_escape s : commas (escape s) = commas s.
Proof.
  rewrite escape_map. induction s as [|c s IH]; cbn [flat_map]; auto. rewrite commas_app, IH. change (c :: s) with ([c] ++ s). rewrite commas_app. f_equal.
  destruct (escaped_char_cases c) as [[-> ->]|[[-> ->]|[[-> ->]|(? & ? & ? & ->)]]]; reflexivity.
Qed.
Theorem C34_commas_split :
  forall (name : str) (l : list str) (out : str),
    key_text name -> ~ reserved name -> l <> [] -> l <> [[]] -> Forall (fun s => ~ In CR s) l ->
    vec_field ser_text name (map text_of_str l) = Ok out ->
    exists c l', p_content_line (unfold_lines out) = POk [] c /\ cl_key c = name /\ parse_texts c = Ok l' /\
      length l' = (length l + list_sum (map commas l))%nat.
Proof.
  intros name l out Hk Hr H0 H1 Hl Hout.
  assert (M : map (fun t => escape (t_text t)) (map text_of_str l) = map escape l) by now rewrite map_map.
  eexists. eexists. split; [|split; [|split]].
  - rewrite <- (app_nil_r out). change (@nil Z) with (unfold_lines []) at 2.
    eapply (vec_field_reads ser_text (fun t => escape (t_text t)) t_params); eauto.
    + intros x Hx. apply in_map_iff in Hx as (s & <- & Hs). rewrite Forall_forall in Hl. specialize (Hl s Hs). cbn [t_text text_of_str t_params s_ical ser_text s_attr].
      split; [reflexivity|]. split; [reflexivity|]. split; [apply good_nil|]. split; [rewrite escape_CR; auto|apply escape_no_LF].
    + rewrite M. intros J. destruct l as [|a [|b l]]; [congruence| |].
      * cbn [map join] in J. apply H1. f_equal. destruct a as [|c a]; auto. rewrite escape_map in J. cbn [flat_map] in J. apply app_eq_nil in J as [J _].
        destruct (escaped_char_cases c) as [[-> Q]|[[-> Q]|[[-> Q]|(? & ? & ? & Q)]]]; rewrite Q in J; discriminate.
      * cbn [map join] in J. apply app_eq_nil in J as [_ J]. discriminate.
    + intros x. discriminate.
  - reflexivity.
  - reflexivity.
  - cbn [cl_value]. rewrite M, map_length, split_length. clear -H0. destruct l as [|a l]; [congruence|]. clear H0.
    revert a; induction l as [|b l IH]; intros a.
    + cbn [map join list_sum fold_right length]. rewrite commas_escape. lia.
    + cbn [map]. change (join [44] (escape a :: escape b :: map escape l)) with (escape a ++ [44] ++ join [44] (map escape (b :: l))).
      rewrite !commas_app, commas_escape. specialize (IH b). cbn [map length list_sum fold_right] in *. change (commas [44]) with 1%nat. lia.
Qed.
(** EXDATE: one or more dates or zone-less date-times. *)
Definition date_params (d : date) : smap str := match d with DDate _ => [(lit "VALUE", lit "DATE")] | DDateTime _ => [] end.
Lemma good_lit_param k v : forallb is_alphanumeric k = true -> forallb is_alphanumeric v = true -> good_params [(k, v)].
Proof.
  intros Hk Hv. split; [repeat constructor|]. intros k' v' [E|[]]. inv E. split; [now apply key_text_lit|].
  apply key_text_lit in Hv. unfold key_text in Hv.
  assert (G : forall c, ~ key_char c -> ~ In c v') by (intros c Hc Hin; rewrite Forall_forall in Hv; now apply Hv in Hin).
  repeat split; try (apply G; unfold key_char, SEMI, COLON, CR, LF; lia). intros r ->. apply Forall_inv in Hv. unfold key_char, QUOTE in Hv. lia.
Qed.
Lemma date_params_good d : good_params (date_params d).
Proof. destruct d; [now apply good_lit_param|apply good_nil]. Qed.
Lemma date_no_comma s : Forall date_char s -> ~ In 44 s.
Proof. intros H. eapply no_char; [exact H|]. unfold date_char. lia. Qed.
Lemma date_char_no_eol s : Forall date_char s -> no_eol s.
Proof. intros H. split; eapply no_char; try exact H; unfold date_char, CR, LF; lia. Qed.
Theorem C34_exdate :
  forall (E : Env) (l : list date) (out : str), l <> [] -> Forall writable_date l ->
    vec_field ser_date (lit "EXDATE") l = Ok out ->
    exists c, p_content_line (unfold_lines out) = POk [] c /\ cl_key c = lit "EXDATE" /\ parse_exdate c = Ok l.
Proof.
  intros E l out H0 Hl Hout.
  assert (C : Forall (fun s => Forall date_char s) (map date_str l)) by (apply Forall_map; eapply Forall_impl; [|exact Hl]; intros d Hd; now apply writable_reads).
  eexists. split; [|split].
  - rewrite <- (app_nil_r out). change (@nil Z) with (unfold_lines []) at 2.
    eapply (vec_field_reads ser_date date_str date_params); eauto.
    + intros x Hx. split; [reflexivity|]. split; [destruct x; reflexivity|]. split; [apply date_params_good|].
      apply date_char_no_eol. rewrite Forall_forall in Hl. now apply writable_reads, Hl.
    + now apply key_text_lit.
    + intros [X|X]; discriminate.
    + destruct l as [|d l]; [congruence|]. cbn [map]. apply join_nonnil. apply Forall_inv in Hl. now apply writable_reads.
    + intros x. discriminate.
  - reflexivity.
  - unfold parse_exdate. cbn [cl_value]. rewrite split_on_join.
    + apply ocollect_Ok. clear -Hl. induction Hl; constructor; auto. now apply writable_reads.
    + destruct l; [congruence|discriminate].
    + eapply Forall_impl; [|exact C]. apply date_no_comma.
Qed.
(** FREEBUSY: one or more periods. *)
Lemma uncomma_lit s : forallb (fun c => (33 <=? c) && (c <=? 126) && negb (c =? 44)) s = true -> Forall (fun c => 33 <= c <= 126 /\ c <> 44) s.
Proof. intros H. rewrite forallb_forall in H. apply Forall_forall. intros c Hc. apply H in Hc. rewrite !andb_true_iff, negb_true_iff, !Z.leb_le, Z.eqb_neq in Hc. lia. Qed.
Lemma writable_period_real {E : Env} p : writable_period p -> period_show p <> [] /\ ~ In 44 (period_show p) /\ no_eol (period_show p).
Proof.
  intros H.
  assert (V : Forall (fun c => 33 <= c <= 126 /\ c <> 44) (period_show p)).
  { assert (D : forall d, writable_datetime d -> Forall (fun c => 33 <= c <= 126 /\ c <> 44) (dt_show d)).
    { intros d Hd. destruct (writable_dt_reads d Hd) as (_ & _ & C & _). eapply Forall_impl; [|exact C]. unfold date_char. lia. }
    assert (Sl : Forall (fun c => 33 <= c <= 126 /\ c <> 44) [47]) by (constructor; [lia|constructor]).
    destruct p as [s e|s d]; destruct H as [A B]; cbn [period_show]; rewrite !Forall_app; repeat split; auto.
    destruct B as (n & -> & Hn & _). unfold td_show.
    assert (F : (n * sec <? 0) = false) by (apply Z.ltb_ge; unfold sec; lia). rewrite F.
    destruct (Z.abs (n * sec) =? 0); [now apply uncomma_lit|].
    assert (Q : Z.abs (n * sec) mod NANOS = 0) by (rewrite Z.abs_eq by (unfold sec; lia); apply Z.mod_mul; unfold NANOS; lia). rewrite Q, Z.eqb_refl. cbn [app].
    rewrite !Forall_app. split; [now apply uncomma_lit|]. split; [|now apply uncomma_lit].
    assert (Dg := show_nat_digits (Z.abs (n * sec) / NANOS) ltac:(apply Z.div_pos; unfold NANOS; lia)).
    apply Forall_forall. intros c Hc. apply (all_digits_In _ c Dg) in Hc. lia. }
  split; [|split].
  - destruct p as [s e|s d]; cbn [period_show]; intros X; apply app_eq_nil in X as [_ X]; discriminate.
  - eapply no_char; [exact V|]. cbn. lia.
  - split; eapply no_char; try exact V; unfold CR, LF; cbn; lia.
Qed.
Theorem C34_freebusy :
  forall (E : Env) (l : list period) (out : str), l <> [] -> Forall writable_period l ->
    vec_field ser_period (lit "FREEBUSY") l = Ok out ->
    exists c, p_content_line (unfold_lines out) = POk [] c /\ cl_key c = lit "FREEBUSY" /\ parse_freebusy c = Ok l.
Proof.
  intros E l out H0 Hl Hout. eexists. split; [|split].
  - rewrite <- (app_nil_r out). change (@nil Z) with (unfold_lines []) at 2.
    eapply (vec_field_reads ser_period period_show (fun _ => [])); eauto.
    + intros x Hx. split; [reflexivity|]. split; [reflexivity|]. split; [apply good_nil|]. rewrite Forall_forall in Hl. now apply writable_period_real, Hl.
    + now apply key_text_lit.
    + intros [X|X]; discriminate.
    + destruct l as [|d l]; [congruence|]. cbn [map]. apply join_nonnil. apply Forall_inv in Hl. now apply writable_period_real.
    + intros x. discriminate.
  - reflexivity.
  - unfold parse_freebusy. cbn [cl_value]. rewrite split_on_join.
    + apply ocollect_Ok. clear -Hl. induction Hl; constructor; auto. now apply (C31_period_round_trip E).
    + destruct l; [congruence|discriminate].
    + apply Forall_map. eapply Forall_impl; [|exact Hl]. intros p Hp. now apply writable_period_real.
Qed.
Example C34_nonvacuous : forall E : Env,
  vec_field ser_text (lit "CATEGORIES") [text_of_str (lit "WORK"); text_of_str (lit "HOME")] = Ok (lit "CATEGORIES:WORK,HOME" ++ CRLF) /\
  vec_field ser_text (lit "CATEGORIES") [text_of_str (lit "A,B")] = Ok (lit "CATEGORIES:A\,B" ++ CRLF) /\
  vec_field ser_date (lit "EXDATE") [DDate 19782] = Ok (lit "EXDATE;VALUE=DATE:20240229" ++ CRLF) /\ writable_date (DDate 19782).
Proof. intros E. repeat split; try (vm_compute; reflexivity). exists 2024, 2, 29. split; [reflexivity|lia]. Qed.

(** ** C35 *)
(** Laws of a comparison: reversing the arguments reverses the answer, and it is
    transitive; so it is a total preorder. *)
Definition total_preorder {A} (cmp : A -> A -> comparison) (P : A -> Prop) : Prop :=
  (forall a b, P a -> P b -> cmp b a = CompOpp (cmp a b)) /\
  (forall a b c, P a -> P b -> P c -> cmp a b <> Gt -> cmp b c <> Gt -> cmp a c <> Gt) /\
  (forall a b c, P a -> P b -> P c -> cmp a b = Lt -> cmp b c <> Gt -> cmp a c = Lt) /\
  (forall a b c, P a -> P b -> P c -> cmp a b <> Gt -> cmp b c = Lt -> cmp a c = Lt).
Definition anything {A} (_ : A) : Prop := True.
Definition ndt_before (a b : ndt) : Prop :=
  nd_date a < nd_date b \/ nd_date a = nd_date b /\ (nd_secs a < nd_secs b \/ nd_secs a = nd_secs b /\ nd_nano a < nd_nano b).
Lemma ndt_cmp_spec a b : match ndt_cmp a b with Lt => ndt_before a b | Eq => a = b | Gt => ndt_before b a end.
Proof.
  destruct a as [d s n], b as [d' s' n']. unfold ndt_cmp, ndt_before. cbn [nd_date nd_secs nd_nano].
  destruct (Z.compare_spec d d'); [|lia|lia]. destruct (Z.compare_spec s s'); [|lia|lia]. destruct (Z.compare_spec n n'); subst; auto; lia.
Qed.
Lemma ndt_cmp_laws : total_preorder ndt_cmp anything.
Proof.
  unfold total_preorder. repeat split; intros a b; [intros _ _|intros c _ _ _..];
    repeat match goal with |- context [ndt_cmp ?x ?y] => lazymatch goal with | H : match ndt_cmp x y with _ => _ end |- _ => fail | _ => pose proof (ndt_cmp_spec x y) end end;
    repeat match goal with |- context [ndt_cmp ?x ?y] => destruct (ndt_cmp x y) end; cbn; intros; try congruence; auto; exfalso;
    unfold ndt_before in *; subst; try lia.
Qed.
Theorem C35_datetime_order :
  forall E : Env,
    total_preorder (@dt_cmp E) anything /\
    (forall x y, dt_cmp (Naive x) (Naive y) = Eq <-> Naive x = Naive y) /\
    (forall x y, dt_cmp (Naive x) (Naive y) = Lt <->
       (nd_date x < nd_date y \/ nd_date x = nd_date y /\ (nd_secs x < nd_secs y \/ nd_secs x = nd_secs y /\ nd_nano x < nd_nano y))).
Proof.
  intros E. split; [|split].
  - destruct ndt_cmp_laws as (A & B & C & D). unfold dt_cmp.
    split; [intros a b _ _; now apply A|]. split; [intros a b c _ _ _; exact (B _ _ _ I I I)|].
    split; [intros a b c _ _ _; exact (C _ _ _ I I I)|intros a b c _ _ _; exact (D _ _ _ I I I)].
  - intros x y. unfold dt_cmp. cbn [dt_naive]. pose proof (ndt_cmp_spec x y). split; intros H0.
    + rewrite H0 in H. now subst.
    + inv H0. destruct (ndt_cmp y y); auto; unfold ndt_before in H; lia.
  - intros x y. unfold dt_cmp. cbn [dt_naive]. pose proof (ndt_cmp_spec x y). destruct (ndt_cmp x y); split; intros; auto; try congruence; subst;
    unfold ndt_before in *; lia.
Qed.
(** A zone-less value and a zoned one with the same wall clock compare Equal, in
    every time zone, though they are different. *)
Theorem C35_mixed_equal_not_identical :
  forall (E : Env) (u : ndt), dt_cmp (Naive (naive_local u)) (Local u) = Eq /\ Naive (naive_local u) <> Local u.
Proof.
  intros E u. split; [|discriminate]. unfold dt_cmp. cbn [dt_naive]. pose proof (ndt_cmp_spec (naive_local u) (naive_local u)).
  destruct (ndt_cmp _ _); auto; unfold ndt_before in H; lia.
Qed.

(** ** C36 *)
Definition is_date (d : date) : Prop := exists n, d = DDate n.
Definition is_datetime (d : date) : Prop := exists t, d = DDateTime t.
Theorem C36_one_kind :
  forall E : Env, total_preorder (@date_cmp E) is_date /\ total_preorder (@date_cmp E) is_datetime /\
    forall a b, is_date a -> is_date b -> (date_cmp a b = Eq <-> a = b).
Proof.
  intros E. split; [|split].
  - repeat split; intros a b; [intros [x ->] [y ->]|intros c [x ->] [y ->] [z ->]..]; cbn [date_cmp].
    + now rewrite Z.compare_antisym.
    + rewrite !Z.compare_ngt_iff. lia.
    + rewrite Z.compare_ngt_iff, !Z.compare_lt_iff. lia.
    + rewrite Z.compare_ngt_iff, !Z.compare_lt_iff. lia.
  - destruct (C35_datetime_order E) as [(A & B & C & D) _]. unfold anything in *.
    split; [|split; [|split]]; intros a b; [intros [x ->] [y ->]|intros c [x ->] [y ->] [z ->]..]; cbn [date_cmp];
      [exact (A _ _ I I)|exact (B _ _ _ I I I)|exact (C _ _ _ I I I)|exact (D _ _ _ I I I)].
  - intros a b [x ->] [y ->]. cbn [date_cmp]. rewrite Z.compare_eq_iff. split; [now intros ->|now intros [= ->]].
Qed.
(** With a date and two different times of that day, equality is not transitive. *)
Theorem C36_mixed_refuted :
  forall (E : Env) (d : ndate) (s s' : Z), s < s' ->
    let a := DDateTime (Naive (mk_ndt d s 0)) in let b := DDate d in let c := DDateTime (Naive (mk_ndt d s' 0)) in
    date_cmp a b = Eq /\ date_cmp b c = Eq /\ date_cmp a c = Lt /\ a <> b /\ b <> c.
Proof.
  intros E d s s' H a b c. subst a b c. cbn [date_cmp]. unfold dt_date_naive, dt_cmp, ndt_cmp. cbn [dt_naive nd_date nd_secs]. rewrite Z.compare_refl.
  rewrite (proj2 (Z.compare_lt_iff s s') H). repeat split; discriminate.
Qed.

(** ** C37 *)
(** The length of a period: its duration, or end minus start in nanoseconds of
    wall clock. *)
Theorem C37_period_order :
  forall E : Env,
    total_preorder (@period_cmp E) anything /\
    (forall s d s' d', period_cmp (StartDur s d) (StartDur s' d') = (d ?= d')) /\
    (forall s e d s', period_cmp (StartEnd s e) (StartDur s' d) = (dt_sub e s ?= d)) /\
    (forall x y d s', nd_nano x < sec -> nd_nano y < sec ->
       period_cmp (StartEnd (Naive x) (Naive y)) (StartDur s' d) =
       ((nd_date y - nd_date x) * 86400 * sec + (nd_secs y - nd_secs x) * sec + (nd_nano y - nd_nano x) ?= d)).
Proof.
  intros E. split; [|split; [|split]]; auto.
  - unfold period_cmp. repeat split; intros.
    + now rewrite Z.compare_antisym.
    + revert H2 H3. rewrite !Z.compare_ngt_iff. lia.
    + revert H2 H3. rewrite Z.compare_ngt_iff, !Z.compare_lt_iff. lia.
    + revert H2 H3. rewrite Z.compare_ngt_iff, !Z.compare_lt_iff. lia.
  - intros x y d s' Hx Hy. unfold period_cmp. cbn [period_duration]. unfold dt_sub, ndt_diff. cbn [dt_naive]. change NANOS with sec.
    destruct (sec <=? nd_nano x) eqn:X; [apply Z.leb_le in X; lia|]. destruct (sec <=? nd_nano y) eqn:Y; [apply Z.leb_le in Y; lia|].
    rewrite !andb_false_r. now rewrite Z.add_0_r.
Qed.
Theorem C37_equal_not_identical :
  forall (E : Env) (s s' : datetime) (d : tdelta), s <> s' ->
    period_cmp (StartDur s d) (StartDur s' d) = Eq /\ StartDur s d <> StartDur s' d.
Proof. intros E s s' d H. split; [apply Z.compare_refl|congruence]. Qed.
