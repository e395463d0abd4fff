(** * C06-C09: content lines *)
From Verif Require Import Base Env Nom Types Ser Parser Derive BaseFacts NomFacts SpecText SpecLine SerFacts LineFacts PropText.

(** ** C06 *)
(** Accepted exactly when the text reads as a content line, and then exactly that
    text is consumed: what is left is [rest]. Two content lines are compared by
    name, value and parameter lookup. *)
Theorem C06_content_line_syntax :
  forall s rest,
    (forall c, p_content_line s = POk rest c -> is_line s c rest) /\
    (forall c, is_line s c rest ->
       exists c', p_content_line s = POk rest c' /\ cl_key c' = cl_key c /\ cl_value c' = cl_value c /\
                  forall n, mget n (cl_params c') = mget n (cl_params c)).
Proof. intros s rest. split; [apply is_line_parse|apply is_line_parse_inv]. Qed.
(** The parser never panics, and its two ways of not accepting are the same. *)
Theorem C06_rejection :
  forall s, p_content_line s = PErr <-> ~ exists c rest, is_line s c rest.
Proof.
  intros s. destruct (p_content_line s) as [r c| |] eqn:E.
  - split; [congruence|]. intros H. exfalso. apply H. exists c, r. now apply is_line_parse.
  - split; auto. intros _ (c & r & H). apply is_line_parse_inv in H as (c' & H & _). congruence.
  - now apply calm_line in E.
Qed.
Example C06_nonvacuous :
  p_content_line (lit "DTSTART;TZID=Europe/Paris;X=""a:b"":20240101" ++ [CR; LF] ++ lit "NEXT") =
  POk (lit "NEXT") (mk_cl (lit "DTSTART") [(lit "TZID", lit "Europe/Paris"); (lit "X", lit "a:b")] (lit "20240101")).
Proof. vm_compute. reflexivity. Qed.

(** ** C07 *)
Lemma run_lines s l r : many_run p_content_line s l r -> is_lines s l r /\ ~ exists c rest, is_line r c rest.
Proof.
  induction 1 as [s H|s r1 a l r' H Hl _ [I1 I2]].
  - split; [constructor|]. now apply C06_rejection.
  - split; auto. econstructor; eauto. now apply is_line_parse.
Qed.
(** Reading lines succeeds on every input (no error, no panic, no divergence),
    with a run of content lines that cannot be extended. *)
Theorem C07_reading_lines_total :
  forall s, exists rest ls,
    p_content_lines s = POk rest ls /\ is_lines s ls rest /\ ~ exists c r, is_line rest c r.
Proof.
  intros s. destruct (lines_total s) as (r & l & H). exists r, l. split; auto. apply lines_POk in H. now apply run_lines.
Qed.
(** The run is the longest one: any run of content lines at the start of the input
    is, line by line, a beginning of the one returned. *)
Definition same_line (a b : content_line) : Prop :=
  cl_key a = cl_key b /\ cl_value a = cl_value b /\ forall n, mget n (cl_params a) = mget n (cl_params b).
Theorem C07_longest :
  forall s rest ls, p_content_lines s = POk rest ls ->
  forall ls' rest', is_lines s ls' rest' -> exists more, Forall2 same_line ls' (firstn (length ls') ls) /\
    (length ls = length ls' + more)%nat.
Proof.
  intros s rest ls H. apply lines_POk in H. induction H as [s H|s r1 a l r' H Hl _ IH]; intros ls' rest' H'.
  - destruct H' as [s|s c r ls' rest' Hc _]; [exists O; cbn; auto|].
    apply is_line_parse_inv in Hc as (c' & Hc & _). congruence.
  - destruct H' as [s|s c r ls' rest' Hc Hr]; [exists (length (a :: l)); cbn; auto|].
    apply is_line_parse_inv in Hc as (c' & Hc & Hs). rewrite H in Hc. injection Hc as <- <-.
    destruct (IH _ _ Hr) as (more & I1 & I2). exists more. cbn [firstn length]. split; [|lia].
    constructor; auto. unfold same_line. intuition.
Qed.
Example C07_nonvacuous :
  exists ls, p_content_lines (lit "A:1" ++ [LF] ++ lit "B;C=D:2" ++ [CR; LF] ++ lit "END:X") = POk (lit "END:X") ls /\ length ls = 2%nat.
Proof. eexists. split; [vm_compute; reflexivity|reflexivity]. Qed.

(** ** C08 *)
(** Names of the parameters of a text, in order, with their values. *)
Theorem C08_last_parameter_wins :
  forall s rest c, p_content_line s = POk rest c ->
  exists t l, s = cl_key c ++ t /\ (exists after, params_read t l after) /\
    (forall n, mget n (cl_params c) = last_binding l n) /\
    (forall n v, last_binding l n = Some v <->
       exists l1 l2, l = l1 ++ (n, v) :: l2 /\ ~ In n (map fst l2)).
Proof.
  intros s rest c H. apply line_POk in H as (_ & _ & k & t & l & v & e & -> & _ & Hp & _ & _ & ->).
  exists t, l. cbn [cl_key cl_params]. split; auto. split; [eauto|]. split; [intros; apply map_of_get|].
  intros n w. unfold last_binding. clear. rewrite <- (rev_involutive l). generalize (rev l) as r. clear l. intros r.
  rewrite <- fold_left_rev_right, rev_involutive.
  induction r as [|[k x] r IH]; cbn [fold_right rev fst snd].
  - split; [congruence|]. intros (l1 & l2 & E & _). now destruct l1.
  - destruct (str_eqb n k) eqn:E.
    + apply str_eqb_eq in E as <-. split.
      * intros [= <-]. exists (rev r), []. cbn. auto.
      * intros (l1 & l2 & E & Hn). destruct l2 as [|kv l2] using rev_ind.
        -- apply app_inj_tail in E as [_ [= ->]]. auto.
        -- exfalso. rewrite app_comm_cons, app_assoc in E. apply app_inj_tail in E as [_ <-].
           apply Hn. rewrite map_app, in_app_iff. cbn. auto.
    + apply str_eqb_neq in E. rewrite IH. split.
      * intros (l1 & l2 & -> & Hn). exists l1, (l2 ++ [(k, x)]). split; [now rewrite <- app_assoc|].
        rewrite map_app, in_app_iff. cbn. intuition.
      * intros (l1 & l2 & E2 & Hn). destruct l2 as [|kv l2] using rev_ind.
        -- apply app_inj_tail in E2 as [_ [= -> ->]]. congruence.
        -- rewrite app_comm_cons, app_assoc in E2. apply app_inj_tail in E2 as [-> <-].
           exists l1, l2. split; auto. intros Hin. apply Hn. rewrite map_app, in_app_iff. auto.
Qed.
Example C08_nonvacuous :
  exists c, p_content_line (lit "A;P=1;Q=2;P=3:v" ++ [LF]) = POk [] c /\
    mget (lit "P") (cl_params c) = Some (lit "3") /\ mget (lit "Z") (cl_params c) = None.
Proof. eexists. split; [vm_compute; reflexivity|]. split; reflexivity. Qed.

(** ** C09 *)
Definition param_name (k : str) : Prop := key_text k.
Definition param_value (v : str) : Prop :=
  ~ In SEMI v /\ ~ In 44 v /\ ~ In COLON v /\ ~ In CR v /\ ~ In LF v /\ (forall r, v <> QUOTE :: r).
Definition good_params (m : smap str) : Prop :=
  msorted m /\ forall k v, In (k, v) m -> param_name k /\ param_value v.

Lemma join_semi (l : list (str * str)) :
  pop (concat (map (fun kv => fst kv ++ [61] ++ escape (snd kv) ++ [59]) l)) =
  join [59] (map (fun kv => fst kv ++ [61] ++ escape (snd kv)) l).
Proof.
  rewrite <- join_pop. f_equal. induction l as [|a l IH]; auto. cbn [map concat flat_map]. rewrite IH.
  now rewrite <- !app_assoc.
Qed.
Lemma params_attr_eq m : m <> [] ->
  params_attr m = Some (join [59] (map (fun kv => fst kv ++ [61] ++ escape (snd kv)) m)).
Proof.
  intros H. unfold params_attr. destruct m as [|kv m]; [congruence|]. set (l := kv :: m). clearbody l.
  unfold map_ical.
  rewrite ocollect_map with (g := fun kv => fst kv ++ [61] ++ escape (snd kv) ++ [59]) by (intros x _; reflexivity).
  cbn [obind]. f_equal. apply join_semi.
Qed.
Definition attr_text (attr : option str) : str := match attr with Some a => [59] ++ a | None => [] end.
Lemma attr_text_eq m : attr_text (params_attr m) = concat (map (fun kv => [59] ++ fst kv ++ [61] ++ escape (snd kv)) m).
Proof.
  destruct m as [|kv m]; [reflexivity|]. rewrite params_attr_eq by congruence. cbn [attr_text].
  revert kv; induction m as [|kv' m IH]; intros kv; [cbn; now rewrite app_nil_r|].
  specialize (IH kv'). cbn [map] in IH |- *.
  change (join [59] (?a :: ?b :: ?l)) with (a ++ [59] ++ join [59] (b :: l)).
  cbn [join]. cbn [join] in IH.
  match goal with |- [59] ++ ?a ++ [59] ++ ?X = _ => change ([59] ++ X) with ([59] ++ X) in IH end.
  rewrite IH. cbn [concat]. now rewrite <- !app_assoc.
Qed.
Lemma params_read_written m rest : (forall k v, In (k, v) m -> param_name k /\ param_value v) ->
  params_read (concat (map (fun kv => [59] ++ fst kv ++ [61] ++ escape (snd kv)) m) ++ COLON :: rest) m rest.
Proof.
  induction m as [|[k v] m IH]; intros H; [apply pr_end|]. cbn [map concat fst snd].
  destruct (H k v) as [Hk (H1 & H2 & H3 & H4 & H5 & H6)]; [cbn; auto|].
  rewrite escape_plain by (repeat split; auto).
  set (t := concat (map (fun kv => [59] ++ fst kv ++ [61] ++ escape (snd kv)) m) ++ COLON :: rest) in *.
  assert (Ht : exists c x, t = c :: x /\ (c = SEMI \/ c = COLON)).
  { subst t. destruct m as [|[k' v'] m]; cbn; eauto. }
  replace ((([59] ++ k ++ [61] ++ v) ++ concat (map (fun kv => [59] ++ fst kv ++ [61] ++ escape (snd kv)) m)) ++ COLON :: rest)
    with (SEMI :: k ++ [EQUALS] ++ [] ++ v ++ t) by (subst t; rewrite <- !app_assoc; reflexivity).
  apply pr_plain; auto.
  - left. split; auto. intros [r E]. destruct v as [|c v].
    + destruct Ht as (c & x & -> & Hc). cbn in E. injection E as -> _. unfold SEMI, COLON, CR in Hc. lia.
    + cbn in E. injection E as -> _. apply H4. cbn; auto.
  - intros (w & x & E). cbn [app] in E. destruct v as [|c v].
    + destruct Ht as (c & y & -> & Hc). cbn in E. injection E as -> _. unfold SEMI, COLON, QUOTE in Hc. lia.
    + cbn in E. injection E as -> _. now apply (H6 v).
  - apply IH. intros; apply H; cbn; auto.
Qed.
(** The general form: any property whose attribute text is a written parameter map. *)
Lemma written_line_reads name m value rest :
  key_text name -> ~ reserved name -> good_params m -> no_eol value ->
  p_content_line (logical_line name (params_attr m) value ++ rest) = POk rest (mk_cl name m value).
Proof.
  intros Hn Hr [Hs Hm] Hv. destruct (line_not_begins name (params_attr m) value rest Hn Hr).
  rewrite (line_reads name (params_attr m) value rest m); auto.
  - unfold map_of. now rewrite minsert_rebuild.
  - change (match params_attr m with Some a => [59] ++ a | None => [] end) with (attr_text (params_attr m)).
    rewrite attr_text_eq. apply params_read_written. auto.
Qed.
Theorem C09_safe_line_round_trip :
  forall (name : str) (t : text) (out : str),
    key_text name -> ~ reserved name -> good_params (t_params t) ->
    t_text t <> [] -> plain_text (t_text t) -> ~ In CR (t_text t) ->
    ser_field ser_text name t = Ok out ->
    p_content_line (unfold_lines out) = POk [] (mk_cl name (t_params t) (t_text t)).
Proof.
  intros name t out Hn Hr Hp Ht Hpl Hcr H.
  assert (Hk1 : forall k, key_text k -> one_line k).
  { intros k Hk Hin. unfold key_text in Hk. rewrite Forall_forall in Hk. apply Hk in Hin. unfold key_char, LF in Hin. lia. }
  rewrite (C01_text name t out); auto.
  - rewrite escape_plain by auto. rewrite <- (app_nil_r (logical_line _ _ _)).
    apply written_line_reads; auto. split; auto. apply Hpl.
  - intros k v Hkv. destruct Hp as [_ Hp]. apply Hk1. now apply (Hp k v).
Qed.
(** A ':' in a parameter value is not protected: the value is cut there. *)
Theorem C09_colon_not_preserved :
  forall (name k a b value : str),
    key_text name -> ~ reserved name -> key_text k -> param_value a -> ~ In SEMI b -> ~ In 44 b -> no_eol b -> no_eol value ->
    let m := [(k, a ++ COLON :: b)] in
    p_content_line (logical_line name (params_attr m) value) =
      POk [] (mk_cl name [(k, a)] (b ++ COLON :: value)).
Proof.
  intros name k a b value Hn Hr Hk Ha Hb1 Hb2 Hb Hv m.
  destruct (line_not_begins name (params_attr m) value [] Hn Hr).
  assert (Ha' := Ha). destruct Ha' as (H1 & H2 & H3 & H4 & H5 & H6).
  assert (E : logical_line name (params_attr m) value = logical_line name (params_attr [(k, a)]) (b ++ COLON :: value)).
  { unfold logical_line. f_equal.
    change (match params_attr ?x with Some a => [59] ++ a | None => [] end) with (attr_text (params_attr x)).
    rewrite !attr_text_eq. subst m. cbn [map concat fst snd].
    rewrite !escape_plain; [|repeat split; auto|].
    - rewrite <- !app_assoc. cbn [app]. reflexivity.
    - repeat split; rewrite in_app_iff; cbn [In]; unfold COLON, SEMI, LF in *; destruct Hb; unfold LF in *; intuition lia. }
  rewrite E. rewrite <- (app_nil_r (logical_line _ _ _)). apply written_line_reads; auto.
  - split; [repeat constructor|]. intros k' v' [[= <- <-]|[]]. auto.
  - split; rewrite in_app_iff; cbn [In]; unfold COLON, CR, LF in *; destruct Hb, Hv; unfold CR, LF in *; intuition lia.
Qed.
Example C09_nonvacuous :
  good_params [(lit "ALTREP", lit "cid/part1"); (lit "LANGUAGE", lit "en")] /\
  exists out, ser_field ser_text (lit "DESCRIPTION") (mk_text [(lit "ALTREP", lit "cid/part1"); (lit "LANGUAGE", lit "en")] (repeat 98 100)) = Ok out.
Proof.
  split.
  - split; [repeat constructor|]. intros k v [[= <- <-]|[[= <- <-]|[]]]; split;
      try (apply key_text_lit; reflexivity);
      repeat split; try (intros H; cbn in H; unfold SEMI, COLON, CR, LF in *; intuition lia); intros r; cbn; unfold QUOTE; congruence.
  - eexists. vm_compute. reflexivity.
Qed.
