(** * C01-C05: folding and escaping *)
From Verif Require Import Base Env Nom Types Ser Parser Derive BaseFacts NomFacts SpecText SpecLine SerFacts LineFacts.

(** The line before folding of a property that is not a component. *)
Lemma ser_field_eq {T} (S : serialize T) name v value :
  s_component S = None -> s_ical S v = Ok value -> value <> [] ->
  ser_field S name v = fold_line (logical_line name (s_attr S v) value).
Proof.
  intros Hc Hv Hn. unfold ser_field. rewrite Hv. cbn [obind]. rewrite Hc.
  destruct value as [|c value]; [congruence|]. unfold logical_line. f_equal.
Qed.
Lemma one_line_no_fold a : one_line a -> ~ contains FOLD a.
Proof. intros H (x & y & ->). apply H. rewrite !in_app_iff. right. left. cbn. auto. Qed.
Lemma logical_line_end name attr value : exists x, logical_line name attr value = x ++ [LF].
Proof.
  exists (name ++ match attr with Some a => [59] ++ a | None => [] end ++ [58] ++ value ++ [CR]).
  unfold logical_line. rewrite <- !app_assoc. reflexivity.
Qed.
Lemma logical_line_no_fold name attr value :
  one_line name -> one_line (match attr with Some a => a | None => [] end) -> one_line value ->
  ~ contains FOLD (logical_line name attr value).
Proof.
  intros H1 H2 H3 (x & y & E).
  (* the only LF of the line is its last char, and FOLD has a char after its LF *)
  assert (G : forall p, one_line p -> p ++ [LF] = x ++ FOLD ++ y -> False).
  { intros p Hp Ep. destruct (exists_last (l := FOLD ++ y)) as (z & w & Ez); [unfold FOLD; discriminate|].
    rewrite Ez, app_assoc in Ep. apply app_inj_tail in Ep as [-> <-].
    assert (In LF z); [|apply Hp; apply in_app_iff; auto].
    unfold FOLD in Ez. destruct y as [|c y] using rev_ind.
    - change ([CR; LF; SP] ++ []) with ([CR; LF] ++ [SP]) in Ez. apply app_inj_tail in Ez as [<- _]. cbn; auto.
    - rewrite app_assoc in Ez. apply app_inj_tail in Ez as [<- _]. cbn; auto. }
  apply (G (name ++ match attr with Some a => [59] ++ a | None => [] end ++ [58] ++ value ++ [CR])).
  - unfold one_line in *. rewrite !in_app_iff. unfold LF, CR in *. cbn [In].
    destruct attr; cbn [In app] in *; rewrite ?in_app_iff; cbn [In]; intuition lia.
  - rewrite <- E. unfold logical_line. rewrite <- !app_assoc. reflexivity.
Qed.

(** ** C01 *)
(** For every property type [S] (not a component), name and value: the output is
    the logical line cut into non-empty pieces by CR LF SPACE, and unfolding -
    alone or with other lines behind - gives the logical line back. *)
Theorem C01_unfold_undoes_fold :
  forall T (S : serialize T) (name : str) (v : T) (value out : str),
    s_component S = None -> s_ical S v = Ok value -> value <> [] ->
    ser_field S name v = Ok out ->
    let line := logical_line name (s_attr S v) value in
    (exists parts, out = folded parts /\ concat parts = line /\ ~ In [] parts) /\
    (~ contains FOLD line ->
       unfold_lines out = line /\
       forall rest, not_continuation rest ->
         unfold_lines (out ++ rest) = line ++ unfold_lines rest).
Proof.
  intros T S name v value out Hc Hv Hn H line.
  rewrite (ser_field_eq S name v value) in H by auto. fold line in H.
  apply fold_line_spec in H as (l & -> & El & Hne & _). split; [eauto|]. intros Hf. rewrite <- El in Hf. split.
  - rewrite unfold_folded by auto. auto.
  - intros rest Hr. rewrite unfold_folded_then; auto.
    + now rewrite El.
    + rewrite El. apply logical_line_end.
Qed.
(** An empty value writes nothing. *)
Theorem C01_empty_value : forall T (S : serialize T) name v,
  s_component S = None -> s_ical S v = Ok [] -> ser_field S name v = Ok [].
Proof. intros T S name v Hc Hv. unfold ser_field. rewrite Hv. cbn [obind]. now rewrite Hc. Qed.

(** The written parameters of a text have no LF when their names have none. *)
Lemma params_attr_one_line m : (forall k v, In (k, v) m -> one_line k) ->
  one_line (match params_attr m with Some a => a | None => [] end).
Proof.
  intros H. unfold params_attr. destruct m as [|kv m]; [intros []|].
  set (l := kv :: m) in *. clearbody l. unfold map_ical.
  rewrite ocollect_map with (g := fun kv => fst kv ++ [61] ++ escape (snd kv) ++ [59]) by (intros x _; reflexivity).
  cbn [obind]. intros Hin.
  assert (G : In LF (concat (map (fun kv : str * str => fst kv ++ [61] ++ escape (snd kv) ++ [59]) l))).
  { set (c := concat _) in *. destruct c as [|z c'] using rev_ind; [destruct Hin|].
    rewrite pop_app in Hin. apply in_app_iff. auto. }
  apply in_concat in G as (x & Hx & G). apply in_map_iff in Hx as ((k & w) & <- & Hkw).
  cbn [fst snd] in G. rewrite !in_app_iff in G.
  destruct G as [G|[G|[G|G]]].
  - now apply H in Hkw.
  - unfold LF in G. cbn in G. intuition lia.
  - now apply escape_no_LF in G.
  - unfold LF in G. cbn in G. intuition lia.
Qed.
(** A text property needs no hypothesis on its value: LF is escaped. *)
Theorem C01_text : forall (name : str) (t : text) (out : str),
  one_line name -> (forall k v, In (k, v) (t_params t) -> one_line k) ->
  t_text t <> [] -> ser_field ser_text name t = Ok out ->
  unfold_lines out = logical_line name (params_attr (t_params t)) (escape (t_text t)).
Proof.
  intros name t out Hn Hp Ht H.
  assert (He : escape (t_text t) <> []).
  { intros E. apply (f_equal (@length Z)) in E. rewrite escape_length in E. destruct (t_text t); [congruence|]. cbn in E. lia. }
  destruct (C01_unfold_undoes_fold text ser_text name t (escape (t_text t)) out eq_refl eq_refl He H) as [_ G].
  apply G. apply logical_line_no_fold; auto.
  - now apply params_attr_one_line.
  - apply escape_no_LF.
Qed.
Example C01_nonvacuous :
  exists out, ser_field ser_text (lit "SUMMARY") (mk_text [(lit "LANGUAGE", lit "en")] (repeat 97 200)) = Ok out
              /\ out <> logical_line (lit "SUMMARY") (Some (lit "LANGUAGE=en")) (repeat 97 200).
Proof.
  eexists. split; [vm_compute; reflexivity|]. vm_compute. congruence.
Qed.

(** ** C02 *)
Lemma cut_lf_nonnil s : cut_lf s <> [].
Proof. destruct s as [|c s]; cbn; [congruence|]. destruct (c =? LF); [congruence|]. destruct (cut_lf s); congruence. Qed.
Lemma cut_lf_app a s : one_line a -> cut_lf (a ++ LF :: s) = a :: cut_lf s.
Proof.
  unfold one_line. induction a as [|c a IH]; cbn [app cut_lf]; intros H; [now rewrite Z.eqb_refl|].
  destruct (Z.eqb_spec c LF); [cbn in H; tauto|]. rewrite IH; cbn in H; tauto.
Qed.
Lemma cut_lf_id a : one_line a -> cut_lf a = [a].
Proof.
  unfold one_line. induction a as [|c a IH]; cbn [cut_lf]; intros H; auto.
  destruct (Z.eqb_spec c LF); [cbn in H; tauto|]. rewrite IH; cbn in H; tauto.
Qed.
Lemma strip_cr_cr a : strip_cr (a ++ [CR]) = a.
Proof. unfold strip_cr. rewrite rev_app_distr. cbn. apply rev_involutive. Qed.
Lemma strip_cr_le a : octets (strip_cr a) <= octets a.
Proof.
  unfold strip_cr. destruct (rev a) as [|c r] eqn:E; [cbn; apply octets_nonneg|].
  destruct (c =? CR); [|lia]. assert (Ea : a = rev r ++ [c]) by (rewrite <- (rev_involutive a), E; reflexivity).
  rewrite Ea, octets_app. pose proof (octets_nonneg [c]). lia.
Qed.
(** Lines of a folded text all of whose LF but the last char are fold markers. *)
Lemma physical_folded l pre :
  one_line pre -> ~ In [] l -> Forall (fun c => octets c <= 75) l -> (exists x, concat l = x ++ [LF] /\ one_line x) ->
  match physical_lines (pre ++ folded l) with
  | first :: others => octets first <= octets pre + 75 /\ Forall (fun p => octets p <= 76) others
  | [] => False
  end.
Proof.
  revert pre; induction l as [|a l IH]; intros pre Hpre Hne Hf (x & Ex & Hx).
  - now destruct x.
  - pose proof (Forall_inv Hf) as Ha. apply Forall_inv_tail in Hf. destruct l as [|b l].
    + cbn in Ex. rewrite app_nil_r in Ex. subst a. cbn [folded]. unfold physical_lines.
      rewrite app_assoc. rewrite cut_lf_app by (unfold one_line in *; rewrite in_app_iff; tauto).
      cbn [cut_lf map]. rewrite octets_app in Ha. pose proof (octets_nonneg [LF]). split.
      * pose proof (strip_cr_le (pre ++ x)). rewrite octets_app in *. lia.
      * repeat constructor. change (octets (strip_cr [])) with 0. lia.
    + change (folded (a :: b :: l)) with (a ++ CR :: LF :: SP :: folded (b :: l)).
      assert (Nb : concat (b :: l) <> []). { intros Z. cbn in Z. apply app_eq_nil in Z as [-> _]. apply Hne. cbn; auto. }
      destruct (exists_last Nb) as (y & z & Ey).
      change (concat (a :: b :: l)) with (a ++ concat (b :: l)) in Ex. rewrite Ey, app_assoc in Ex.
      apply app_inj_tail in Ex as [<- ->].
      assert (Hoa : one_line a) by (unfold one_line in *; rewrite in_app_iff in Hx; tauto).
      assert (Hoy : one_line y) by (unfold one_line in *; rewrite in_app_iff in Hx; tauto).
      specialize (IH [SP]). unfold physical_lines in *.
      replace (pre ++ a ++ CR :: LF :: SP :: folded (b :: l)) with (((pre ++ a) ++ [CR]) ++ LF :: [SP] ++ folded (b :: l))
        by (rewrite <- !app_assoc; reflexivity).
      rewrite cut_lf_app by (unfold one_line, LF, CR in *; rewrite !in_app_iff; cbn; intuition lia).
      cbn [map]. rewrite strip_cr_cr. split; [rewrite octets_app; lia|].
      destruct (map strip_cr (cut_lf ([SP] ++ folded (b :: l)))) as [|p ps]; [constructor|].
      destruct IH as [I1 I2]; auto.
      * unfold one_line, LF, SP. cbn. intuition lia.
      * intros G. apply Hne. cbn in *; tauto.
      * exists y. auto.
Qed.
Theorem C02_physical_line_length :
  forall T (S : serialize T) (name : str) (v : T) (value out : str),
    s_component S = None -> s_ical S v = Ok value -> value <> [] ->
    one_line name -> one_line (match s_attr S v with Some a => a | None => [] end) -> one_line value ->
    ser_field S name v = Ok out ->
    match physical_lines out with
    | first :: others => octets first <= 75 /\ Forall (fun p => octets p <= 76) others
    | [] => False
    end /\
    (octets (logical_line name (s_attr S v) value) <= 75 -> out = logical_line name (s_attr S v) value).
Proof.
  intros T S name v value out Hc Hv Hn H1 H2 H3 H.
  rewrite (ser_field_eq S name v value) in H by auto.
  apply fold_line_spec in H as (l & -> & El & Hne & Hf & _ & Hs). split; auto.
  apply (physical_folded l []); auto.
  - intros [].
  - rewrite El. exists (name ++ match s_attr S v with Some a => [59] ++ a | None => [] end ++ [58] ++ value ++ [CR]).
    split; [unfold logical_line; now rewrite <- !app_assoc|].
    unfold one_line in *. rewrite !in_app_iff. unfold LF, CR in *. cbn [In].
    destruct (s_attr S v); cbn [In app] in *; rewrite ?in_app_iff; cbn [In]; intuition lia.
Qed.
(** RFC 5545 asks for at most 75 octets: a continuation line can have 76. *)
Theorem C02_rfc_bound_refuted :
  exists (t : text) out first second others,
    ser_field ser_text (lit "SUMMARY") t = Ok out /\
    physical_lines out = first :: second :: others /\ octets second = 76.
Proof. exists (text_of_str (repeat 97 200)). do 4 eexists. vm_compute. eauto. Qed.

(** ** C03 *)
Theorem C03_fold_panics_iff :
  forall T (S : serialize T) (name : str) (v : T) (value : str),
    s_component S = None -> s_ical S v = Ok value -> value <> [] ->
    let line := logical_line name (s_attr S v) value in
    (ser_field S name v = Panic <->
     octets line > 75 /\ exists k, 0 <= k /\ 75 * k < octets line /\ ~ char_boundary line (75 * k)) /\
    (ascii line -> exists out, ser_field S name v = Ok out).
Proof.
  intros T S name v value Hc Hv Hn line. rewrite (ser_field_eq S name v value) by auto. fold line. split.
  - apply fold_line_panics.
  - apply fold_line_ascii.
Qed.
(** Writing a property never returns an error. *)
Theorem C03_no_error :
  forall T (S : serialize T) (name : str) (v : T) e,
    (forall e', s_ical S v <> Err e') -> ser_field S name v <> Err e.
Proof.
  intros T S name v e H. unfold ser_field. destruct (s_ical S v) as [i|e0|] eqn:E; cbn [obind]; try congruence.
  destruct (s_component S); [congruence|]. apply fold_line_no_err.
Qed.
Example C03_panic_example : (* a summary of 40 two-octet chars *)
  ser_field ser_text (lit "SUMMARY") (text_of_str (repeat 233 40)) = Panic /\
  exists out, ser_field ser_text (lit "SUMMARY!") (text_of_str (repeat 233 40)) = Ok out.
Proof. split; [vm_compute; reflexivity|]. eexists. vm_compute. reflexivity. Qed.

(** ** C04 *)
Theorem C04_escape :
  forall s : str,
    s_ical ser_string s = Ok (flat_map escaped_char s) /\
    well_escaped (flat_map escaped_char s) /\
    (~ In BACKSLASH s -> rfc_decode (flat_map escaped_char s) = s).
Proof.
  intros s. rewrite <- escape_map. split; [reflexivity|]. split; [apply escape_well|apply escape_decode].
Qed.
(** So texts without backslash that serialise alike are equal... *)
Theorem C04_injective_without_backslash :
  forall s t : str, ~ In BACKSLASH s -> ~ In BACKSLASH t ->
    s_ical ser_string s = s_ical ser_string t -> s = t.
Proof.
  intros s t Hs Ht E. injection E as E. rewrite <- (escape_decode s Hs), <- (escape_decode t Ht). now rewrite E.
Qed.
(** ... but a backslash is written as is: the text [\n] (two chars) and a line
    break serialise alike, and decoding does not give the first back. *)
Theorem C04_backslash_refuted :
  exists s t : str, s <> t /\ s_ical ser_string s = s_ical ser_string t /\
    exists w, s_ical ser_string s = Ok w /\ rfc_decode w <> s.
Proof.
  exists [BACKSLASH; 110], [LF]. split; [discriminate|]. split; [reflexivity|].
  eexists. split; [reflexivity|]. discriminate.
Qed.

(** ** C05 *)
(** A line made of a name, a text value without CR and CRLF is read back with the
    value as written: still escaped. *)
Lemma line_reads name attr value rest l :
  key_text name -> ~ begins (lit "BEGIN:") (logical_line name attr value ++ rest) ->
  ~ begins (lit "END:") (logical_line name attr value ++ rest) ->
  params_read (match attr with Some a => [59] ++ a | None => [] end ++ [58] ++ value ++ [CR; LF] ++ rest) l
    (value ++ [CR; LF] ++ rest) ->
  no_eol value ->
  p_content_line (logical_line name attr value ++ rest) = POk rest (mk_cl name (map_of l) value).
Proof.
  intros Hk Hb He Hp Hv. apply line_POk. split; auto. split; auto.
  exists name, (match attr with Some a => [59] ++ a | None => [] end ++ [58] ++ value ++ [CR; LF] ++ rest), l, value, [CR; LF].
  split; [|split; [|split; [|split; [|split]]]]; auto.
  - unfold logical_line. now rewrite <- !app_assoc.
  - right. reflexivity.
Qed.
Lemma begins_prefix p q s : begins p s -> begins q s -> (length p <= length q)%nat -> begins p q.
Proof.
  intros [r ->] [r' E] H. revert q E H; induction p as [|c p IH]; intros q E H; [now exists q|].
  destruct q as [|d q]; [cbn in H; lia|]. injection E as -> E. destruct (IH q E) as [x ->]; [cbn in H; lia|]. now exists x.
Qed.
(** A name made of letters, digits, '-' and '/' followed by ';' or ':' starts a
    BEGIN or END line only if it is BEGIN or END and ':' follows. *)
Lemma name_begins (w name : str) c rest : key_text name -> key_text w -> ~ key_char c ->
  begins (w ++ [COLON]) (name ++ c :: rest) -> name = w /\ c = COLON.
Proof.
  intros Hn Hw Hc [r E]. rewrite <- app_assoc in E. cbn [app] in E.
  revert w Hw E; induction name as [|x name IH]; intros w Hw E.
  - destruct w as [|y w]; cbn in E; [injection E as -> _; auto|]. injection E as -> _. exfalso. apply Hc. now inversion Hw.
  - destruct w as [|y w]; cbn in E.
    + injection E as -> _. inversion Hn as [|? ? Hx]. exfalso. now apply not_key_colon in Hx.
    + injection E as -> E. inversion Hn; inversion Hw; subst. destruct (IH ltac:(auto) w ltac:(auto) E) as [-> ->]. auto.
Qed.
Definition reserved (name : str) : Prop := name = lit "BEGIN" \/ name = lit "END".
Lemma key_text_lit k : forallb is_alphanumeric k = true -> key_text k.
Proof. intros H. apply key_text_iff. intros c Hc. rewrite forallb_forall in H. auto. Qed.
Lemma not_begins name c rest : key_text name -> ~ reserved name -> ~ key_char c ->
  ~ begins (lit "BEGIN:") (name ++ c :: rest) /\ ~ begins (lit "END:") (name ++ c :: rest).
Proof.
  intros Hn Hr Hc. split; intros H.
  - apply (name_begins (lit "BEGIN")) in H as [-> _]; auto; [apply Hr; left; auto|now apply key_text_lit].
  - apply (name_begins (lit "END")) in H as [-> _]; auto; [apply Hr; right; auto|now apply key_text_lit].
Qed.
Lemma line_head name attr value rest : exists c r, logical_line name attr value ++ rest = name ++ c :: r /\ ~ key_char c.
Proof.
  unfold logical_line. destruct attr as [a|].
  - exists 59, (a ++ [58] ++ value ++ [CR; LF] ++ rest). split; [rewrite <- !app_assoc; reflexivity|apply not_key_semi].
  - exists 58, (value ++ [CR; LF] ++ rest). split; [rewrite <- !app_assoc; reflexivity|apply not_key_colon].
Qed.
Lemma line_not_begins name attr value rest : key_text name -> ~ reserved name ->
  ~ begins (lit "BEGIN:") (logical_line name attr value ++ rest) /\ ~ begins (lit "END:") (logical_line name attr value ++ rest).
Proof. intros. destruct (line_head name attr value rest) as (c & r & -> & Hc). now apply not_begins. Qed.

(** Reading back (unfold, then one content line, then the text parser) the
    serialisation of a text without parameters. *)
Definition read_text (s : str) : outcome text :=
  let* c := pfinish (p_content_line (unfold_lines s)) in parse_text c.
Theorem C05_never_unescapes :
  forall (name s out : str),
    key_text name -> ~ reserved name -> s <> [] -> ~ In CR s ->
    ser_field ser_text name (text_of_str s) = Ok out ->
    read_text out = Ok (text_of_str (flat_map escaped_char s)) /\
    (read_text out = Ok (text_of_str s) <-> plain_text s).
Proof.
  intros name s out Hk Hr Hs Hcr H. rewrite <- escape_map.
  assert (Hn : one_line name). { intros Hin. unfold key_text in Hk. rewrite Forall_forall in Hk. apply Hk in Hin. unfold key_char, LF in Hin. lia. }
  assert (E : read_text out = Ok (text_of_str (escape s))).
  { unfold read_text. rewrite (C01_text name (text_of_str s) out) by (auto; intros ? ? []).
    cbn [t_params t_text text_of_str params_attr]. rewrite <- (app_nil_r (logical_line _ _ _)).
    destruct (line_not_begins name None (escape s) [] Hk Hr).
    rewrite (line_reads name None (escape s) [] []); auto.
    - apply pr_end.
    - split; [now rewrite escape_CR|apply escape_no_LF]. }
  split; auto. rewrite E. rewrite <- escape_fix. unfold text_of_str. split; [intros [= ->]; auto|intros ->; auto].
Qed.
(** [n] write/read cycles. *)
Fixpoint cycles (n : nat) (s : str) : str := match n with O => s | S k => flat_map escaped_char (cycles k s) end.
Theorem C05_grows_for_ever :
  forall (s : str) (n : nat), In 59 s \/ In 44 s -> (length (cycles n s) < length (cycles (S n) s))%nat.
Proof.
  intros s n H. cbn [cycles]. rewrite <- escape_map, escape_length.
  assert (G : specials (cycles n s) = specials s).
  { induction n; cbn [cycles]; auto. now rewrite <- escape_map, escape_specials. }
  assert (specials s <> 0)%nat; [|lia]. intros Z. apply specials_0 in Z. tauto.
Qed.
(** Without ';' and ',' the text is stable after the first cycle. *)
Theorem C05_stable_without_specials :
  forall (s : str) (n : nat), ~ In 59 s -> ~ In 44 s -> cycles (S n) s = cycles 1 s.
Proof.
  intros s n H1 H2. induction n as [|n IH]; auto.
  change (cycles (S (S n)) s) with (flat_map escaped_char (cycles (S n) s)). rewrite IH. cbn [cycles].
  rewrite <- !escape_map. apply escape_plain. unfold plain_text.
  assert (Z : specials (escape s) = 0%nat) by (rewrite escape_specials; now apply specials_0).
  apply specials_0 in Z as []. repeat split; auto. apply escape_no_LF.
Qed.
Example C05_nonvacuous : exists out,
  ser_field ser_text (lit "SUMMARY") (text_of_str (lit "a,b;c")) = Ok out /\
  read_text out = Ok (text_of_str (lit "a\,b\;c")).
Proof. eexists. split; [vm_compute; reflexivity|]. vm_compute. reflexivity. Qed.
