(** * Writing components: from the text back to content lines. *)
From Verif Require Import Base Env Chrono Nom Types Ser Parser Derive BaseFacts NomFacts SpecLine LineFacts SpecText SerFacts PropText PropLine
  SpecCal SpecDur PropVocab PropRule PropPeriod PropList Components SpecComp DeriveFacts SpecFields PropComp SpecFile PropFile SpecRound.

(** [out] is a text that unfolds to the lines [ls], whatever follows. *)
Definition reads_as (out : str) (ls : list content_line) : Prop :=
  forall rest, not_continuation rest -> not_continuation (out ++ rest) /\
    forall ls' r, lines_text (unfold_lines rest) ls' r -> lines_text (unfold_lines (out ++ rest)) (ls ++ ls') r.
Lemma reads_nil : reads_as [] [].
Proof. intros rest H. cbn [app]. auto. Qed.
Lemma reads_app a b la lb : reads_as a la -> reads_as b lb -> reads_as (a ++ b) (la ++ lb).
Proof.
  intros Ha Hb rest H. rewrite <- app_assoc. destruct (Hb rest H) as [B1 B2]. destruct (Ha (b ++ rest) B1) as [A1 A2].
  split; auto. intros ls' r L. rewrite <- app_assoc. auto.
Qed.
Lemma line_nonempty n m v : v <> [] -> line n m v = [mk_cl n m v].
Proof. destruct v; [congruence|reflexivity]. Qed.
Lemma key_head name x rest : key_text name -> not_continuation ((name ++ x) ++ rest) \/ name = [].
Proof.
  intros H. destruct name as [|c name]; auto. left. intros r E. cbn in E. injection E as -> _. apply Forall_inv in H. unfold key_char, SP in H. lia.
Qed.
Lemma folded_head parts line : concat parts = line -> ~ In [] parts -> parts <> [] -> exists c r s, line = c :: r /\ folded parts = c :: s.
Proof.
  destruct parts as [|[|c a] l]; intros <- Hn Hp; [congruence|exfalso; apply Hn; left; auto|].
  destruct l as [|b l]; cbn; eauto.
Qed.
Lemma item_reads {T} (S : serialize T) n v value m out :
  s_component S = None -> s_ical S v = Ok value -> s_attr S v = params_attr m -> good_params m -> no_eol value ->
  key_text n -> n <> [] -> ~ reserved n -> ser_field S n v = Ok out -> reads_as out (line n m value).
Proof.
  intros Hc Hi Ha Hm Hv Hk Hn Hr H. destruct value as [|c0 value].
  { rewrite (C01_empty_value T S n v Hc Hi) in H. inv H. apply reads_nil. }
  assert (Hne : c0 :: value <> []) by discriminate. rewrite line_nonempty by auto.
  intros rest Hnc. split.
  - destruct (C01_unfold_undoes_fold T S n v _ out Hc Hi Hne H) as [(parts & -> & Ec & Hp) _].
    destruct (folded_head parts _ Ec Hp) as (c & r & s & El & ->).
    { intros ->. cbn in Ec. destruct n; [congruence|]. discriminate. }
    destruct n as [|k n]; [congruence|]. cbn in El. injection El as <- _. intros x Ex. cbn in Ex. injection Ex as -> _.
    apply Forall_inv in Hk. unfold key_char, SP in Hk. lia.
  - intros ls' r [L F]. pose proof (field_reads S n v _ m out Hc Hi Hne Ha Hm Hv Hk Hr H rest Hnc) as P.
    apply line_parse_iff in P as [P Q]. cbn [app]. split; [econstructor; eauto|constructor; auto].
Qed.
(** A value and the line it is written to. *)
Definition item {T} (S : serialize T) (n : str) (v : T) (ls : list content_line) : Prop :=
  exists value m, s_component S = None /\ s_ical S v = Ok value /\ s_attr S v = params_attr m /\ good_params m /\ no_eol value /\ ls = line n m value.
Definition f_lines (n : str) (f : field) : fty f -> list content_line -> Prop :=
  match f with
  | FReq Sr _ => fun v ls => item Sr n v ls
  | FOpt Sr _ => fun v ls => match v with Some x => item Sr n x ls | None => ls = [] end
  | FVec Sr _ | FApp Sr _ | FIgn Sr => fun v ls =>
      match v with [] => ls = [] | [x] => item Sr n x ls | _ => item (ser_vec Sr) n v ls end
  end.
Fixpoint fields_lines (s : schema) : fields s -> list content_line -> Prop :=
  match s with
  | [] => fun _ ls => ls = []
  | (n, f) :: r => fun vs ls => exists a b, ls = a ++ b /\ f_lines n f (fst vs) a /\ fields_lines r (snd vs) b
  end.
Definition name_ok (n : str) : Prop := key_text n /\ n <> [] /\ ~ reserved n.
Lemma vec_item_empty {T} (S : serialize T) n : s_component S = None -> forall out, ser_field (ser_vec S) n [] = Ok out -> out = [].
Proof. intros _ out H. rewrite (C01_empty_value _ (ser_vec S) n []) in H; [now inv H|reflexivity|reflexivity]. Qed.
Lemma f_lines_reads n f v ls out : name_ok n -> f_lines n f v ls -> f_ser n f v = Ok out -> reads_as out ls.
Proof.
  intros (Hk & Hn & Hr).
  assert (G : forall T (S : serialize T) v ls out, item S n v ls -> ser_field S n v = Ok out -> reads_as out ls).
  { intros T S v0 ls0 out0 (value & m & A & B & C & D & F & ->) H. eapply item_reads; eauto. }
  assert (V : forall T (S : serialize T) (v : list T) ls out,
    match v with [] => ls = [] | [x] => item S n x ls | _ => item (ser_vec S) n v ls end -> vec_field S n v = Ok out -> reads_as out ls).
  { intros T S [|x [|y l]] ls0 out0 HL H; cbn [vec_field] in H; eauto. subst. apply (G _ (ser_vec S) [] [] out0); auto.
    exists [], []. split; [reflexivity|]. split; [reflexivity|]. split; [reflexivity|]. split; [apply good_nil|]. split; [split; intros []|reflexivity]. }
  destruct f; cbn [f_lines f_ser]; intros HL H; eauto.
  destruct v as [x|].
  - eapply (G _ (ser_opt S) (Some x)); [|exact H]. destruct HL as (value & m & A & B & C & D & F & ->). exists value, m. cbn [ser_opt s_component s_ical s_attr]. auto 8.
  - subst. rewrite (C01_empty_value _ (ser_opt S) n None) in H; [|reflexivity|reflexivity]. inv H. apply reads_nil.
Qed.
Lemma fields_lines_reads s vs ls out : Forall (fun nf => name_ok (fst nf)) s -> fields_lines s vs ls -> ser_fields s vs = Ok out -> reads_as out ls.
Proof.
  revert ls out; induction s as [|[n f] r IH]; intros ls out Hs HL H; cbn [fields_lines ser_fields] in *.
  - subst. inv H. apply reads_nil.
  - destruct vs as [v vs]. cbn [fst snd] in *. destruct HL as (a & b & -> & A & B). inversion Hs as [|? ? Hn Hs']; subst.
    destruct (f_ser n f v) as [x| |] eqn:X; cbn in H; try discriminate. destruct (ser_fields r vs) as [y| |] eqn:Y; cbn in H; try discriminate. inv H.
    apply reads_app; [eapply f_lines_reads; eauto|eauto].
Qed.
(** ASCII lines are always written. *)
Lemma ascii_app a b : ascii (a ++ b) <-> ascii a /\ ascii b.
Proof. apply Forall_app. Qed.
Lemma key_ascii k : key_text k -> ascii k.
Proof. intros H. eapply Forall_impl; [|exact H]. unfold key_char. intros; cbn in *. lia. Qed.
Lemma ascii_escape s : ascii s -> ascii (escape s).
Proof.
  rewrite escape_map. unfold ascii. rewrite !Forall_forall. intros H c Hc. apply in_flat_map in Hc as (d & Hd & Hc).
  specialize (H d Hd). destruct (escaped_char_cases d) as [[-> Q]|[[-> Q]|[[-> Q]|(_ & _ & _ & Q)]]]; rewrite Q in Hc; cbn in Hc; unfold BACKSLASH in *; lia.
Qed.
Lemma ascii_params m : good_params m -> Forall (fun kv => ascii (snd kv)) m -> ascii (attr_text (params_attr m)).
Proof.
  intros [_ H] F. rewrite attr_text_eq. induction F as [|[k v] m Hv F IH]; [constructor|]. cbn [map concat fst snd] in *.
  destruct (H k v (or_introl eq_refl)) as [Hk _]. rewrite !ascii_app.
  split; [split; [repeat constructor; lia|split; [now apply key_ascii|split; [repeat constructor; lia|now apply ascii_escape]]]|].
  apply IH. intros; apply H; right; auto.
Qed.
Lemma item_written {T} (S : serialize T) n v ls : name_ok n -> item S n v ls -> Forall ascii_line ls -> exists out, ser_field S n v = Ok out.
Proof.
  intros (Hk & Hn & _) (value & m & A & B & C & D & F & ->) G. destruct value as [|c value].
  { rewrite (C01_empty_value T S n v A B). eauto. }
  rewrite line_nonempty in G by discriminate. apply Forall_inv in G as [G1 G2]. cbn [cl_value cl_params] in *.
  apply (C03_fold_panics_iff T S n v (c :: value)); auto; [discriminate|]. rewrite C. unfold logical_line.
  change (match params_attr m with Some a => [59] ++ a | None => [] end) with (attr_text (params_attr m)).
  rewrite !ascii_app. split; [now apply key_ascii|]. split; [now apply ascii_params|]. split; [repeat constructor; lia|]. split; auto.
  unfold CR, LF. repeat constructor; lia.
Qed.
Lemma f_lines_written n f v ls : name_ok n -> f_lines n f v ls -> Forall ascii_line ls -> exists out, f_ser n f v = Ok out.
Proof.
  intros Hn.
  assert (V : forall T (S : serialize T) (v : list T) ls,
    match v with [] => ls = [] | [x] => item S n x ls | _ => item (ser_vec S) n v ls end -> Forall ascii_line ls -> exists out, vec_field S n v = Ok out).
  { intros T S [|x [|y l]] ls0 HL G; cbn [vec_field]; eauto using item_written. rewrite (C01_empty_value _ (ser_vec S) n []); eauto. }
  destruct f; cbn [f_lines f_ser]; intros HL G; eauto using item_written.
  destruct v as [x|].
  - destruct HL as (value & m & A & B & C & D & F & ->). eapply (item_written (ser_opt S)); [auto| |exact G]. exists value, m. cbn [ser_opt s_component s_ical s_attr]. auto 8.
  - rewrite (C01_empty_value _ (ser_opt S) n None); eauto.
Qed.
Lemma fields_lines_written s vs ls : Forall (fun nf => name_ok (fst nf)) s -> fields_lines s vs ls -> Forall ascii_line ls -> exists out, ser_fields s vs = Ok out.
Proof.
  revert ls; induction s as [|[n f] r IH]; intros ls Hs HL G; cbn [fields_lines ser_fields] in *; [eauto|].
  destruct vs as [v vs]. cbn [fst snd] in *. destruct HL as (a & b & -> & A & B). inversion Hs as [|? ? Hn Hs']; subst.
  apply Forall_app in G as [G1 G2]. destruct (f_lines_written n f v a Hn A G1) as [x ->]. destruct (IH vs b Hs' B G2) as [y ->]. cbn. eauto.
Qed.

(** ** The values *)
Lemma escaped_escape s : escaped s = escape s.
Proof. symmetry. apply escape_map. Qed.
Lemma escape_no_eol s : ~ In CR s -> no_eol (escape s).
Proof. intros H. split; [rewrite escape_CR; auto|apply escape_no_LF]. Qed.
Lemma item_text n t : tidy_text t -> item ser_text n t (text_line n t).
Proof.
  intros [A B]. exists (escape (t_text t)), (t_params t). split; [reflexivity|]. split; [reflexivity|]. split; [reflexivity|]. split; [exact A|]. split; [now apply escape_no_eol|].
  unfold text_line, text_shown. now rewrite escaped_escape.
Qed.
Lemma item_uri n t : tidy_uri t -> item ser_uri n t (uri_line n t).
Proof.
  intros [A B]. exists (escape (u_uri t)), (u_params t). split; [reflexivity|]. split; [reflexivity|]. split; [reflexivity|]. split; [exact A|]. split; [now apply escape_no_eol|].
  unfold uri_line, uri_shown. now rewrite escaped_escape.
Qed.
Lemma item_display {T} (show : T -> str) n x : no_eol (show x) -> item (ser_display show) n x (plain_line show n x).
Proof. intros H. exists (show x), []. split; [reflexivity|]. split; [reflexivity|]. split; [reflexivity|]. split; [apply good_nil|]. split; [exact H|reflexivity]. Qed.
Lemma item_vec {T} (S : serialize T) (show : T -> str) n l :
  (forall x, In x l -> s_ical S x = Ok (show x) /\ no_eol (show x)) -> item (ser_vec S) n l (line n [] (join [44] (map show l))).
Proof.
  intros H. exists (join [44] (map show l)), []. split; [reflexivity|]. split; [cbn [s_ical ser_vec]; apply vec_ical_show; intros x Hx; now apply H|].
  split; [reflexivity|]. split; [apply good_nil|]. split; auto. apply no_eol_join, Forall_map, Forall_forall. intros x Hx. now apply H.
Qed.
Lemma list_item {T} (S : serialize T) one (show : T -> str) n l :
  (forall x, In x l -> item S n x (one n x)) -> (forall x, In x l -> s_ical S x = Ok (show x) /\ no_eol (show x)) ->
  match l with [] => list_lines one show n l = [] | [x] => item S n x (list_lines one show n l) | _ => item (ser_vec S) n l (list_lines one show n l) end.
Proof.
  intros A B. destruct l as [|x [|y l]]; cbn [list_lines]; [reflexivity|apply A; left; auto|]. now apply item_vec.
Qed.
Section Values.
Context {E : Env}.
Lemma item_date n d : real_date d -> item ser_date n d (date_line n d).
Proof.
  intros H. exists (date_str d), (date_params d). split; [reflexivity|]. split; [reflexivity|]. split; [destruct d; reflexivity|].
  split; [apply date_params_good|]. split; [now apply visible_no_eol, visible_date|reflexivity].
Qed.
Lemma item_trigger n t : real_trigger t -> item ser_trigger n t (trigger_line n t).
Proof.
  intros H. exists (trigger_text t), (trigger_params t). split; [reflexivity|]. split; [destruct t; reflexivity|]. split; [destruct t; reflexivity|].
  split; [destruct t; now apply good_lit_param|]. split; [|reflexivity]. destruct t; cbn; apply visible_no_eol; [now apply visible_dt|apply visible_td].
Qed.
Lemma rule_shown_eq r : rule_shown r = rule_text (nonempty (rule_fields r)).
Proof.
  unfold rule_shown, rule_text. do 2 f_equal. unfold nonempty. induction (rule_fields r) as [|[k v] l IH]; [reflexivity|]. cbn [filter flat_map fst snd]. rewrite <- IH. destruct v; reflexivity.
Qed.
Lemma nonempty_chars (P : char -> Prop) l : P 61 -> P 59 -> Forall (fun kv => Forall P (fst kv) /\ Forall P (snd kv)) l -> Forall P (rule_text (nonempty l)).
Proof.
  intros H1 H2 H. unfold rule_text. apply join_chars; auto. apply Forall_map. unfold nonempty. apply Forall_forall. intros kv Hkv.
  apply in_flat_map in Hkv as ([k v] & Hkv & Hi). rewrite Forall_forall in H. destruct (H _ Hkv) as [A B]. cbn [snd fst] in *. destruct v; [destruct Hi|]. destruct Hi as [<-|[]]. cbn [fst snd].
  rewrite !Forall_app. repeat split; auto.
Qed.
Lemma visible_opt {A} (show : A -> str) o : (forall x, o = Some x -> visible (show x)) -> visible (opt_show show o).
Proof. destruct o; cbn; auto. constructor. Qed.
Lemma visible_ints l : visible (ints_show l).
Proof. unfold ints_show. apply visible_join; [lia|]. apply Forall_map, Forall_forall. intros; apply visible_int. Qed.
Lemma visible_wdn w : visible (wdn_show w).
Proof. eapply Forall_impl; [|apply wdn_chars]. cbn. lia. Qed.
Lemma visible_rule r : tidy_rule r -> visible (rule_shown r).
Proof.
  intros H. rewrite rule_shown_eq. apply nonempty_chars; try lia. unfold rule_fields.
  repeat (apply Forall_cons; [cbn [fst snd]; split; [apply visible_lit; reflexivity|]|]); try apply Forall_nil; try apply visible_ints; try apply visible_int.
  - destruct (r_freq r); apply visible_lit; reflexivity.
  - apply visible_opt. intros d Hd. now apply visible_date, H.
  - apply visible_opt. intros; apply visible_int.
  - apply visible_join; [lia|]. apply Forall_map, Forall_forall. intros; apply visible_wdn.
  - apply visible_opt. intros w _. destruct w; apply visible_lit; reflexivity.
Qed.
Lemma item_rule n r : tidy_rule r -> item ser_recur n r (plain_line rule_shown n r).
Proof.
  intros H. exists (rule_shown r), []. split; [reflexivity|]. split; [rewrite rule_shown_eq; apply recur_written|]. split; [reflexivity|].
  split; [apply good_nil|]. split; [now apply visible_no_eol, visible_rule|reflexivity].
Qed.
Lemma no_eol_app a b : no_eol a -> no_eol b -> no_eol (a ++ b).
Proof. unfold no_eol. rewrite !in_app_iff. tauto. Qed.
Lemma no_eol_semi s : no_eol s -> no_eol (59 :: s).
Proof. unfold no_eol, CR, LF. cbn. intros [A B]. split; intros [X|X]; auto; discriminate. Qed.
Lemma rs_show_eq r : rs_show r = rs_shown r.
Proof. unfold rs_show, rs_shown. rewrite !escaped_escape. destruct (rs_ext r); rewrite ?escaped_escape; reflexivity. Qed.
Lemma rs_no_eol r : tidy_rs r -> no_eol (rs_shown r).
Proof.
  intros (A & B & C). unfold rs_shown. apply no_eol_app; auto. apply no_eol_semi, no_eol_app.
  - rewrite escaped_escape. now apply escape_no_eol.
  - destruct (rs_ext r) as [e|] eqn:X; [|split; intros []]. apply no_eol_semi. rewrite escaped_escape. apply escape_no_eol. now apply C.
Qed.
Lemma geo_no_eol g : tidy_geo g -> no_eol (geo_show g).
Proof. intros [A B]. unfold geo_show. apply no_eol_app; auto. now apply no_eol_semi. Qed.
Lemma item_rs n r : tidy_rs r -> item ser_rs n r (plain_line rs_shown n r).
Proof.
  intros H. exists (rs_shown r), []. split; [reflexivity|]. split; [cbn; now rewrite rs_show_eq|]. split; [reflexivity|].
  split; [apply good_nil|]. split; [now apply rs_no_eol|reflexivity].
Qed.
Lemma visible_period p : real_period p -> visible (period_show p).
Proof.
  destruct p as [s e|s d]; cbn [real_period period_show]; intros H; repeat apply visible_app; try (apply visible_lit; reflexivity); try apply visible_td; apply visible_dt; tauto.
Qed.
Lemma offset_visible off : real_offset off -> visible (offset_show off).
Proof.
  intros H. unfold real_offset in H. unfold offset_show.
  assert (D : forall n, 0 <= n -> visible (show_pad 2 n)) by (intros n Hn; apply visible_digits, show_pad_digits; auto).
  assert (A1 : 0 <= Z.abs off / 60 / 60) by (repeat apply Z.div_pos; lia).
  assert (A2 : 0 <= (Z.abs off / 60) mod 60) by (apply Z.mod_pos_bound; lia).
  assert (A3 : 0 <= Z.abs off mod 60) by (apply Z.mod_pos_bound; lia).
  assert (Sg : 33 <= (if off <? 0 then 45 else 43) <= 126) by (destruct (off <? 0); lia).
  destruct (Z.abs off mod 60 =? 0); constructor; auto; apply visible_app; auto; apply visible_app; auto.
Qed.
Lemma item_ext n m : tidy_ext m -> item (ser_map ser_cl) n m (ext_line n m).
Proof.
  intros H. exists (join [59] (map (fun kl => fst kl ++ [61] ++ escaped (cl_value (snd kl))) m)), [].
  split; [reflexivity|]. split.
  - cbn [s_ical ser_map]. unfold map_ical.
    rewrite ocollect_map with (g := fun kl => fst kl ++ [61] ++ escape (cl_value (snd kl)) ++ [59]) by (intros x _; reflexivity).
    cbn [obind]. f_equal. transitivity (join [59] (map (fun kl : str * content_line => fst kl ++ [61] ++ escape (cl_value (snd kl))) m)).
    2:{ f_equal. apply map_ext. intros kl. now rewrite escaped_escape. }
    rewrite <- join_pop. f_equal. clear H. induction m as [|a l IH]; auto. cbn [map concat flat_map]. rewrite IH. now rewrite <- !app_assoc.
  - split; [reflexivity|]. split; [apply good_nil|]. split; [|reflexivity].
    split; eapply (no_char (fun c => c <> CR /\ c <> LF)); try tauto;
      (apply join_chars; [unfold CR, LF; lia|]); apply Forall_map, Forall_forall; intros [k l] Hkl; cbn [fst snd]; destruct (H k l Hkl) as [[A B] C];
      rewrite escaped_escape; destruct (escape_no_eol _ C) as [D F]; rewrite !Forall_app; repeat split;
      try (apply Forall_forall; intros c Hc; split; intros ->; auto; fail); constructor; try constructor; unfold CR, LF; lia.
Qed.
End Values.
