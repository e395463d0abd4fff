(** * The text of a component: from the fields to the characters. *)
From Verif Require Import Base Env Chrono Nom Types Ser Parser Derive BaseFacts NomFacts SpecLine LineFacts SpecText SerFacts PropText PropLine
  SpecCal SpecDur PropVocab PropRule PropPeriod PropList Components SpecComp DeriveFacts SpecFields PropComp SpecFile PropFile SpecRound RoundFacts FrameFacts BackFacts FieldFacts ChildFacts CalFacts AlarmFacts SpecExact.

(** [out] unfolds to [text], whatever follows. *)
Definition exact (out text : str) : Prop :=
  forall rest, not_continuation rest -> not_continuation (out ++ rest) /\ unfold_lines (out ++ rest) = text ++ unfold_lines rest.
Lemma exact_nil : exact [] [].
Proof. intros rest H. auto. Qed.
Lemma exact_app a b ta tb : exact a ta -> exact b tb -> exact (a ++ b) (ta ++ tb).
Proof.
  intros Ha Hb rest H. rewrite <- !app_assoc. destruct (Hb rest H) as [B1 B2]. destruct (Ha (b ++ rest) B1) as [A1 A2].
  split; auto. now rewrite A2, B2.
Qed.
Lemma exact_concat outs texts : Forall2 exact outs texts -> exact (concat outs) (concat texts).
Proof. induction 1; cbn [concat]; [apply exact_nil|now apply exact_app]. Qed.
Lemma exact_out out text : exact out text -> unfold_lines out = text.
Proof. intros H. destruct (H [] nc_nil) as [_ U]. rewrite !app_nil_r in U. exact U. Qed.
Lemma raw_app a b : raw_lines (a ++ b) = raw_lines a ++ raw_lines b.
Proof. unfold raw_lines. now rewrite map_app, concat_app. Qed.
Lemma raw_params_eq m : attr_text (params_attr m) = raw_params m.
Proof. rewrite attr_text_eq. unfold raw_params. f_equal. apply map_ext. intros kv. now rewrite escaped_escape. Qed.
Lemma raw_logical n m value : logical_line n (params_attr m) value = raw_line (mk_cl n m value).
Proof. unfold raw_line. cbn [cl_key cl_params cl_value]. rewrite <- raw_params_eq. reflexivity. Qed.
Lemma in_concat_map {A} (f : A -> str) l x : In x (concat (map f l)) -> exists a, In a l /\ In x (f a).
Proof. rewrite <- flat_map_concat_map. apply in_flat_map. Qed.
Lemma params_no_LF m : (forall k v, In (k, v) m -> ~ In LF k) -> ~ In LF (raw_params m).
Proof.
  intros H X. apply in_concat_map in X as ([k v] & I & X). cbn [fst snd] in X. rewrite escaped_escape, !in_app_iff in X. cbn [In] in X.
  destruct X as [[X|[]]|[X|[[X|[]]|X]]]; try (unfold LF in X; discriminate); [now apply (H k v I)|now apply escape_no_LF in X].
Qed.
Lemma key_no_LF n : key_text n -> ~ In LF n.
Proof. intros H X. unfold key_text in H. rewrite Forall_forall in H. apply H in X. unfold key_char, LF in X. lia. Qed.
(** One LF, at the end: no fold marker. *)
Lemma one_LF s : ~ In LF s -> ~ contains FOLD (s ++ [LF]).
Proof.
  intros H (a & b & Eq). unfold FOLD in Eq. revert a Eq. induction s as [|c s IH]; intros a Eq.
  - destruct a as [|x [|y a]]; discriminate.
  - destruct a as [|x a].
    + cbn [app] in Eq. injection Eq as -> Eq. destruct s as [|d s]; [discriminate|]. cbn [app] in Eq. injection Eq as -> Eq. apply H. cbn. auto.
    + cbn [app] in Eq. injection Eq as <- Eq. apply (IH (fun G => H (or_intror G)) a). exact Eq.
Qed.
Lemma raw_no_fold c : key_text (cl_key c) -> unbroken c -> ~ contains FOLD (raw_line c).
Proof.
  intros K [A B]. unfold raw_line. replace (cl_key c ++ raw_params (cl_params c) ++ [58] ++ cl_value c ++ [CR; LF])
    with ((cl_key c ++ raw_params (cl_params c) ++ [58] ++ cl_value c ++ [CR]) ++ [LF]) by (now rewrite <- !app_assoc).
  apply one_LF. rewrite !in_app_iff. cbn [In]. intros [X|[X|[[X|[]]|[X|[X|[]]]]]]; try discriminate; auto.
  - now apply key_no_LF in X.
  - now apply params_no_LF in X.
Qed.
(** A value and the line it is written to, whatever the value. *)
Definition item' {T} (S : serialize T) (n : str) (v : T) (ls : list content_line) : Prop :=
  exists value m, s_component S = None /\ s_ical S v = Ok value /\ s_attr S v = params_attr m /\ ls = line n m value.
Lemma item_exact {T} (S : serialize T) n v ls out : name_ok n -> item' S n v ls -> Forall unbroken ls -> ser_field S n v = Ok out -> exact out (raw_lines ls).
Proof.
  intros (Hk & Hn & _) (value & m & Hc & Hi & Ha & ->) Hu H. destruct value as [|c0 value].
  { rewrite (C01_empty_value T S n v Hc Hi) in H. inv H. apply exact_nil. }
  assert (Hne : c0 :: value <> []) by discriminate. rewrite line_nonempty in * by auto. apply Forall_inv in Hu.
  destruct (C01_unfold_undoes_fold T S n v _ out Hc Hi Hne H) as [(parts & -> & Ec & Hp) G].
  rewrite Ha, raw_logical in G, Ec. intros rest Hr. split.
  - destruct (folded_head parts _ Ec Hp) as (c & r & s & El & ->).
    { intros ->. cbn in Ec. destruct n; [congruence|]. discriminate. }
    destruct n as [|k n]; [congruence|]. cbn in El. injection El as <- _. intros x Ex. cbn in Ex. injection Ex as -> _.
    apply Forall_inv in Hk. unfold key_char, SP in Hk. lia.
  - destruct G as [_ G]; [now apply raw_no_fold|]. rewrite (G rest Hr). unfold raw_lines. cbn [map concat]. now rewrite app_nil_r.
Qed.
Definition f_items (n : str) (f : field) : fty f -> list content_line -> Prop :=
  match f with
  | FReq Sr _ => fun v ls => item' Sr n v ls
  | FOpt Sr _ => fun v ls => match v with Some x => item' Sr n x ls | None => ls = [] end
  | FVec Sr _ | FApp Sr _ | FIgn Sr => fun v ls =>
      match v with [] => ls = [] | [x] => item' Sr n x ls | _ => item' (ser_vec Sr) n v ls end
  end.
Fixpoint fields_items (s : schema) : fields s -> list content_line -> Prop :=
  match s with
  | [] => fun _ ls => ls = []
  | (n, f) :: r => fun vs ls => exists a b, ls = a ++ b /\ f_items n f (fst vs) a /\ fields_items r (snd vs) b
  end.
Lemma f_items_exact n f v ls out : name_ok n -> f_items n f v ls -> Forall unbroken ls -> f_ser n f v = Ok out -> exact out (raw_lines ls).
Proof.
  intros Hn.
  assert (V : forall T (S : serialize T) (v : list T) ls out,
    match v with [] => ls = [] | [x] => item' S n x ls | _ => item' (ser_vec S) n v ls end -> Forall unbroken ls -> vec_field S n v = Ok out -> exact out (raw_lines ls)).
  { intros T S [|x [|y l]] ls0 out0 HL Hu H; cbn [vec_field] in H; try (eapply item_exact; eauto; fail). subst.
    rewrite (C01_empty_value _ (ser_vec S) n []) in H by reflexivity. inv H. apply exact_nil. }
  destruct f; cbn [f_items f_ser]; intros HL Hu H; try (eapply V; eauto; fail); [eapply item_exact; eauto|].
  destruct v as [x|].
  - eapply (item_exact (ser_opt S) n (Some x)); [exact Hn| |exact Hu|exact H]. destruct HL as (value & m & A & B & C & ->). exists value, m. cbn [ser_opt s_component s_ical s_attr]. auto 8.
  - subst. rewrite (C01_empty_value _ (ser_opt S) n None) in H; [|reflexivity|reflexivity]. inv H. apply exact_nil.
Qed.
Lemma fields_items_exact s vs ls out : Forall (fun nf => name_ok (fst nf)) s -> fields_items s vs ls -> Forall unbroken ls -> ser_fields s vs = Ok out -> exact out (raw_lines ls).
Proof.
  revert ls out; induction s as [|[n f] r IH]; intros ls out Hs HL Hu H; cbn [fields_items ser_fields] in *.
  - subst. inv H. apply exact_nil.
  - destruct vs as [v vs]. cbn [fst snd] in *. destruct HL as (a & b & -> & A & B). inversion Hs as [|? ? Hn Hs']; subst. apply Forall_app in Hu as [Ua Ub].
    destruct (f_ser n f v) as [x| |] eqn:X; cbn in H; try discriminate. destruct (ser_fields r vs) as [y| |] eqn:Y; cbn in H; try discriminate. inv H.
    rewrite raw_app. apply exact_app; [eapply f_items_exact; eauto|eauto].
Qed.
Lemma item_ext' {E : Env} n m : item' (ser_map ser_cl) n m (ext_line n m).
Proof.
  exists (join [59] (map (fun kl => fst kl ++ [61] ++ escaped (cl_value (snd kl))) m)), [].
  split; [reflexivity|]. split; [|split; reflexivity].
  cbn [s_ical ser_map]. unfold map_ical.
  rewrite ocollect_map with (g := fun kl => fst kl ++ [61] ++ escape (cl_value (snd kl)) ++ [59]) by (intros x _; reflexivity).
  cbn [obind]. f_equal. transitivity (join [59] (map (fun kl : str * content_line => fst kl ++ [61] ++ escape (cl_value (snd kl))) m)).
  2:{ f_equal. apply map_ext. intros kl. now rewrite escaped_escape. }
  rewrite <- join_pop. f_equal. induction m as [|a l IH]; auto. cbn [map concat flat_map]. rewrite IH. now rewrite <- !app_assoc.
Qed.
Lemma exact_frame name out text : upper_text name -> exact out text -> exact (lit "BEGIN:" ++ name ++ CRLF ++ out ++ lit "END:" ++ name ++ CRLF) (framed name text).
Proof.
  intros Hn H rest Hr. rewrite <- !app_assoc. split; [apply nc_begin|]. unfold CRLF, framed.
  destruct (H (lit "END:" ++ name ++ [CR; LF] ++ rest) (nc_end _ _)) as [A B].
  rewrite begin_line; [|exact Hn|exact A]. rewrite B, end_line by auto. now rewrite <- !app_assoc.
Qed.
Lemma ext_exact {E : Env} m m' x i : Forall unbroken (ext_line (lit "X-PROP") m ++ ext_line (lit "IANA-PROP") m') ->
  ser_field (ser_map ser_cl) (lit "X-PROP") m = Ok x -> ser_field (ser_map ser_cl) (lit "IANA-PROP") m' = Ok i ->
  exact (x ++ i) (raw_lines (ext_line (lit "X-PROP") m ++ ext_line (lit "IANA-PROP") m')).
Proof.
  intros U X I. apply Forall_app in U as [U V]. rewrite raw_app. apply exact_app.
  - eapply item_exact; [apply name_ok_x|apply item_ext'|exact U|exact X].
  - eapply item_exact; [apply name_ok_i|apply item_ext'|exact V|exact I].
Qed.
Lemma comp_body {E : Env} name s (c : comp s) body out : Forall (fun nf => name_ok (fst nf)) s -> fields_items s (c_fields c) body ->
  Forall unbroken (body ++ ext_line (lit "X-PROP") (c_xprop c) ++ ext_line (lit "IANA-PROP") (c_iana c)) -> comp_ical name c = Ok out ->
  exists b, out = lit "BEGIN:" ++ name ++ CRLF ++ b ++ lit "END:" ++ name ++ CRLF /\
    exact b (raw_lines (body ++ ext_line (lit "X-PROP") (c_xprop c) ++ ext_line (lit "IANA-PROP") (c_iana c))).
Proof.
  intros Hs HL Hu H. apply comp_parts in H as (b & x & i & B & X & I & ->). exists (b ++ x ++ i). rewrite <- !app_assoc. split; auto.
  apply Forall_app in Hu as [U1 U2]. rewrite raw_app. apply exact_app; [eapply fields_items_exact; eauto|now apply ext_exact].
Qed.
(** A field at a time. *)
Definition itemable {T} (S : serialize T) (one : str -> T -> list content_line) (show : T -> str) : Prop :=
  forall x, (forall n, item' S n x (one n x)) /\ s_ical S x = Ok (show x).
Lemma fi_cons n f r vs a b ls : ls = a ++ b -> f_items n f (fst vs) a -> fields_items r (snd vs) b -> fields_items ((n, f) :: r) vs ls.
Proof. intros -> A B. exists a, b. auto. Qed.
Lemma fi_nil vs : fields_items [] vs [].
Proof. reflexivity. Qed.
Lemma fi_req {T} n (S : serialize T) p one show x : itemable S one show -> f_items n (FReq S p) x (one n x).
Proof. intros L. apply L. Qed.
Lemma fi_opt {T} n (S : serialize T) p one show o : itemable S one show -> f_items n (FOpt S p) o (opt_lines one n o).
Proof. intros L. destruct o; cbn [f_items opt_lines]; [apply L|reflexivity]. Qed.
Lemma item_vec' {T} (S : serialize T) (show : T -> str) n l :
  (forall x, s_ical S x = Ok (show x)) -> item' (ser_vec S) n l (line n [] (join [44] (map show l))).
Proof.
  intros H. exists (join [44] (map show l)), []. split; [reflexivity|]. split; [cbn [s_ical ser_vec]; apply vec_ical_show; intros x _; apply H|]. split; reflexivity.
Qed.
Lemma fi_list {T} n (S : serialize T) one show l : itemable S one show ->
  match l with [] => list_lines one show n l = [] | [x] => item' S n x (list_lines one show n l) | _ => item' (ser_vec S) n l (list_lines one show n l) end.
Proof. intros L. destruct l as [|x [|y l]]; cbn [list_lines]; [reflexivity|apply L|]. apply item_vec'. intros; apply L. Qed.
Lemma fi_vec {T} n (S : serialize T) p one show l : itemable S one show -> f_items n (FVec S p) l (list_lines one show n l).
Proof. apply fi_list. Qed.
Lemma fi_app {T} n (S : serialize T) p one show l : itemable S one show -> f_items n (FApp S p) l (list_lines one show n l).
Proof. apply fi_list. Qed.
Lemma fi_none {T} n (S : serialize T) l : l = [] -> f_items n (FIgn S) l [].
Proof. intros ->. reflexivity. Qed.
Lemma itemable_display {T} (show : T -> str) : itemable (ser_display show) (plain_line show) show.
Proof. intros x. split; [|reflexivity]. intros n. exists (show x), []. auto. Qed.
Section Values.
Context {E : Env}.
Lemma I_text : itemable ser_text text_line text_shown.
Proof. intros x. unfold text_line, text_shown. rewrite escaped_escape. split; [|reflexivity]. intros n. exists (escape (t_text x)), (t_params x). auto. Qed.
Lemma I_uri : itemable ser_uri uri_line uri_shown.
Proof. intros x. unfold uri_line, uri_shown. rewrite escaped_escape. split; [|reflexivity]. intros n. exists (escape (u_uri x)), (u_params x). auto. Qed.
Lemma I_datetime : itemable ser_datetime (plain_line dt_show) dt_show.
Proof. apply itemable_display. Qed.
Lemma I_date : itemable ser_date date_line date_str.
Proof. intros x. split; [|reflexivity]. intros n. exists (date_str x), (date_params x). split; [reflexivity|]. split; [reflexivity|]. split; [destruct x; reflexivity|reflexivity]. Qed.
Lemma I_td : itemable ser_td (plain_line td_show) td_show.
Proof. apply itemable_display. Qed.
Lemma I_u32 : itemable ser_u32 (plain_line show_int) show_int.
Proof. apply itemable_display. Qed.
Lemma I_u8 : itemable ser_u8 (plain_line show_int) show_int.
Proof. apply itemable_display. Qed.
Lemma I_class : itemable ser_class (plain_line class_show) class_show.
Proof. apply itemable_display. Qed.
Lemma I_geo : itemable ser_geo (plain_line geo_show) geo_show.
Proof. apply itemable_display. Qed.
Lemma I_status : itemable ser_status (plain_line status_show) status_show.
Proof. apply itemable_display. Qed.
Lemma I_transp : itemable ser_transp (plain_line transp_show) transp_show.
Proof. apply itemable_display. Qed.
Lemma I_recur : itemable ser_recur (plain_line rule_shown) rule_shown.
Proof. intros x. split; [|rewrite rule_shown_eq; apply recur_written]. intros n. exists (rule_shown x), []. split; [reflexivity|]. split; [rewrite rule_shown_eq; apply recur_written|]. split; reflexivity. Qed.
Lemma I_rs : itemable ser_rs (plain_line rs_shown) rs_shown.
Proof. intros x. split; [|cbn; now rewrite rs_show_eq]. intros n. exists (rs_shown x), []. split; [reflexivity|]. split; [cbn; now rewrite rs_show_eq|]. split; reflexivity. Qed.
Lemma I_rdate : itemable ser_rdate (plain_line rdate_show) rdate_show.
Proof. apply itemable_display. Qed.
Lemma I_period : itemable ser_period (plain_line period_show) period_show.
Proof. apply itemable_display. Qed.
Lemma I_trigger : itemable ser_trigger trigger_line trigger_text.
Proof. intros x. split; [|destruct x; reflexivity]. intros n. exists (trigger_text x), (trigger_params x). split; [reflexivity|]. split; [destruct x; reflexivity|]. split; [destruct x; reflexivity|reflexivity]. Qed.
Lemma I_offset : itemable ser_offset (plain_line offset_show) offset_show.
Proof. apply itemable_display. Qed.
(** ** Values that bring no LF *)
Definition unbrokenable {T} (one : str -> T -> list content_line) (show : T -> str) (P : T -> Prop) : Prop :=
  forall x, P x -> (forall n, Forall unbroken (one n x)) /\ ~ In LF (show x).
Lemma line_unbroken n m value : (forall k v, In (k, v) m -> ~ In LF k) -> ~ In LF value -> Forall unbroken (line n m value).
Proof. intros A B. destruct value; constructor; [split; auto|constructor]. Qed.
Lemma unbroken_plain {T} (show : T -> str) (P : T -> Prop) : (forall x, P x -> ~ In LF (show x)) -> unbrokenable (plain_line show) show P.
Proof. intros H x Hx. split; [|auto]. intros n. apply line_unbroken; [intros k v []|auto]. Qed.
Lemma u_req {T} n one (show : T -> str) P x : unbrokenable one show P -> P x -> Forall unbroken (one n x).
Proof. intros L H. now apply L. Qed.
Lemma u_opt {T} n one (show : T -> str) P o : unbrokenable one show P -> holds P o -> Forall unbroken (opt_lines one n o).
Proof. intros L H. destruct o as [x|]; cbn [opt_lines]; [apply L; now apply H|constructor]. Qed.
Lemma join_no_LF l : Forall (fun s => ~ In LF s) l -> ~ In LF (join [44] l).
Proof.
  intros H. induction H as [|x l Hx H IH]; [intros []|]. destruct l as [|y l]; [exact Hx|]. cbn [join] in *. rewrite !in_app_iff. cbn [In]. intros [X|[[X|[]]|X]]; auto. unfold LF in X. discriminate.
Qed.
Lemma u_list {T} n one (show : T -> str) P l : unbrokenable one show P -> Forall P l -> Forall unbroken (list_lines one show n l).
Proof.
  intros L H. assert (G : Forall unbroken (line n [] (join [44] (map show l)))).
  { apply line_unbroken; [intros k v []|]. apply join_no_LF, Forall_map. eapply Forall_impl; [|exact H]. intros x Hx. now apply L. }
  destruct l as [|x [|y l]]; cbn [list_lines]; auto. apply L. now inversion H.
Qed.
Lemma no_eol_LF s : no_eol s -> ~ In LF s.
Proof. now intros []. Qed.
Lemma lineable_u {T} (S : serialize T) one show P : lineable S one show P -> unbrokenable one show P.
Proof.
  intros L x Hx. destruct (L x Hx) as (A & _ & B). split; [|now apply no_eol_LF]. intros n. destruct (A n) as (value & m & _ & _ & _ & [_ G] & N & ->).
  apply line_unbroken; [|now apply no_eol_LF]. intros k v I. destruct (G k v I) as [K _]. now apply key_no_LF.
Qed.
Lemma escaped_no_LF s : ~ In LF (escaped s).
Proof. rewrite escaped_escape. apply escape_no_LF. Qed.
Lemma U_text : unbrokenable text_line text_shown flat_text.
Proof. intros x H. split; [intros n; apply line_unbroken; [exact H|]|]; apply escaped_no_LF. Qed.
Lemma U_uri : unbrokenable uri_line uri_shown flat_uri.
Proof. intros x H. split; [intros n; apply line_unbroken; [exact H|]|]; apply escaped_no_LF. Qed.
Lemma U_class : unbrokenable (plain_line class_show) class_show flat_class.
Proof. apply unbroken_plain. intros c H. destruct c as [| | |s]; [..|exact H]; intros X; vm_compute in X; intuition discriminate. Qed.
Lemma U_geo : unbrokenable (plain_line geo_show) geo_show flat_geo.
Proof. apply unbroken_plain. intros g [A B]. unfold geo_show. rewrite !in_app_iff. intros [X|[X|X]]; auto. vm_compute in X. intuition discriminate. Qed.
Lemma U_rs : unbrokenable (plain_line rs_shown) rs_shown flat_rs.
Proof.
  apply unbroken_plain. intros r H. unfold rs_shown. rewrite !in_app_iff. cbn [In]. intros [X|[[X|[]]|[X|X]]]; auto; [unfold LF in X; discriminate|now apply escaped_no_LF in X|].
  destruct (rs_ext r); [|destruct X]. apply in_app_iff in X as [[X|[]]|X]; [unfold LF in X; discriminate|now apply escaped_no_LF in X].
Qed.
Lemma U_datetime : unbrokenable (plain_line dt_show) dt_show real_datetime. Proof. eapply lineable_u, L_datetime. Qed.
Lemma U_date : unbrokenable date_line date_str real_date. Proof. eapply lineable_u, L_date. Qed.
Lemma U_td : unbrokenable (plain_line td_show) td_show anything. Proof. eapply lineable_u, L_td. Qed.
Lemma U_u32 : unbrokenable (plain_line show_int) show_int anything. Proof. eapply lineable_u, L_u32. Qed.
Lemma U_u8 : unbrokenable (plain_line show_int) show_int anything. Proof. eapply lineable_u, L_u8. Qed.
Lemma U_status : unbrokenable (plain_line status_show) status_show anything. Proof. eapply lineable_u, L_status. Qed.
Lemma U_transp : unbrokenable (plain_line transp_show) transp_show anything. Proof. eapply lineable_u, L_transp. Qed.
Lemma U_recur : unbrokenable (plain_line rule_shown) rule_shown tidy_rule. Proof. eapply lineable_u, L_recur. Qed.
Lemma U_rdate : unbrokenable (plain_line rdate_show) rdate_show real_rdate. Proof. eapply lineable_u, L_rdate. Qed.
Lemma U_period : unbrokenable (plain_line period_show) period_show real_period. Proof. eapply lineable_u, L_period. Qed.
Lemma U_trigger : unbrokenable trigger_line trigger_text real_trigger. Proof. eapply lineable_u, L_trigger. Qed.
Lemma U_offset : unbrokenable (plain_line offset_show) offset_show real_offset. Proof. eapply lineable_u, L_offset. Qed.
Lemma u_ext n m : flat_ext m -> Forall unbroken (ext_line n m).
Proof.
  intros H. apply line_unbroken; [intros k v []|]. intros X. assert (G : forall l : list str, Forall (fun s => ~ In LF s) l -> ~ In LF (join [59] l)).
  { clear. intros l H. induction H as [|x l Hx H IH]; [intros []|]. destruct l as [|y l]; [exact Hx|]. cbn [join] in *. rewrite !in_app_iff. cbn [In]. intros [X|[[X|[]]|X]]; auto. unfold LF in X. discriminate. }
  eapply G; [|exact X]. apply Forall_map, Forall_forall. intros [k l] I. cbn [fst snd]. rewrite !in_app_iff. cbn [In]. intros [Y|[[Y|[]]|Y]]; [now apply (H k l I)|unfold LF in Y; discriminate|now apply escaped_no_LF in Y].
Qed.
End Values.
