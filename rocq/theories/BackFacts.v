(** * Components without losses are read back: generic part. *)
From Verif Require Import Base Env Chrono Nom Types Ser Parser Derive BaseFacts NomFacts SpecLine LineFacts SpecText SerFacts PropText PropLine
  SpecCal SpecDur PropDate PropDur PropVocab PropRule PropPeriod PropList DateText Components SpecComp DeriveFacts SpecFields PropComp SpecFile PropFile SpecRound RoundFacts FrameFacts.

(** ** Writing a field *)
Definition lineable {T} (S : serialize T) (one : str -> T -> list content_line) (show : T -> str) (P : T -> Prop) : Prop :=
  forall x, P x -> (forall n, item S n x (one n x)) /\ s_ical S x = Ok (show x) /\ no_eol (show x).
Lemma fl_req {T} n (S : serialize T) p one show P x : lineable S one show P -> P x -> f_lines n (FReq S p) x (one n x).
Proof. intros L H. cbn. now apply L. Qed.
Lemma fl_opt' {T} n (S : serialize T) p one show P o : lineable S one show P -> holds P o -> f_lines n (FOpt S p) o (opt_lines one n o).
Proof. intros L H. apply fl_opt. intros x ->. apply L. now apply H. Qed.
Lemma fl_list {T} n (S : serialize T) one show P l : lineable S one show P -> Forall P l ->
  match l with [] => list_lines one show n l = [] | [x] => item S n x (list_lines one show n l) | _ => item (ser_vec S) n l (list_lines one show n l) end.
Proof. intros L H. rewrite Forall_forall in H. apply list_item; intros x Hx; destruct (L x (H x Hx)) as (A & B & C); auto. Qed.
Lemma fl_vec {T} n (S : serialize T) p one show P l : lineable S one show P -> Forall P l -> f_lines n (FVec S p) l (list_lines one show n l).
Proof. apply fl_list. Qed.
Lemma fl_app {T} n (S : serialize T) p one show P l : lineable S one show P -> Forall P l -> f_lines n (FApp S p) l (list_lines one show n l).
Proof. apply fl_list. Qed.
Lemma all_any {T} (l : list T) : Forall anything l.
Proof. apply Forall_forall. intros; exact I. Qed.
Lemma holds_any {T} (o : option T) : holds anything o.
Proof. intros x _. exact I. Qed.
Lemma lineable_display {T} (show : T -> str) (P : T -> Prop) : (forall x, P x -> no_eol (show x)) -> lineable (ser_display show) (plain_line show) show P.
Proof. intros H x Hx. split; [intros n; apply item_display; auto|split; [reflexivity|auto]]. Qed.

(** ** Reading it back *)
Definition reads_back {T} (p : content_line -> outcome T) (one : str -> T -> list content_line) (P : T -> Prop) : Prop :=
  forall x, P x -> forall n, exists c, one n x = [c] /\ cl_key c = n /\ p c = Ok x.
Definition list_back {T} (p : content_line -> outcome (list T)) (one : str -> T -> list content_line) (show : T -> str) (P : T -> Prop) : Prop :=
  forall l, l <> [] -> Forall P l -> forall n, exists c, list_lines one show n l = [c] /\ cl_key c = n /\ p c = Ok l.
Definition f_back (n : str) (f : field) (v : fty f) (ls : list content_line) : Prop :=
  match f with FIgn _ => ls = [] | _ => Forall (fun c => cl_key c = n) ls end /\ field_spec n f ls v.
Fixpoint fields_back (s : schema) : fields s -> list content_line -> Prop :=
  match s with
  | [] => fun _ ls => ls = []
  | (n, f) :: r => fun vs ls => exists a b, ls = a ++ b /\ f_back n f (fst vs) a /\ fields_back r (snd vs) b
  end.
Lemma back_cons n f r vs a b ls : ls = a ++ b -> f_back n f (fst vs) a -> fields_back r (snd vs) b -> fields_back ((n, f) :: r) vs ls.
Proof. intros -> A B. exists a, b. auto. Qed.
Lemma back_nil vs : fields_back [] vs [].
Proof. reflexivity. Qed.
Lemma required_one {T} (p : content_line -> outcome T) n c x : cl_key c = n -> p c = Ok x -> required p n [c] x.
Proof. intros K P. exists c. split; auto. exists [], []. repeat split; auto. constructor. Qed.
Lemma named_one n c : cl_key c = n -> lines_named n [c] = [c].
Proof. intros <-. unfold lines_named. cbn. now rewrite str_eqb_refl. Qed.
Lemma fb_req {T} n (S : serialize T) p one P x : reads_back p one P -> P x -> f_back n (FReq S p) x (one n x).
Proof. intros R H. destruct (R x H n) as (c & -> & K & Q). split; [repeat constructor; auto|cbn; now apply required_one]. Qed.
Lemma fb_opt {T} n (S : serialize T) p one P o : reads_back p one P -> holds P o -> f_back n (FOpt S p) o (opt_lines one n o).
Proof.
  intros R H. destruct o as [x|]; cbn [opt_lines].
  - destruct (R x (H x eq_refl) n) as (c & -> & K & Q). split; [repeat constructor; auto|]. split; [intros l [<-|[]] _; eauto|now apply required_one].
  - split; [constructor|]. split; [intros l []|constructor].
Qed.
Lemma fb_vec {T} n (S : serialize T) p one show P l : reads_back p one P -> at_most_one P l -> f_back n (FVec S p) l (list_lines one show n l).
Proof.
  intros R [->|(x & -> & H)]; cbn [list_lines map join line].
  - split; [constructor|]. cbn. constructor.
  - destruct (R x H n) as (c & -> & K & Q). split; [repeat constructor; auto|]. cbn [field_spec]. unfold repeated. rewrite named_one by auto. repeat constructor; auto.
Qed.
Lemma fb_app {T} n (S : serialize T) p one show P l : list_back p one show P -> Forall P l -> f_back n (FApp S p) l (list_lines one show n l).
Proof.
  intros R H. destruct l as [|x l].
  - cbn [list_lines map join line]. split; [constructor|]. exists []. cbn. auto.
  - destruct (R (x :: l) ltac:(discriminate) H n) as (c & -> & K & Q). split; [repeat constructor; auto|]. cbn [field_spec]. unfold appended.
    rewrite named_one by auto. exists [x :: l]. split; [repeat constructor; auto|]. cbn. now rewrite app_nil_r.
Qed.
Lemma fb_none {T} n (S : serialize T) : f_back n (FIgn S) [] [].
Proof. split; reflexivity. Qed.
Lemma absent_app n a b : absent n (a ++ b) <-> absent n a /\ absent n b.
Proof. apply Forall_app. Qed.
Lemma named_absent n ls : absent n ls -> lines_named n ls = [].
Proof. apply absent_lines. Qed.
Lemma spec_named n f ls ls' v : lines_named n ls = lines_named n ls' -> field_spec n f ls v <-> field_spec n f ls' v.
Proof.
  intros H. assert (L : forall l, last_line n ls l <-> last_line n ls' l) by (intros l; rewrite !last_line_iff, H; tauto).
  assert (A : absent n ls <-> absent n ls') by (rewrite !absent_lines, H; tauto).
  assert (M : forall l, (In l ls /\ cl_key l = n) <-> (In l ls' /\ cl_key l = n)).
  { intros l. assert (G : forall ls, In l (lines_named n ls) <-> In l ls /\ cl_key l = n) by (intros; unfold lines_named; rewrite filter_In, str_eqb_eq; tauto).
    rewrite <- !G, H. tauto. }
  destruct f; cbn [field_spec].
  - unfold required. setoid_rewrite L. tauto.
  - unfold optional. assert (R : forall x, required p n ls x <-> required p n ls' x) by (intros x; unfold required; setoid_rewrite L; tauto).
    assert (Q : (forall l, In l ls -> cl_key l = n -> exists v0, p l = Ok v0) <-> (forall l, In l ls' -> cl_key l = n -> exists v0, p l = Ok v0)).
    { split; intros X l Hl Hk; apply X; auto; apply M; auto. }
    rewrite Q. destruct v; [rewrite R|rewrite A]; tauto.
  - unfold repeated. rewrite H. tauto.
  - unfold appended. rewrite H. tauto.
  - tauto.
Qed.
Definition keys_of (s : schema) (ls : list content_line) : Prop := Forall (fun c => In (cl_key c) (arm_names s)) ls.
Lemma back_keys s vs ls : fields_back s vs ls -> keys_of s ls.
Proof.
  revert ls; induction s as [|[n f] r IH]; cbn [fields_back]; intros ls; [intros ->; constructor|].
  intros (a & b & -> & [K _] & B). unfold keys_of. rewrite arm_names_cons. apply Forall_app. split.
  - destruct f; cbn [has_arm]; try (subst; constructor); (eapply Forall_impl; [|exact K]); cbn; auto.
  - eapply Forall_impl; [|exact (IH _ _ B)]. intros c Hc. destruct (has_arm f); cbn; auto.
Qed.
Lemma spec_of_back s : forall vs ls pre post, NoDup (map fst s) -> (forall n, In n (map fst s) -> absent n pre /\ absent n post) ->
  fields_back s vs ls -> fields_spec s (pre ++ ls ++ post) vs.
Proof.
  induction s as [|[n f] r IH]; intros vs ls pre post Hd Hp H; cbn [fields_spec fields_back map fst] in *; [exact I|].
  destruct H as (a & b & -> & [K F] & B). inv Hd. split.
  - apply (spec_named n f a); auto. rewrite !lines_named_app. destruct (Hp n (or_introl eq_refl)) as [P1 P2].
    rewrite (named_absent n pre P1), (named_absent n post P2), app_nil_r. rewrite (named_absent n b), app_nil_r; auto.
    apply back_keys in B. eapply Forall_impl; [|exact B]. cbn. intros c Hc E. subst n. apply H1. unfold arm_names in Hc.
    apply in_map_iff in Hc as (nf & Eq & Hc). apply filter_In in Hc as [Hc _]. rewrite <- Eq. now apply in_map.
  - rewrite <- app_assoc, app_assoc. apply IH; auto. intros m Hm. destruct (Hp m (or_intror Hm)) as [P1 P2]. split; auto. apply absent_app. split; auto.
    destruct f; try (subst; constructor); (eapply Forall_impl; [|exact K]); cbn; intros c E1 E2; congruence.
Qed.
Lemma no_extensions known ls : Forall (fun c => In (cl_key c) known) ls -> extensions known ls [] [].
Proof.
  intros H. split; [constructor|]. split; [constructor|].
  split; intros n l; (split; [discriminate|]); intros (A & _ & (a & b & -> & K & _)); exfalso; apply A; rewrite <- K; rewrite Forall_forall in H; apply H, in_elt.
Qed.
Lemma comp_back s (c : comp s) ls : NoDup (map fst s) -> fields_back s (c_fields c) ls -> c_xprop c = [] -> c_iana c = [] -> comp_of_lines s ls = Ok c.
Proof.
  intros Hd H Hx Hi. apply comp_spec.
  - clear - Hd. unfold arm_names. induction s as [|nf s IH]; [constructor|]. cbn [map filter] in *. inv Hd. destruct (has_arm (snd nf)); auto. cbn [map]. constructor; auto.
    intros G. apply H1. apply in_map_iff in G as (x & E & G). apply filter_In in G as [G _]. rewrite <- E. now apply in_map.
  - split.
    + rewrite <- (app_nil_r ls). apply (spec_of_back s _ ls []); auto. intros; split; constructor.
    + rewrite Hx, Hi. apply no_extensions. eapply back_keys; eauto.
Qed.

(** ** The values *)
Lemma safe_escaped s : safe_string s -> escaped s = s.
Proof. intros (A & B & C & D & F). rewrite escaped_escape. now apply escape_plain. Qed.
Section Values.
Context {E : Env}.
Lemma L_text : lineable ser_text text_line text_shown tidy_text.
Proof.
  intros x H. split; [intros; now apply item_text|]. unfold text_shown. rewrite escaped_escape. split; [reflexivity|]. destruct H. now apply escape_no_eol.
Qed.
Lemma L_uri : lineable ser_uri uri_line uri_shown tidy_uri.
Proof.
  intros x H. split; [intros; now apply item_uri|]. unfold uri_shown. rewrite escaped_escape. split; [reflexivity|]. destruct H. now apply escape_no_eol.
Qed.
Lemma L_datetime : lineable ser_datetime (plain_line dt_show) dt_show real_datetime.
Proof. apply lineable_display. intros. now apply visible_no_eol, visible_dt. Qed.
Lemma L_date : lineable ser_date date_line date_str real_date.
Proof. intros x H. split; [intros; now apply item_date|]. split; [reflexivity|]. now apply visible_no_eol, visible_date. Qed.
Lemma L_td : lineable ser_td (plain_line td_show) td_show anything.
Proof. apply lineable_display. intros. apply visible_no_eol, visible_td. Qed.
Lemma L_u32 : lineable ser_u32 (plain_line show_int) show_int anything.
Proof. apply lineable_display. intros. apply visible_no_eol, visible_int. Qed.
Lemma L_u8 : lineable ser_u8 (plain_line show_int) show_int anything.
Proof. apply lineable_display. intros. apply visible_no_eol, visible_int. Qed.
Lemma L_class : lineable ser_class (plain_line class_show) class_show tidy_class.
Proof. apply lineable_display. auto. Qed.
Lemma L_geo : lineable ser_geo (plain_line geo_show) geo_show tidy_geo.
Proof. apply lineable_display. apply geo_no_eol. Qed.
Lemma L_status : lineable ser_status (plain_line status_show) status_show anything.
Proof. apply lineable_display. intros [] _; apply visible_no_eol, visible_lit; reflexivity. Qed.
Lemma L_transp : lineable ser_transp (plain_line transp_show) transp_show anything.
Proof. apply lineable_display. intros [] _; apply visible_no_eol, visible_lit; reflexivity. Qed.
Lemma L_recur : lineable ser_recur (plain_line rule_shown) rule_shown tidy_rule.
Proof. intros x H. split; [intros; now apply item_rule|]. split; [rewrite rule_shown_eq; apply recur_written|]. now apply visible_no_eol, visible_rule. Qed.
Lemma L_rs : lineable ser_rs (plain_line rs_shown) rs_shown tidy_rs.
Proof. intros x H. split; [intros; now apply item_rs|]. split; [cbn; now rewrite rs_show_eq|]. now apply rs_no_eol. Qed.
Lemma L_rdate : lineable ser_rdate (plain_line rdate_show) rdate_show real_rdate.
Proof. apply lineable_display. intros. now apply visible_no_eol, visible_rdate. Qed.
Lemma L_period : lineable ser_period (plain_line period_show) period_show real_period.
Proof. apply lineable_display. intros. now apply visible_no_eol, visible_period. Qed.
Lemma L_trigger : lineable ser_trigger trigger_line trigger_text real_trigger.
Proof.
  intros x H. split; [intros; now apply item_trigger|]. split; [destruct x; reflexivity|]. destruct x; cbn; apply visible_no_eol; [now apply visible_dt|apply visible_td].
Qed.
Lemma L_offset : lineable ser_offset (plain_line offset_show) offset_show real_offset.
Proof. apply lineable_display. intros. now apply visible_no_eol, offset_visible. Qed.

Lemma back_line {T} (p : content_line -> outcome T) n m value x : value <> [] -> (forall c, cl_value c = value -> cl_params c = m -> p c = Ok x) ->
  exists c, line n m value = [c] /\ cl_key c = n /\ p c = Ok x.
Proof. intros H P. exists (mk_cl n m value). rewrite line_nonempty by auto. split; [reflexivity|]. split; [reflexivity|]. now apply P. Qed.
Lemma B_text : reads_back parse_text text_line safe_text.
Proof.
  intros x [Hm H] n. unfold text_line, text_shown. rewrite safe_escaped by auto. apply back_line; [apply H|]. intros [k m v] V M. cbn in V, M. subst. destruct x; reflexivity.
Qed.
Lemma B_uri : reads_back parse_uri uri_line safe_uri.
Proof.
  intros x [Hm H] n. unfold uri_line, uri_shown. rewrite safe_escaped by auto. apply back_line; [apply H|]. intros [k m v] V M. cbn in V, M. subst. destruct x; reflexivity.
Qed.

Lemma back_plain {T} (p : content_line -> outcome T) show n x : show x <> [] -> (forall c, cl_value c = show x -> p c = Ok x) ->
  exists c, plain_line show n x = [c] /\ cl_key c = n /\ p c = Ok x.
Proof. intros A B. apply back_line; auto. Qed.
Lemma B_datetime : reads_back parse_datetime (plain_line dt_show) writable_datetime.
Proof. intros x H n. destruct (writable_dt_reads x H) as (R & _ & _ & N). apply back_plain; auto. intros c Hc. unfold parse_datetime. now rewrite Hc. Qed.
Lemma B_date : reads_back parse_date date_line writable_date.
Proof. intros x H n. destruct (writable_reads x H) as (R & _ & N). apply back_line; auto. intros c Hc _. unfold parse_date. now rewrite Hc. Qed.
Lemma td_nonempty d : td_show d <> [].
Proof. destruct (td_head d) as [r ->]. destruct (d <? 0); discriminate. Qed.
Lemma B_td : reads_back parse_dur (plain_line td_show) safe_duration.
Proof. intros x (k & -> & H) n. apply back_plain; [apply td_nonempty|]. intros c Hc. now apply (C23_duration_round_trip k c). Qed.
Lemma show_int_nonempty n : show_int n <> [].
Proof. apply show_int_ok. Qed.
Lemma B_u32 : reads_back parse_u32 (plain_line show_int) (number 4294967295).
Proof. intros x [A B] n. apply back_plain; [apply show_int_nonempty|]. intros c Hc. now apply (C32_round_trip x c). Qed.
Lemma B_percent : reads_back parse_percent (plain_line show_int) (number 255).
Proof. intros x [A B] n. apply back_plain; [apply show_int_nonempty|]. intros c Hc. now apply (C32_round_trip x c). Qed.
Lemma B_priority : reads_back parse_priority (plain_line show_int) (number 9).
Proof. intros x [A B] n. apply back_plain; [apply show_int_nonempty|]. intros c Hc. now apply (C32_round_trip x c). Qed.
Lemma B_class : reads_back parse_class (plain_line class_show) safe_class.
Proof.
  intros x H n. destruct x as [| | |s]; try (apply back_plain; [discriminate|intros c Hc; unfold parse_class; rewrite Hc; reflexivity]).
  destruct H as (A & B & U & N). assert (Sh : class_show (Custom s) = s) by exact U. apply back_plain; [now rewrite Sh|].
  rewrite Sh. intros c Hc. unfold parse_class, class_of_str. rewrite Hc. cbn [In] in N.
  destruct (str_eqb s (lit "PUBLIC")) eqn:E1; [apply str_eqb_eq in E1; exfalso; apply N; auto|].
  destruct (str_eqb s (lit "PRIVATE")) eqn:E2; [apply str_eqb_eq in E2; exfalso; apply N; auto|].
  destruct (str_eqb s (lit "CONFIDENTIAL")) eqn:E3; [apply str_eqb_eq in E3; exfalso; apply N; auto|]. reflexivity.
Qed.
Lemma B_geo : reads_back parse_geo (plain_line geo_show) safe_geo.
Proof.
  intros [a b] [[A1 A2] [B1 B2]] n. cbn [g_lat g_lon] in *. apply back_plain.
  - unfold geo_show. cbn [g_lat g_lon]. intros X. apply app_eq_nil in X as [_ X]. discriminate.
  - intros c Hc. unfold parse_geo. rewrite Hc. unfold geo_show. cbn [g_lat g_lon].
    unfold pmap, separated_pair, pbind, p_float. rewrite A2 by (right; eexists; reflexivity).
    change ([59] ++ f32_show b) with (59 :: f32_show b). cbn [pchar]. rewrite Z.eqb_refl.
    rewrite <- (app_nil_r (f32_show b)), B2 by auto. reflexivity.
Qed.
Lemma B_status : reads_back parse_status (plain_line status_show) anything.
Proof. intros x _ n. apply back_plain; [destruct x; discriminate|]. intros c Hc. unfold parse_status. rewrite Hc. destruct x; reflexivity. Qed.
Lemma B_transp : reads_back parse_transp (plain_line transp_show) anything.
Proof. intros x _ n. apply back_plain; [destruct x; discriminate|]. intros c Hc. unfold parse_transp. rewrite Hc. destruct x; reflexivity. Qed.
Lemma B_recur : reads_back parse_rrule (plain_line rule_shown) writable_rule.
Proof.
  intros x H n. destruct (C26_rule_round_trip E x H) as (s & A & _ & B). assert (S : s = rule_shown x).
  { rewrite rule_shown_eq. pose proof (recur_written x) as R. rewrite R in A. now inv A. }
  subst s. apply back_plain; auto. rewrite rule_shown_eq. unfold rule_text, nonempty, rule_fields. cbn [flat_map snd]. destruct (r_freq x); cbn [freq_show app map fst snd]; apply join_nonnil; discriminate.
Qed.
Lemma safe_or_empty s : s = [] \/ safe_string s -> escaped s = s.
Proof. intros [->|H]; [reflexivity|now apply safe_escaped]. Qed.
Lemma safe_no_semi s : s = [] \/ safe_string s -> ~ In 59 s.
Proof. intros [->|H]; [intros []|apply H]. Qed.
Lemma take_till_stop s rest : ~ In 59 s -> rest = [] \/ (exists r, rest = 59 :: r) -> take_till (fun c => c =? 59) (s ++ rest) = POk rest s.
Proof.
  intros H Hr. apply take_till_POk. split; auto. split.
  - intros c Hc. apply Z.eqb_neq. intros ->. auto.
  - destruct Hr as [->|(r & ->)]; auto.
Qed.
Lemma B_rs : reads_back parse_rstatus (plain_line rs_shown) safe_rs.
Proof.
  intros [a d e] ((A1 & A2) & Hd & He) n. cbn [rs_code rs_desc rs_ext] in *. apply back_plain.
  - unfold rs_shown. intros X. apply app_eq_nil in X as [_ X]. discriminate.
  - intros c Hc. unfold parse_rstatus. rewrite Hc. unfold rs_shown. cbn [rs_code rs_desc rs_ext]. rewrite (safe_or_empty d Hd).
    unfold p_rstatus, pbind, p_float. rewrite A2 by (right; eexists; reflexivity).
    change ([59] ++ d ++ ?t) with (59 :: d ++ t). cbn [pchar app]. rewrite Z.eqb_refl.
    destruct e as [x|].
    + rewrite (safe_or_empty x (He x eq_refl)). rewrite take_till_stop; [|now apply safe_no_semi|right; eexists; reflexivity].
      unfold popt, preceded, pbind. cbn [pchar app]. rewrite Z.eqb_refl. rewrite <- (app_nil_r x) at 1. rewrite take_while_app; [reflexivity|intros ? _; reflexivity|exact I].
    + rewrite take_till_stop; [|now apply safe_no_semi|now left]. reflexivity.
Qed.
Lemma B_trigger : reads_back parse_trigger trigger_line writable_trigger.
Proof.
  intros x H n. apply back_line; [|intros c Hc _; now apply (C33_trigger_round_trip E x c)].
  destruct x; cbn; [now apply writable_dt_reads|apply td_nonempty].
Qed.
Lemma B_offset : reads_back parse_offset (plain_line offset_show) safe_offset.
Proof.
  intros x [A B] n. apply back_plain; [unfold offset_show; destruct (_ =? 0); discriminate|]. intros c Hc. destruct (C30_utc_offset_round_trip x c A Hc) as (_ & _ & R). auto.
Qed.
Lemma join_nonempty {T} (show : T -> str) x l : show x <> [] -> join [44] (map show (x :: l)) <> [].
Proof. intros H. cbn [map]. now apply join_nonnil. Qed.
Lemma BL_texts : list_back parse_texts text_line text_shown safe_entry.
Proof.
  intros l Hl H n.
  assert (P : exists c, line n [] (join [44] (map text_shown l)) = [c] /\ cl_key c = n /\ parse_texts c = Ok l).
  { apply back_line.
    - destruct l as [|x l]; [congruence|]. apply join_nonempty. apply Forall_inv in H as [_ H]. unfold text_shown. rewrite safe_escaped by auto. apply H.
    - intros c Hc _. unfold parse_texts. rewrite Hc.
      assert (M : map text_shown l = map t_text l) by (apply map_ext_in; intros x Hx; rewrite Forall_forall in H; destruct (H x Hx) as [_ Q]; now apply safe_escaped).
      rewrite M, split_on_join.
      + f_equal. rewrite map_map. rewrite <- (map_id l) at 2. apply map_ext_in. intros x Hx. rewrite Forall_forall in H. destruct (H x Hx) as [Q _]. destruct x; cbn in *. now subst.
      + destruct l; [congruence|discriminate].
      + apply Forall_map. eapply Forall_impl; [|exact H]. intros x (_ & Q). apply Q. }
  destruct l as [|x [|y l]]; [congruence| |exact P]. cbn [list_lines]. unfold text_line. apply Forall_inv in H as [Q _]. rewrite Q. exact P.
Qed.
Lemma BL_exdate : list_back parse_exdate date_line date_str writable_date.
Proof.
  intros l Hl H n.
  assert (P : forall m, exists c, line n m (join [44] (map date_str l)) = [c] /\ cl_key c = n /\ parse_exdate c = Ok l).
  { intros m. apply back_line.
    - destruct l as [|x l]; [congruence|]. apply join_nonempty. apply Forall_inv in H. now apply writable_reads.
    - intros c Hc _. unfold parse_exdate. rewrite Hc, split_on_join.
      + apply ocollect_Ok. clear -H. induction H; constructor; auto. now apply writable_reads.
      + destruct l; [congruence|discriminate].
      + apply Forall_map. eapply Forall_impl; [|exact H]. intros d Hd. apply date_no_comma. now apply writable_reads. }
  destruct l as [|x [|y l]]; [congruence| |exact (P [])]. exact (P (date_params x)).
Qed.
Lemma BL_freebusy : list_back parse_freebusy (plain_line period_show) period_show writable_period.
Proof.
  intros l Hl H n.
  assert (P : exists c, line n [] (join [44] (map period_show l)) = [c] /\ cl_key c = n /\ parse_freebusy c = Ok l).
  { apply back_line.
    - destruct l as [|x l]; [congruence|]. apply join_nonempty. apply Forall_inv in H. now apply writable_period_real.
    - intros c Hc _. unfold parse_freebusy. rewrite Hc, split_on_join.
      + apply ocollect_Ok. clear -H. induction H; constructor; auto. now apply (C31_period_round_trip E).
      + destruct l; [congruence|discriminate].
      + apply Forall_map. eapply Forall_impl; [|exact H]. intros p Hp. now apply writable_period_real. }
  destruct l as [|x [|y l]]; [congruence| |]; exact P.
Qed.
(** Safe is tidy. *)
Lemma S_text t : safe_text t -> tidy_text t.
Proof. intros [A B]. split; auto. apply B. Qed.
Lemma S_uri t : safe_uri t -> tidy_uri t.
Proof. intros [A B]. split; auto. apply B. Qed.
Lemma S_entry t : safe_entry t -> tidy_text t.
Proof. intros [A B]. split; [rewrite A; apply good_nil|apply B]. Qed.
Lemma S_datetime d : writable_datetime d -> real_datetime d.
Proof. destruct d as [n|u]; [|intros []]. intros (W & y & Y & R). cbn. eapply whole_wf; eauto. Qed.
Lemma S_date d : writable_date d -> real_date d.
Proof.
  destruct d as [n|[n|u]]; [| |intros []].
  - intros (y & m & dd & H & R). cbn. apply year_date_ok. unfold date_year. rewrite H. cbn [fst]. lia.
  - exact (S_datetime (Naive n)).
Qed.
Lemma S_class c : safe_class c -> tidy_class c.
Proof.
  destruct c as [| | |s]; intros H; try (apply visible_no_eol, visible_lit; reflexivity). destruct H as (_ & B & U & _).
  unfold tidy_class. assert (Sh : class_show (Custom s) = s) by exact U. now rewrite Sh.
Qed.
Lemma S_geo g : safe_geo g -> tidy_geo g.
Proof. intros [[A _] [B _]]. split; auto. Qed.
Lemma S_rs r : safe_rs r -> tidy_rs r.
Proof.
  intros ([A _] & B & C). split; auto. split; [destruct B as [->|B]; [intros []|apply B]|]. intros e He. destruct (C e He) as [->|X]; [intros []|apply X].
Qed.
Lemma S_rule r : writable_rule r -> tidy_rule r.
Proof. intros (A & _) d Hd. apply S_date. now apply A. Qed.
Lemma S_period p : writable_period p -> real_period p.
Proof. destruct p; intros [A B]; cbn; [split; now apply S_datetime|now apply S_datetime]. Qed.
Lemma S_trigger t : writable_trigger t -> real_trigger t.
Proof. destruct t; cbn; auto using S_datetime. Qed.
Lemma S_offset o : safe_offset o -> real_offset o.
Proof. intros [A _]. exact A. Qed.
End Values.
Lemma holds_mono {T} (P Q : T -> Prop) o : (forall x, P x -> Q x) -> holds P o -> holds Q o.
Proof. intros H A x Hx. auto. Qed.
Lemma one_all {T} (P Q : T -> Prop) l : (forall x, P x -> Q x) -> at_most_one P l -> Forall Q l.
Proof. intros H [->|(x & -> & A)]; repeat constructor; auto. Qed.
Lemma all_mono {T} (P Q : T -> Prop) l : (forall x, P x -> Q x) -> Forall P l -> Forall Q l.
Proof. intros H A. eapply Forall_impl; eauto. Qed.
Lemma tidy_none : tidy_ext [].
Proof. intros k l []. Qed.
