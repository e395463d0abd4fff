(** * Blocks in blocks: children of a timezone or a calendar. *)
From Verif Require Import Base Env Chrono Nom Types Ser Parser Derive BaseFacts NomFacts SpecLine LineFacts SpecText SerFacts PropText PropLine
  SpecCal SpecDur PropVocab PropRule PropPeriod PropList Components SpecComp DeriveFacts SpecFields PropComp SpecFile PropFile SpecRound RoundFacts FrameFacts BackFacts FieldFacts.

Lemma lines_text_det s ls r ls' r' : delimiter r -> delimiter r' -> lines_text s ls r -> lines_text s ls' r' -> ls = ls' /\ r = r'.
Proof. intros D D' A B. apply lines_parse in A; auto. apply lines_parse in B; auto. rewrite A in B. now inv B. Qed.
Lemma delim_end n r : delimiter (lit "END:" ++ n ++ r).
Proof. right. apply begins_app. Qed.

Section Pieces.
  Context {A : Type} (one : str -> A -> str -> Prop).
  Hypothesis one_begin : forall s a r, one s a r -> begins (lit "BEGIN:") s.
  (** [out] holds one item, which satisfies [C]. *)
  Definition piece (C : A -> Prop) (out : str) : Prop :=
    forall rest, not_continuation rest -> not_continuation (out ++ rest) /\ begins (lit "BEGIN:") (unfold_lines (out ++ rest)) /\
      forall a r, one (unfold_lines (out ++ rest)) a r <-> C a /\ r = unfold_lines rest.
  Lemma seq_end s l r : begins (lit "END:") s -> seq_text one s l r -> l = [] /\ r = s.
  Proof.
    intros B S. destruct S as [s|s a r1 l rest X Y]; auto. apply one_begin in X. exfalso. eapply (heads (lit "BEGIN:") (lit "END:")); [reflexivity| |]; eauto.
  Qed.
  Lemma seq_pieces ps rest : Forall (fun p => piece (fst p) (snd p)) ps -> not_continuation rest -> begins (lit "END:") (unfold_lines rest) ->
    let s := concat (map snd ps) ++ rest in
    not_continuation s /\ delimiter (unfold_lines s) /\
    forall l r, begins (lit "END:") r -> seq_text one (unfold_lines s) l r <-> Forall2 (fun p a => fst p a) ps l /\ r = unfold_lines rest.
  Proof.
    intros H Hr He. induction H as [|[C out] ps Hp H IH]; cbn [map concat fst snd].
    - cbn [app]. split; auto. split; [now right|]. intros l r Hb. split.
      + intros S. inversion S; subst.
        * split; auto.
        * exfalso. match goal with X : one _ _ _ |- _ => apply one_begin in X end. eapply heads; [|exact He|eassumption]. reflexivity.
      + intros [F ->]. inv F. constructor.
    - cbn zeta in *. cbn [fst snd] in Hp. destruct IH as (N & D & Q). rewrite <- app_assoc. destruct (Hp _ N) as (N' & B & P). split; auto. split; [now left|].
      intros l r Hb. split.
      + intros S. inversion S as [s0|s0 a r1 l0 rest0 X Y]; subst.
        * exfalso. eapply (heads (lit "BEGIN:") (lit "END:")); [reflexivity| |exact Hb]. auto.
        * apply P in X as [X1 ->]. apply Q in Y as [Y1 Y2]; auto.
      + intros [F ->]. inversion F; subst. cbn [fst] in *. econstructor; [apply P; split; [eassumption|reflexivity]|]. apply Q; auto.
  Qed.
End Pieces.

Section Env.
Context {E : Env}.
Lemma simple_piece {A} name (f : list content_line -> outcome A) read ls out : (forall ls v, f ls = Ok v <-> read ls v) -> block name ls out ->
  piece (simple_text name read) (read ls) out.
Proof.
  intros Hf H rest Hr. destruct (H rest Hr) as (N & t & U & L). split; auto. split; [rewrite U; apply begins_app|].
  intros a r. rewrite <- (component_POk name f read Hf). rewrite (block_parse name f ls) by auto.
  rewrite <- Hf. destruct (f ls) as [v|e|].
  - split; intros X; [inv X; auto|]. destruct X as [X ->]. now inv X.
  - split; intros X; [discriminate|destruct X; discriminate].
  - split; intros X; [discriminate|destruct X; discriminate].
Qed.
(** ** Events *)
Lemma event_block_parse ls out rest w r : block (lit "VEVENT") ls out -> not_continuation rest ->
  event_text (unfold_lines (out ++ rest)) w r <-> vevent_read ls w /\ r = unfold_lines rest.
Proof.
  intros H Hr. destruct (H rest Hr) as (N & t & U & L). rewrite U. unfold event_text. split.
  - intros (t' & ls' & t2 & v0 & Et & L' & S & R & V).
    assert (X : t' = t). { change (lit "BEGIN:VEVENT" ++ [CR; LF] ++ t') with (lit "BEGIN:" ++ lit "VEVENT" ++ [CR; LF] ++ t') in Et. now repeat apply app_inv_head in Et. }
    subst t'. assert (D2 : delimiter t2) by (eapply seq_head; [exact S|intros ? ? ?; apply simple_head|apply (begins_app (lit "END:"))]).
    destruct (lines_text_det t ls' t2 ls (lit "END:" ++ lit "VEVENT" ++ [CR; LF] ++ unfold_lines rest)) as [-> ->]; auto using delim_end.
    apply seq_end in S as [S1 S2]; [|intros ? ? ? (t0 & l1 & X & _); rewrite X; apply begins_app|apply begins_app].
    assert (Er : r = unfold_lines rest).
    { change (lit "END:VEVENT" ++ [CR; LF] ++ r) with (lit "END:" ++ lit "VEVENT" ++ [CR; LF] ++ r) in S2. now repeat apply app_inv_head in S2. }
    split; auto. assert (Z : ev_alarms v0 = []) by (unfold vevent_read in R; tauto). rewrite V, S1. rewrite <- Z. destruct v0; exact R.
  - intros [R ->]. exists t, ls, (lit "END:VEVENT" ++ [CR; LF] ++ unfold_lines rest), w. split; [reflexivity|]. split; [exact L|].
    assert (Z : ev_alarms w = []) by (unfold vevent_read in R; tauto). rewrite Z. split; [constructor|]. split; auto. destruct w; cbn in *. now subst.
Qed.
Lemma event_piece ls out : block (lit "VEVENT") ls out -> piece event_text (vevent_read ls) out.
Proof.
  intros H rest Hr. destruct (H rest Hr) as (N & t & U & _). split; auto. split; [rewrite U; apply begins_app|]. intros w r. now apply event_block_parse.
Qed.
(** ** A block with children *)
Lemma container {A} (one : str -> A -> str -> Prop) name ls b ps rest : (forall s a r, one s a r -> begins (lit "BEGIN:") s) ->
  upper_text name -> reads_as b ls -> Forall (fun p => piece one (fst p) (snd p)) ps -> not_continuation rest ->
  exists t t2, unfold_lines (lit "BEGIN:" ++ name ++ CRLF ++ b ++ concat (map snd ps) ++ lit "END:" ++ name ++ CRLF ++ rest) = lit "BEGIN:" ++ name ++ [CR; LF] ++ t /\
    lines_text t ls t2 /\ delimiter t2 /\
    forall l r, begins (lit "END:") r -> seq_text one t2 l r <-> Forall2 (fun C a => C a) (map fst ps) l /\ r = lit "END:" ++ name ++ [CR; LF] ++ unfold_lines rest.
Proof.
  intros H1 Hn Hb Hp Hr.
  destruct (seq_pieces one H1 ps (lit "END:" ++ name ++ [CR; LF] ++ rest) Hp (nc_end _ _)) as (N & D & Q); [rewrite end_line by auto; apply begins_app|].
  cbv zeta in *. rewrite end_line in Q by auto.
  destruct (reads_lines b ls _ Hb N) as [N2 L].
  eexists _, _. split; [unfold CRLF; apply begin_line; [exact Hn|exact N2]|]. split; [exact L|]. split; [exact D|].
  intros l r B. rewrite (Q l r B).
  assert (F : Forall2 (fun p a => fst p a) ps l <-> Forall2 (fun C a => C a) (map fst ps) l); [|now rewrite F].
  clear. revert l; induction ps as [|[C o] ps IH]; intros l; split; intros F; inversion F; subst; constructor; auto; now apply IH.
Qed.
(** A child of a given kind. *)
Lemma F2_split {X A Y} (mk : Y -> A) (R : X -> Y -> Prop) (C : X -> A -> Prop) l Cs cs : (forall x a, C x a <-> exists y, a = mk y /\ R x y) ->
  Forall2 (fun (C : A -> Prop) a => C a) (map C l ++ Cs) cs <-> exists ys cs', cs = map mk ys ++ cs' /\ Forall2 R l ys /\ Forall2 (fun (C : A -> Prop) a => C a) Cs cs'.
Proof.
  intros HC. revert cs; induction l as [|x l IH]; intros cs; cbn [map app].
  - split; [intros H; exists [], cs; auto|]. intros (ys & cs' & -> & F & H). inv F. exact H.
  - split.
    + intros H. inversion H as [|? a ? cs1 Ha Hr]; subst. apply HC in Ha as (y & -> & Ry). apply IH in Hr as (ys & cs' & -> & F & G).
      exists (y :: ys), cs'. auto.
    + intros (ys & cs' & -> & F & G). inversion F as [|? y ? ys' Ry F']; subst. cbn [map app]. constructor; [apply HC; eauto|]. apply IH. eauto.
Qed.
Lemma vec_child {T} (S : serialize T) nm n l out : s_component S = Some nm -> (length l <= 1)%nat -> vec_field S n l = Ok out ->
  exists outs, Forall2 (fun x o => s_ical S x = Ok o) l outs /\ out = concat outs.
Proof.
  intros Hc Hl H. destruct l as [|x [|y l]]; cbn [vec_field length] in *; [| |lia].
  - rewrite (C01_empty_value _ (ser_vec S) n []) in H; [|reflexivity|reflexivity]. inv H. exists []. auto.
  - unfold ser_field in H. rewrite Hc in H. destruct (s_ical S x) as [o| |] eqn:O; cbn in H; try discriminate. inv H.
    exists [out]. split; [auto|]. cbn. now rewrite app_nil_r.
Qed.
Lemma pieces_of {X A} (one : str -> A -> str -> Prop) (C : X -> A -> Prop) (w : X -> str -> Prop) l outs : Forall2 w l outs ->
  (forall x o, In x l -> w x o -> piece one (C x) o) -> exists ps, map fst ps = map C l /\ map snd ps = outs /\ Forall (fun p => piece one (fst p) (snd p)) ps.
Proof.
  induction 1 as [|x o l outs W F IH]; intros H; [exists []; auto|]. destruct IH as (ps & A1 & A2 & A3); [intros; apply H; cbn; auto|].
  exists ((C x, o) :: ps). cbn [map fst snd]. rewrite A1, A2. split; auto. split; auto. constructor; auto. cbn [fst snd]. apply H; cbn; auto.
Qed.
(** A child among others. *)
Lemma piece_kind {X A} (one : str -> X -> str -> Prop) (one' : str -> A -> str -> Prop) (mk : X -> A) h (C : X -> Prop) out :
  (forall rest, not_continuation rest -> begins h (unfold_lines (out ++ rest))) ->
  (forall s x r, one' s (mk x) r <-> one s x r) -> (forall s a r, one' s a r -> begins h s -> exists y, a = mk y) -> (forall x y, mk x = mk y -> x = y) ->
  piece one C out -> piece one' (fun a => exists y, a = mk y /\ C y) out.
Proof.
  intros Hh H1 H2 Hi P rest Hr. destruct (P rest Hr) as (N & B & Q). split; auto. split; auto. intros a r. split.
  - intros H. destruct (H2 _ _ _ H (Hh rest Hr)) as [y ->]. apply H1, Q in H as [H ->]. eauto.
  - intros [(y & -> & Hy) ->]. apply H1, Q. auto.
Qed.
Lemma block_head name ls out : block name ls out -> forall rest, not_continuation rest -> begins (lit "BEGIN:" ++ name ++ CRLF) (unfold_lines (out ++ rest)).
Proof. intros H rest Hr. destruct (H rest Hr) as (_ & t & U & _). exists t. rewrite U. unfold CRLF. now rewrite <- !app_assoc. Qed.
Lemma tz_part_head s c r : tz_part_text s c r -> begins (lit "BEGIN:") s.
Proof. destruct c; apply simple_head. Qed.
Lemma child_begin s c r : child_text s c r -> begins (lit "BEGIN:") s.
Proof. intros H. apply child_head in H as [t ->]. destruct c; unfold head_of; rewrite <- ?app_assoc; eexists; reflexivity. Qed.
Lemma standard_part ls out : block (lit "STANDARD") ls out -> piece tz_part_text (fun a => exists y, a = TStandard y /\ standard_read ls y) out.
Proof.
  intros H. eapply (piece_kind (simple_text (lit "STANDARD") standard_read)); [eapply block_head, H| | | |].
  - reflexivity.
  - intros s [y|y] r X B; [eauto|]. exfalso. destruct X as (t & l & -> & _). eapply (heads (lit "BEGIN:" ++ lit "STANDARD" ++ CRLF) (lit "BEGIN:DAYLIGHT")); [reflexivity|exact B|]. eexists. reflexivity.
  - intros x y X. now inv X.
  - eapply simple_piece; [apply C11_standard_read|exact H].
Qed.
Lemma daylight_part ls out : block (lit "DAYLIGHT") ls out -> piece tz_part_text (fun a => exists y, a = TDaylight y /\ daylight_read ls y) out.
Proof.
  intros H. eapply (piece_kind (simple_text (lit "DAYLIGHT") daylight_read)); [eapply block_head, H| | | |].
  - reflexivity.
  - intros s [y|y] r X B; [|eauto]. exfalso. destruct X as (t & l & -> & _). eapply (heads (lit "BEGIN:" ++ lit "DAYLIGHT" ++ CRLF) (lit "BEGIN:STANDARD")); [reflexivity|exact B|]. eexists. reflexivity.
  - intros x y X. now inv X.
  - eapply simple_piece; [apply C11_daylight_read|exact H].
Qed.
Lemma ext_none n out : ser_field (ser_map ser_cl) n [] = Ok out -> out = [].
Proof. rewrite (C01_empty_value _ (ser_map ser_cl) n []) by reflexivity. intros H. now inv H. Qed.
(** ** Timezones *)
Definition tz_line_fields : schema := [
  (lit "TZID", FReq ser_text parse_text);
  (lit "LAST-MODIFIED", FOpt ser_datetime parse_datetime);
  (lit "TZURL", FOpt ser_uri parse_uri)].
Lemma tz_line_names : Forall (fun nf => name_ok (fst nf)) tz_line_fields.
Proof. apply names_ok_iff. vm_compute. reflexivity. Qed.
Lemma tz_line_ok v : vtimezone_tidy v -> fields_lines tz_line_fields (tz_tzid v, (tz_last_modified v, (tz_tzurl v, tt))) (vtimezone_body v).
Proof.
  unfold vtimezone_tidy, vtimezone_body, tz_line_fields. intros (H1 & H2 & H3 & _).
  eapply fields_cons; [reflexivity|cbn [fst]; eapply fl_req; [apply L_text|assumption]|cbn [snd]].
  eapply fields_cons; [reflexivity|cbn [fst]; eapply fl_opt'; [apply L_datetime|assumption]|cbn [snd]].
  eapply fields_cons; [reflexivity|cbn [fst]; eapply fl_opt'; [apply L_uri|assumption]|cbn [snd]]. reflexivity.
Qed.
Lemma tz_ser v body : ser_fields vtimezone_schema (c_fields (vtimezone_to v)) = Ok body ->
  exists h x y, ser_fields tz_line_fields (tz_tzid v, (tz_last_modified v, (tz_tzurl v, tt))) = Ok h /\
    vec_field ser_standard (lit "STANDARD") (tz_standard v) = Ok x /\ vec_field ser_daylight (lit "DAYLIGHT") (tz_daylight v) = Ok y /\ body = h ++ x ++ y.
Proof.
  unfold vtimezone_schema, tz_line_fields, vtimezone_to. cbn [c_fields ser_fields fst snd].
  destruct (f_ser (lit "TZID") _ _) as [a| |]; cbn [obind]; try discriminate.
  destruct (f_ser (lit "LAST-MODIFIED") _ _) as [b| |]; cbn [obind]; try discriminate.
  destruct (f_ser (lit "TZURL") _ _) as [c| |]; cbn [obind]; try discriminate.
  cbn [f_ser].
  destruct (vec_field ser_standard _ _) as [x| |]; cbn [obind]; try discriminate.
  destruct (vec_field ser_daylight _ _) as [y| |]; cbn [obind]; try discriminate.
  intros H. inv H. exists (a ++ b ++ c ++ []), x, y. rewrite ?app_nil_r, <- ?app_assoc. auto.
Qed.
(** The text of a component whose children, if any, come last. *)
Lemma comp_parts name s (c : comp s) out : comp_ical name c = Ok out -> exists b x i,
  ser_fields s (c_fields c) = Ok b /\ ser_field (ser_map ser_cl) (lit "X-PROP") (c_xprop c) = Ok x /\
  ser_field (ser_map ser_cl) (lit "IANA-PROP") (c_iana c) = Ok i /\ out = lit "BEGIN:" ++ name ++ CRLF ++ b ++ x ++ i ++ lit "END:" ++ name ++ CRLF.
Proof.
  unfold comp_ical. destruct (ser_fields s (c_fields c)) as [b|e|]; cbn [obind]; try discriminate.
  destruct (ser_field (ser_map ser_cl) (lit "X-PROP") (c_xprop c)) as [x|e|]; cbn [obind]; try discriminate.
  destruct (ser_field (ser_map ser_cl) (lit "IANA-PROP") (c_iana c)) as [i|e|]; cbn [obind]; try discriminate.
  intros H. inv H. exists b, x, i. auto.
Qed.
Definition is_standard (v : standard) (a : tz_part) := exists y, a = TStandard y /\ standard_read (standard_written v) y.
Definition is_daylight (v : daylight) (a : tz_part) := exists y, a = TDaylight y /\ daylight_read (daylight_written v) y.
Lemma timezone_parts v out : vtimezone_fit v -> s_ical ser_vtimezone v = Ok out ->
  exists b ps, out = lit "BEGIN:" ++ lit "VTIMEZONE" ++ CRLF ++ b ++ concat (map snd ps) ++ lit "END:" ++ lit "VTIMEZONE" ++ CRLF /\
    reads_as b (vtimezone_written v) /\ Forall (fun p => piece tz_part_text (fst p) (snd p)) ps /\
    map fst ps = map is_standard (tz_standard v) ++ map is_daylight (tz_daylight v).
Proof.
  intros (T & [L1 L2] & F1 & F2 & X) H. cbn [s_ical ser_vtimezone ser_iso] in H. apply comp_parts in H as (b & x & i & B & Hx & Hi & ->).
  apply tz_ser in B as (h & s & d & B & Hs & Hd & ->). cbn [c_xprop c_iana vtimezone_to] in *.
  destruct (vec_child ser_standard (lit "STANDARD") _ _ _ eq_refl L1 Hs) as (os & Fs & ->).
  destruct (vec_child ser_daylight (lit "DAYLIGHT") _ _ _ eq_refl L2 Hd) as (od & Fd & ->).
  destruct (pieces_of tz_part_text is_standard _ _ _ Fs) as (p1 & A1 & A2 & A3).
  { intros y o Hy Ho. rewrite Forall_forall in F1. apply standard_part. apply standard_block; auto. }
  destruct (pieces_of tz_part_text is_daylight _ _ _ Fd) as (p2 & B1 & B2 & B3).
  { intros y o Hy Ho. rewrite Forall_forall in F2. apply daylight_part. apply daylight_block; auto. }
  exists (h ++ x ++ i), (p1 ++ p2). rewrite !map_app, A1, A2, B1, B2, concat_app. split; [|split; [|split; [apply Forall_app; auto|auto]]].
  - destruct X as [[C1 C2]|[X1 X2]].
    + rewrite C1 in Fs. rewrite C2 in Fd. assert (Es : os = []) by (now inversion Fs). assert (Ed : od = []) by (now inversion Fd). rewrite Es, Ed. cbn [concat app]. rewrite ?app_nil_r. now rewrite <- ?app_assoc.
    + rewrite X1 in Hx. rewrite X2 in Hi. apply ext_none in Hx, Hi. subst x i. cbn [app]. rewrite ?app_nil_r. now rewrite <- ?app_assoc.
  - rewrite <- vtimezone_body_eq. apply reads_app; [eapply fields_lines_reads; [apply tz_line_names|apply tz_line_ok, T|exact B]|].
    unfold vtimezone_tidy in T. destruct T as (_ & _ & _ & T1 & T2). apply reads_app.
    + eapply item_reads_as; [apply name_ok_x|apply item_ext, T1|exact Hx].
    + eapply item_reads_as; [apply name_ok_i|apply item_ext, T2|exact Hi].
Qed.
Lemma tz_children S D : flat_map (fun c => match c with TStandard x => [x] | _ => [] end) (map TStandard S ++ map TDaylight D) = S /\
  flat_map (fun c => match c with TDaylight x => [x] | _ => [] end) (map TStandard S ++ map TDaylight D) = D.
Proof.
  rewrite !flat_map_app. split.
  - replace (flat_map _ (map TDaylight D)) with (@nil standard) by (induction D; auto). rewrite app_nil_r. induction S; cbn; congruence.
  - replace (flat_map _ (map TStandard S)) with (@nil daylight) by (induction S; auto). cbn [app]. induction D; cbn; congruence.
Qed.
Lemma timezone_piece v out : vtimezone_fit v -> s_ical ser_vtimezone v = Ok out ->
  (forall rest, not_continuation rest -> begins (lit "BEGIN:VTIMEZONE" ++ CRLF) (unfold_lines (out ++ rest))) /\ piece timezone_text (vtimezone_back v) out.
Proof.
  intros F H. destruct (timezone_parts v out F H) as (b & ps & -> & Hb & Hp & Hf).
  assert (K : forall rest, not_continuation rest -> exists t t2,
    unfold_lines ((lit "BEGIN:" ++ lit "VTIMEZONE" ++ CRLF ++ b ++ concat (map snd ps) ++ lit "END:" ++ lit "VTIMEZONE" ++ CRLF) ++ rest) = lit "BEGIN:" ++ lit "VTIMEZONE" ++ [CR; LF] ++ t /\
    lines_text t (vtimezone_written v) t2 /\ delimiter t2 /\
    forall l r, begins (lit "END:") r -> seq_text tz_part_text t2 l r <-> Forall2 (fun C a => C a) (map fst ps) l /\ r = lit "END:" ++ lit "VTIMEZONE" ++ [CR; LF] ++ unfold_lines rest).
  { intros rest Hr. rewrite <- !app_assoc. apply (container tz_part_text); auto; [apply tz_part_head|apply vtimezone_upper]. }
  split.
  - intros rest Hr. destruct (K rest Hr) as (t & t2 & U & _). rewrite U. exists t. reflexivity.
  - intros rest Hr. destruct (K rest Hr) as (t & t2 & U & L & D & Q). split; [rewrite <- !app_assoc; apply nc_begin|]. rewrite U. split; [apply begins_app|].
    rewrite Hf in Q. intros w r. unfold timezone_text, vtimezone_back. split.
    + intros (t' & ls' & t2' & cs & v0 & Et & L' & S & R & V & W1 & W2).
      assert (X : t' = t). { change (lit "BEGIN:VTIMEZONE" ++ [CR; LF] ++ t') with (lit "BEGIN:" ++ lit "VTIMEZONE" ++ [CR; LF] ++ t') in Et. now repeat apply app_inv_head in Et. }
      subst t'. assert (D2 : delimiter t2') by (eapply seq_head; [exact S|apply tz_part_head|apply (begins_app (lit "END:"))]).
      destruct (lines_text_det _ _ _ _ _ D2 D L' L) as [-> ->].
      apply Q in S as [S Er]; [|apply (begins_app (lit "END:"))].
      assert (r = unfold_lines rest). { change (lit "END:VTIMEZONE" ++ [CR; LF] ++ r) with (lit "END:" ++ lit "VTIMEZONE" ++ [CR; LF] ++ r) in Er. now repeat apply app_inv_head in Er. }
      split; auto. clear Er.
      rewrite (F2_split TStandard (fun a b => standard_read (standard_written a) b) is_standard) in S by reflexivity. destruct S as (ss & cs' & -> & S1 & S2).
      rewrite <- (app_nil_r (map is_daylight _)) in S2.
      rewrite (F2_split TDaylight (fun a b => daylight_read (daylight_written a) b) is_daylight) in S2 by reflexivity. destruct S2 as (ds & cs2 & -> & S2 & S3).
      inversion S3; subst. rewrite app_nil_r in *. destruct (tz_children ss ds) as [E1 E2]. rewrite E1 in W1. rewrite E2 in W2. rewrite W1, W2.
      split; [|split; auto]. rewrite V. assert (Z : tz_standard v0 = [] /\ tz_daylight v0 = []) by (unfold vtimezone_read in R; tauto).
      destruct Z as [Z1 Z2]. unfold set_tz_standard, set_tz_daylight. cbn. rewrite <- Z1 at 1. rewrite <- Z2. destruct v0. cbn in *. subst. exact R.
    + intros [(R & S1 & S2) ->].
      exists t, (vtimezone_written v), t2, (map TStandard (tz_standard w) ++ map TDaylight (tz_daylight w)), (set_tz_daylight (set_tz_standard w []) []).
      destruct (tz_children (tz_standard w) (tz_daylight w)) as [E1 E2]. split; auto. split; auto. split; [|split; [auto|split; [destruct w; reflexivity|split; congruence]]].
      apply Q; [apply (begins_app (lit "END:"))|]. split; [|reflexivity].
      apply (F2_split TStandard (fun a b => standard_read (standard_written a) b) is_standard); [reflexivity|]. eexists _, _. split; [reflexivity|]. split; auto.
      rewrite <- (app_nil_r (map is_daylight _)). apply (F2_split TDaylight (fun a b => daylight_read (daylight_written a) b) is_daylight); [reflexivity|].
      exists (tz_daylight w), []. rewrite app_nil_r. auto.
Qed.
End Env.
