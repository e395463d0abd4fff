(** * C55, C57: extension properties after children, alarms without action. *)
From Verif Require Import Base Env Chrono Nom Types Ser Parser Derive BaseFacts NomFacts SpecLine LineFacts SpecText SerFacts PropText PropLine
  SpecCal SpecDur PropVocab PropRule PropPeriod PropList Components SpecComp DeriveFacts SpecFields PropComp SpecFile PropFile SpecRound RoundFacts FrameFacts BackFacts FieldFacts ChildFacts CalFacts AlarmFacts PropRound SpecLoss LossFacts PropLoss.

Section Env.
Context {E : Env}.
Lemma seq_stop {A} (one : str -> A -> str -> Prop) ps rest : (forall s a r, one s a r -> begins (lit "BEGIN:") s) ->
  Forall (fun p => piece one (fst p) (snd p)) ps -> not_continuation rest -> ~ begins (lit "BEGIN:") (unfold_lines rest) ->
  not_continuation (concat (map snd ps) ++ rest) /\ (ps <> [] -> begins (lit "BEGIN:") (unfold_lines (concat (map snd ps) ++ rest))) /\
  forall l r, seq_text one (unfold_lines (concat (map snd ps) ++ rest)) l r -> begins (lit "END:") r -> r = unfold_lines rest.
Proof.
  intros H1 H Hr Hb. induction H as [|[C out] ps Hp H IH]; cbn [map concat fst snd].
  - cbn [app]. split; auto. split; [congruence|]. intros l r S _. inversion S; subst; auto. exfalso. apply Hb. eauto.
  - destruct IH as (N & _ & Q). cbn [fst snd] in Hp. rewrite <- app_assoc. destruct (Hp _ N) as (N' & B & P). split; auto. split; auto.
    intros l r S Er. inversion S as [s0|s0 a r1 l0 rest0 X Y]; subst.
    + exfalso. eapply (heads (lit "BEGIN:") (lit "END:")); [reflexivity|exact B|exact Er].
    + apply P in X as [_ ->]. eauto.
Qed.
(** Lines, children, then lines again: not the text of a component. *)
Lemma lines_after {A} (one : str -> A -> str -> Prop) name ls b ps c ls2 tail : (forall s a r, one s a r -> begins (lit "BEGIN:") s) ->
  upper_text name -> reads_as b ls -> Forall (fun p => piece one (fst p) (snd p)) ps -> ps <> [] -> reads_as c ls2 -> ls2 <> [] ->
  forall t ls' t2 l r, unfold_lines (lit "BEGIN:" ++ name ++ CRLF ++ b ++ concat (map snd ps) ++ c ++ lit "END:" ++ name ++ CRLF ++ tail) = lit "BEGIN:" ++ name ++ [CR; LF] ++ t ->
    lines_text t ls' t2 -> seq_text one t2 l r -> begins (lit "END:") r -> False.
Proof.
  intros H1 Hn Hb Hp Hps Hc Hl t ls' t2 l r U L S Er.
  destruct (reads_lines c ls2 (lit "END:" ++ name ++ CRLF ++ tail) Hc (nc_end _ _)) as [Nc [Lc _]].
  assert (B2 : ~ begins (lit "BEGIN:") (unfold_lines (c ++ lit "END:" ++ name ++ CRLF ++ tail)) /\ ~ begins (lit "END:") (unfold_lines (c ++ lit "END:" ++ name ++ CRLF ++ tail))).
  { inversion Lc as [|s0 l0 r0 ls0 rest0 X Y]; subst; [congruence|]. destruct X as (X1 & X2 & _). auto. }
  destruct (seq_stop one ps _ H1 Hp Nc (proj1 B2)) as (N & D & Q).
  destruct (reads_lines b ls _ Hb N) as [N2 L2]. unfold CRLF in U at 1. rewrite begin_line in U by auto. repeat apply app_inv_head in U. subst t.
  assert (D2 : delimiter t2) by (eapply seq_head; eauto).
  destruct (lines_text_det _ _ _ _ _ D2 (or_introl (D Hps)) L L2) as [-> ->]. apply Q in S; auto. subst r. now apply (proj2 B2).
Qed.
Lemma ext_lines_nonempty n m : m <> [] -> ext_line n m <> [].
Proof.
  intros H. destruct m as [|[k l] m]; [congruence|]. unfold ext_line. rewrite line_nonempty; [discriminate|]. cbn [map fst snd].
  destruct (map _ m); cbn [join]; destruct k; discriminate.
Qed.
Lemma some_ext (x i : smap content_line) : x <> [] \/ i <> [] -> ext_line (lit "X-PROP") x ++ ext_line (lit "IANA-PROP") i <> [].
Proof.
  intros [H|H] X; apply app_eq_nil in X as [X1 X2]; [now apply (ext_lines_nonempty (lit "X-PROP")) in X1|now apply (ext_lines_nonempty (lit "IANA-PROP")) in X2].
Qed.
Theorem C55_vtimezone_extension_after_child : forall v out,
  vtimezone_tidy v -> one_each_tz v -> Forall standard_tidy (tz_standard v) -> Forall daylight_tidy (tz_daylight v) ->
  tz_standard v <> [] \/ tz_daylight v <> [] -> tz_x_prop v <> [] \/ tz_iana_prop v <> [] ->
  s_ical ser_vtimezone v = Ok out -> forall w, vtimezone_of_str out <> Ok w.
Proof.
  intros v out T [L1 L2] F1 F2 K X H w P. cbn [s_ical ser_vtimezone ser_iso] in H. apply comp_parts in H as (b & x & i & B & Hx & Hi & ->).
  apply tz_ser in B as (h & s & d & B & Hs & Hd & ->). cbn [c_xprop c_iana vtimezone_to] in *.
  destruct (vec_child ser_standard (lit "STANDARD") _ _ _ eq_refl L1 Hs) as (os & Fs & ->).
  destruct (vec_child ser_daylight (lit "DAYLIGHT") _ _ _ eq_refl L2 Hd) as (od & Fd & ->).
  destruct (pieces_of tz_part_text is_standard _ _ _ Fs) as (p1 & A1 & A2 & A3).
  { intros y o Hy Ho. rewrite Forall_forall in F1. apply standard_part. apply standard_block; auto. }
  destruct (pieces_of tz_part_text is_daylight _ _ _ Fd) as (p2 & B1 & B2 & B3).
  { intros y o Hy Ho. rewrite Forall_forall in F2. apply daylight_part. apply daylight_block; auto. }
  pose proof (fields_lines_reads _ _ _ _ tz_line_names (tz_line_ok v T) B) as R1.
  unfold vtimezone_tidy in T. destruct T as (_ & _ & _ & T1 & T2).
  pose proof (reads_app _ _ _ _ (item_reads_as _ _ _ _ _ name_ok_x (item_ext _ _ T1) Hx) (item_reads_as _ _ _ _ _ name_ok_i (item_ext _ _ T2) Hi)) as R2.
  apply C15_timezone_grammar in P as (rest & t & ls & t2 & cs & v0 & U & L & S & _).
  refine (lines_after tz_part_text (lit "VTIMEZONE") _ h (p1 ++ p2) (x ++ i) _ [] tz_part_head vtimezone_upper R1 (proj2 (Forall_app _ _ _) (conj A3 B3)) _ R2 (some_ext _ _ X) t ls t2 cs _ _ L S _).
  - intros Z. apply app_eq_nil in Z as [-> ->]. cbn [map] in *. destruct K as [K|K]; apply K; [destruct (tz_standard v)|destruct (tz_daylight v)]; auto; discriminate.
  - rewrite map_app, concat_app, A2, B2, app_nil_r, <- ?app_assoc. rewrite <- ?app_assoc in U. exact U.
  - apply (begins_app (lit "END:")).
Qed.
Theorem C55_vcalendar_extension_after_child : forall v out,
  vcalendar_tidy v -> one_each v -> Forall vevent_tidy (ca_events v) -> Forall vfreebusy_tidy (ca_freebusy v) ->
  Forall vjournal_tidy (ca_journals v) -> Forall vtodo_tidy (ca_todo v) -> Forall vtimezone_fit (ca_timezones v) ->
  ~ childless v -> ca_x_prop v <> [] \/ ca_iana_prop v <> [] ->
  s_ical ser_vcalendar v = Ok out -> forall w, vcalendar_of_str out <> Ok w.
Proof.
  intros v out T (L0 & L1 & L2 & L3 & L4 & L5) F1 F2 F3 F4 F5 K X H w P. cbn [s_ical ser_vcalendar ser_iso] in H. apply comp_parts in H as (b & x & i & B & Hx & Hi & ->).
  apply ca_ser in B as (h & xa & xe & xf & xj & xt & xz & B & Ha & He & Hf & Hj & Ht & Hz & ->). cbn [c_xprop c_iana vcalendar_to] in *.
  rewrite L0 in Ha. cbn [vec_field] in Ha. rewrite (C01_empty_value _ (ser_vec ser_valarm) (lit "ALARMS") []) in Ha by reflexivity. injection Ha as <-.
  destruct (vec_child ser_vevent (lit "VEVENT") _ _ _ eq_refl L1 He) as (oe & Ge & ->).
  destruct (pieces_of child_text is_vevent _ _ _ Ge) as (pe & Ae & Be & Ce).
  { intros y o Hy Ho. rewrite Forall_forall in F1. apply vevent_child; auto. }
  destruct (vec_child ser_vfreebusy (lit "VFREEBUSY") _ _ _ eq_refl L2 Hf) as (of & Gf & ->).
  destruct (pieces_of child_text is_vfreebusy _ _ _ Gf) as (pf & Af & Bf & Cf).
  { intros y o Hy Ho. rewrite Forall_forall in F2. apply vfreebusy_child; auto. }
  destruct (vec_child ser_vjournal (lit "VJOURNAL") _ _ _ eq_refl L3 Hj) as (oj & Gj & ->).
  destruct (pieces_of child_text is_vjournal _ _ _ Gj) as (pj & Aj & Bj & Cj).
  { intros y o Hy Ho. rewrite Forall_forall in F3. apply vjournal_child; auto. }
  destruct (vec_child ser_vtodo (lit "VTODO") _ _ _ eq_refl L4 Ht) as (ot & Gt & ->).
  destruct (pieces_of child_text is_vtodo _ _ _ Gt) as (pt & At & Bt & Ct).
  { intros y o Hy Ho. rewrite Forall_forall in F4. apply vtodo_child; auto. }
  destruct (vec_child ser_vtimezone (lit "VTIMEZONE") _ _ _ eq_refl L5 Hz) as (oz & Gz & ->).
  destruct (pieces_of child_text is_vtimezone _ _ _ Gz) as (pz & Az & Bz & Cz).
  { intros y o Hy Ho. rewrite Forall_forall in F5. apply vtimezone_child; auto. }
  pose proof (fields_lines_reads _ _ _ _ ca_line_names (ca_line_ok v T) B) as R1.
  unfold vcalendar_tidy in T. destruct T as (_ & _ & _ & _ & T1 & T2).
  pose proof (reads_app _ _ _ _ (item_reads_as _ _ _ _ _ name_ok_x (item_ext _ _ T1) Hx) (item_reads_as _ _ _ _ _ name_ok_i (item_ext _ _ T2) Hi)) as R2.
  assert (FP : Forall (fun p => piece child_text (fst p) (snd p)) (pe ++ pf ++ pj ++ pt ++ pz)) by (repeat (apply Forall_app; split); auto).
  apply C15_calendar_grammar in P as (ls & cs & rest & (t & t2 & U & L & S) & _).
  refine (lines_after child_text (lit "VCALENDAR") _ h (pe ++ pf ++ pj ++ pt ++ pz) (x ++ i) _ [] child_begin vcalendar_upper R1 FP _ R2 (some_ext _ _ X) t ls t2 cs _ _ L S _).
  - intros Z. apply K. repeat (apply app_eq_nil in Z as [Q Z]; subst). try subst pz. cbn [map] in *. unfold childless.
    split; auto. split; [destruct (ca_events v); auto; discriminate|]. split; [destruct (ca_freebusy v); auto; discriminate|]. split; [destruct (ca_journals v); auto; discriminate|].
    split; [destruct (ca_todo v); auto; discriminate|destruct (ca_timezones v); auto; discriminate].
  - rewrite !map_app, !concat_app, Be, Bf, Bj, Bt, Bz, app_nil_r, <- ?app_assoc. rewrite <- ?app_assoc in U. cbn [app] in U. exact U.
  - apply (begins_app (lit "END:")).
Qed.
(** An alarm whose action text is empty is written without ACTION line; reading it panics. *)
Theorem C57_alarm_without_action_panics : forall a out, valarm_tidy a ->
  t_text (match a with AAudio x => au_action x | ADisplay x => di_action x | AEmail x => em_action x end) = [] ->
  s_ical ser_valarm a = Ok out -> valarm_of_str out = Panic.
Proof.
  intros a out T A H. unfold valarm_of_str, p_valarm. rewrite (block_from_str _ valarm_of_lines _ _ (alarm_block a out T H)).
  assert (G : absent (lit "ACTION") (valarm_written a)).
  { apply absent_lines. destruct a as [x|x|x]; cbn [valarm_written].
    - rewrite audio_flat, (proj1 (flat_named _ _ _ (audio_grouped x) (or_introl eq_refl : In (lit "ACTION", text_line (lit "ACTION") (au_action x)) (audio_groups x)))). now apply empty_text_line.
    - rewrite display_flat, (proj1 (flat_named _ _ _ (display_grouped x) (or_introl eq_refl : In (lit "ACTION", text_line (lit "ACTION") (di_action x)) (display_groups x)))). now apply empty_text_line.
    - rewrite email_flat, (proj1 (flat_named _ _ _ (email_grouped x) (or_introl eq_refl : In (lit "ACTION", text_line (lit "ACTION") (em_action x)) (email_groups x)))). now apply empty_text_line. }
  unfold valarm_of_lines. assert (Q : find (fun l => str_eqb (cl_key l) (lit "ACTION")) (valarm_written a) = None); [|now rewrite Q].
  clear -G. induction G as [|l ls Hl G IH]; cbn [find]; auto. apply str_eqb_neq in Hl. now rewrite Hl.
Qed.
End Env.
