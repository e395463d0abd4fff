(** * The text of a calendar, children included. *)
From Verif Require Import Base Env Chrono Nom Types Ser Parser Derive BaseFacts NomFacts SpecLine LineFacts SpecText SerFacts PropText PropLine
  SpecCal SpecDur PropVocab PropRule PropPeriod PropList Components SpecComp DeriveFacts SpecFields PropComp SpecFile PropFile SpecRound RoundFacts FrameFacts BackFacts FieldFacts ChildFacts.
Section Env.
Context {E : Env}.
Lemma child_kind s a r h : child_text s a r -> begins h s -> distinct_heads h (head_of a) = true -> False.
Proof. intros H B D. eapply heads; [exact D|exact B|]. eapply child_head; eauto. Qed.

Definition is_vevent (v : vevent) (a : component) := exists y, a = CEvent y /\ vevent_read (vevent_written v) y.
Lemma vevent_child v out : vevent_tidy v -> s_ical ser_vevent v = Ok out -> piece child_text (is_vevent v) out.
Proof.
  intros T H. pose proof (vevent_block v out T H) as B. pose proof (block_head _ _ _ B) as Hh. pose proof (event_piece _ _ B) as P.
  eapply (piece_kind event_text child_text CEvent); [exact Hh| | | |exact P].
  - reflexivity.
  - intros s a r X G. destruct a; eauto; exfalso; eapply child_kind; eauto; reflexivity.
  - intros y z X. now inv X.
Qed.
Definition is_vfreebusy (v : vfreebusy) (a : component) := exists y, a = CFreebusy y /\ vfreebusy_read (vfreebusy_written v) y.
Lemma vfreebusy_child v out : vfreebusy_tidy v -> s_ical ser_vfreebusy v = Ok out -> piece child_text (is_vfreebusy v) out.
Proof.
  intros T H. pose proof (vfreebusy_block v out T H) as B. pose proof (block_head _ _ _ B) as Hh. pose proof (simple_piece _ _ _ _ _ C11_vfreebusy_read B) as P.
  eapply (piece_kind (simple_text (lit "VFREEBUSY") vfreebusy_read) child_text CFreebusy); [exact Hh| | | |exact P].
  - reflexivity.
  - intros s a r X G. destruct a; eauto; exfalso; eapply child_kind; eauto; reflexivity.
  - intros y z X. now inv X.
Qed.
Definition is_vjournal (v : vjournal) (a : component) := exists y, a = CJournal y /\ vjournal_read (vjournal_written v) y.
Lemma vjournal_child v out : vjournal_tidy v -> s_ical ser_vjournal v = Ok out -> piece child_text (is_vjournal v) out.
Proof.
  intros T H. pose proof (vjournal_block v out T H) as B. pose proof (block_head _ _ _ B) as Hh. pose proof (simple_piece _ _ _ _ _ C11_vjournal_read B) as P.
  eapply (piece_kind (simple_text (lit "VJOURNAL") vjournal_read) child_text CJournal); [exact Hh| | | |exact P].
  - reflexivity.
  - intros s a r X G. destruct a; eauto; exfalso; eapply child_kind; eauto; reflexivity.
  - intros y z X. now inv X.
Qed.
Definition is_vtodo (v : vtodo) (a : component) := exists y, a = CTodo y /\ vtodo_read (vtodo_written v) y.
Lemma vtodo_child v out : vtodo_tidy v -> s_ical ser_vtodo v = Ok out -> piece child_text (is_vtodo v) out.
Proof.
  intros T H. pose proof (vtodo_block v out T H) as B. pose proof (block_head _ _ _ B) as Hh. pose proof (simple_piece _ _ _ _ _ C11_vtodo_read B) as P.
  eapply (piece_kind (simple_text (lit "VTODO") vtodo_read) child_text CTodo); [exact Hh| | | |exact P].
  - reflexivity.
  - intros s a r X G. destruct a; eauto; exfalso; eapply child_kind; eauto; reflexivity.
  - intros y z X. now inv X.
Qed.
Definition is_vtimezone (v : vtimezone) (a : component) := exists y, a = CTimezone y /\ vtimezone_back v y.
Lemma vtimezone_child v out : vtimezone_fit v -> s_ical ser_vtimezone v = Ok out -> piece child_text (is_vtimezone v) out.
Proof.
  intros T H. destruct (timezone_piece v out T H) as [Hh P].
  eapply (piece_kind timezone_text child_text CTimezone); [exact Hh| | | |exact P].
  - reflexivity.
  - intros s a r X G. destruct a; eauto; exfalso; eapply child_kind; eauto; reflexivity.
  - intros y z X. now inv X.
Qed.
Definition ca_line_fields : schema := [
  (lit "PRODID", FReq ser_text parse_text);
  (lit "VERSION", FReq ser_text parse_text);
  (lit "CALSCALE", FOpt ser_text parse_text);
  (lit "METHOD", FOpt ser_text parse_text)].
Lemma ca_line_names : Forall (fun nf => name_ok (fst nf)) ca_line_fields.
Proof. apply names_ok_iff. vm_compute. reflexivity. Qed.
Lemma ca_line_ok v : vcalendar_tidy v -> fields_lines ca_line_fields (ca_prodid v, (ca_version v, (ca_calscale v, (ca_method v, tt)))) (vcalendar_body v).
Proof.
  unfold vcalendar_tidy, vcalendar_body, ca_line_fields. intros (H1 & H2 & H3 & H4 & _).
  eapply fields_cons; [reflexivity|cbn [fst]; eapply fl_req; [apply L_text|assumption]|cbn [snd]].
  eapply fields_cons; [reflexivity|cbn [fst]; eapply fl_req; [apply L_text|assumption]|cbn [snd]].
  eapply fields_cons; [reflexivity|cbn [fst]; eapply fl_opt'; [apply L_text|assumption]|cbn [snd]].
  eapply fields_cons; [reflexivity|cbn [fst]; eapply fl_opt'; [apply L_text|assumption]|cbn [snd]]. reflexivity.
Qed.
Lemma ca_ser v body : ser_fields vcalendar_schema (c_fields (vcalendar_to v)) = Ok body ->
  exists h xa xe xf xj xt xz, ser_fields ca_line_fields (ca_prodid v, (ca_version v, (ca_calscale v, (ca_method v, tt)))) = Ok h /\
    vec_field ser_valarm (lit "ALARMS") (ca_alarms v) = Ok xa /\ vec_field ser_vevent (lit "EVENTS") (ca_events v) = Ok xe /\
    vec_field ser_vfreebusy (lit "FREEBUSY") (ca_freebusy v) = Ok xf /\ vec_field ser_vjournal (lit "JOURNALS") (ca_journals v) = Ok xj /\
    vec_field ser_vtodo (lit "TODO") (ca_todo v) = Ok xt /\ vec_field ser_vtimezone (lit "TIMEZONES") (ca_timezones v) = Ok xz /\
    body = h ++ xa ++ xe ++ xf ++ xj ++ xt ++ xz.
Proof.
  unfold vcalendar_schema, ca_line_fields, vcalendar_to. cbn [c_fields ser_fields fst snd].
  destruct (f_ser (lit "PRODID") _ _) as [a| |]; cbn [obind]; try discriminate.
  destruct (f_ser (lit "VERSION") _ _) as [b| |]; cbn [obind]; try discriminate.
  destruct (f_ser (lit "CALSCALE") _ _) as [c| |]; cbn [obind]; try discriminate.
  destruct (f_ser (lit "METHOD") _ _) as [d| |]; cbn [obind]; try discriminate.
  cbn [f_ser].
  destruct (vec_field ser_valarm _ _) as [xa| |]; cbn [obind]; try discriminate.
  destruct (vec_field ser_vevent _ _) as [xe| |]; cbn [obind]; try discriminate.
  destruct (vec_field ser_vfreebusy _ _) as [xf| |]; cbn [obind]; try discriminate.
  destruct (vec_field ser_vjournal _ _) as [xj| |]; cbn [obind]; try discriminate.
  destruct (vec_field ser_vtodo _ _) as [xt| |]; cbn [obind]; try discriminate.
  destruct (vec_field ser_vtimezone _ _) as [xz| |]; cbn [obind]; try discriminate.
  intros H. inv H. exists (a ++ b ++ c ++ d ++ []), xa, xe, xf, xj, xt, xz. rewrite ?app_nil_r, <- ?app_assoc. auto 10.
Qed.
Definition children_of (v : vcalendar) : list (component -> Prop) :=
  map is_vevent (ca_events v) ++ map is_vfreebusy (ca_freebusy v) ++ map is_vjournal (ca_journals v) ++ map is_vtodo (ca_todo v) ++ map is_vtimezone (ca_timezones v) ++ [].
Lemma calendar_parts v out : vcalendar_fit v -> s_ical ser_vcalendar v = Ok out ->
  exists b ps, out = lit "BEGIN:" ++ lit "VCALENDAR" ++ CRLF ++ b ++ concat (map snd ps) ++ lit "END:" ++ lit "VCALENDAR" ++ CRLF /\
    reads_as b (vcalendar_written v) /\ Forall (fun p => piece child_text (fst p) (snd p)) ps /\ map fst ps = children_of v.
Proof.
  intros (T & (L0 & L1 & L2 & L3 & L4 & L5) & F1 & F2 & F3 & F4 & F5 & X) H. cbn [s_ical ser_vcalendar ser_iso] in H. apply comp_parts in H as (b & x & i & B & Hx & Hi & ->).
  apply ca_ser in B as (h & xa & xe & xf & xj & xt & xz & B & Ha & He & Hf & Hj & Ht & Hz & ->). cbn [c_xprop c_iana vcalendar_to] in *.
  rewrite L0 in Ha. cbn [vec_field] in Ha. rewrite (C01_empty_value _ (ser_vec ser_valarm) (lit "ALARMS") []) in Ha by reflexivity. injection Ha as <-.
  destruct (vec_child ser_vevent (lit "VEVENT") _ _ _ eq_refl L1 He) as (oe & Ge & ->).
  destruct (pieces_of child_text is_vevent _ _ _ Ge) as (pe & Ae & Be & Ce).
  { intros y o Hy Ho. rewrite Forall_forall in F1. apply vevent_child; auto. }
  destruct (vec_child ser_vfreebusy (lit "VFREEBUSY") _ _ _ eq_refl L2 Hf) as (of & Gf & ->).
  destruct (pieces_of child_text is_vfreebusy _ _ _ Gf) as (pf & Af & Bf & Cf).
  { intros y o Hy Ho. rewrite Forall_forall in F2. apply vfreebusy_child; auto. }
  destruct (vec_child ser_vjournal (lit "VJOURNAL") _ _ _ eq_refl L3 Hj) as (oj & Gj & ->).
  destruct (pieces_of child_text is_vjournal _ _ _ Gj) as (pj & Aj & Bj & Cj).
  { intros y o Hy Ho. rewrite Forall_forall in F3. apply vjournal_child; auto. }
  destruct (vec_child ser_vtodo (lit "VTODO") _ _ _ eq_refl L4 Ht) as (ot & Gt & ->).
  destruct (pieces_of child_text is_vtodo _ _ _ Gt) as (pt & At & Bt & Ct).
  { intros y o Hy Ho. rewrite Forall_forall in F4. apply vtodo_child; auto. }
  destruct (vec_child ser_vtimezone (lit "VTIMEZONE") _ _ _ eq_refl L5 Hz) as (oz & Gz & ->).
  destruct (pieces_of child_text is_vtimezone _ _ _ Gz) as (pz & Az & Bz & Cz).
  { intros y o Hy Ho. rewrite Forall_forall in F5. apply vtimezone_child; auto. }
  exists (h ++ x ++ i), (pe ++ pf ++ pj ++ pt ++ pz). rewrite !map_app, !concat_app, Ae, Af, Aj, At, Az, Be, Bf, Bj, Bt, Bz.
  split; [|split; [|split; [repeat (apply Forall_app; split); auto|unfold children_of; now rewrite app_nil_r]]].
  - destruct X as [(_ & C1 & C2 & C3 & C4 & C5)|[X1 X2]].
    + rewrite C1 in Ge. rewrite C2 in Gf. rewrite C3 in Gj. rewrite C4 in Gt. rewrite C5 in Gz.
      assert (oe = [] /\ of = [] /\ oj = [] /\ ot = [] /\ oz = []) as (-> & -> & -> & -> & ->).
      { clear -Ge Gf Gj Gt Gz. inversion Ge; inversion Gf; inversion Gj; inversion Gt; inversion Gz; auto. }
      cbn [concat app]. rewrite ?app_nil_r. now rewrite <- ?app_assoc.
    + rewrite X1 in Hx. rewrite X2 in Hi. apply ext_none in Hx, Hi. subst x i. cbn [app]. rewrite ?app_nil_r. now rewrite <- ?app_assoc.
  - rewrite <- vcalendar_body_eq. apply reads_app; [eapply fields_lines_reads; [apply ca_line_names|apply ca_line_ok, T|exact B]|].
    unfold vcalendar_tidy in T. destruct T as (_ & _ & _ & _ & T1 & T2). apply reads_app.
    + eapply item_reads_as; [apply name_ok_x|apply item_ext, T1|exact Hx].
    + eapply item_reads_as; [apply name_ok_i|apply item_ext, T2|exact Hi].
Qed.
Lemma fm_same {X A} (mk : X -> A) (sel : A -> list X) l : (forall x, sel (mk x) = [x]) -> flat_map sel (map mk l) = l.
Proof. intros H. induction l as [|x l IH]; cbn; auto. now rewrite H, IH. Qed.
Lemma fm_none {X Y A} (mk : X -> A) (sel : A -> list Y) l : (forall x, sel (mk x) = []) -> flat_map sel (map mk l) = [].
Proof. intros H. induction l as [|x l IH]; cbn; auto. now rewrite H, IH. Qed.
Definition kids es fs js ts zs := map CEvent es ++ map CFreebusy fs ++ map CJournal js ++ map CTodo ts ++ map CTimezone zs ++ [].
Lemma kids_sorted es fs js ts zs : let cs := kids es fs js ts zs in
  alarms_of cs = [] /\ events_of cs = es /\ freebusy_of cs = fs /\ journals_of cs = js /\ timezones_of cs = zs /\ todos_of cs = ts.
Proof.
  unfold kids, alarms_of, events_of, freebusy_of, journals_of, timezones_of, todos_of. cbv zeta.
  assert (G : forall X (sel : component -> list X), flat_map sel (map CEvent es ++ map CFreebusy fs ++ map CJournal js ++ map CTodo ts ++ map CTimezone zs ++ []) =
    flat_map sel (map CEvent es) ++ flat_map sel (map CFreebusy fs) ++ flat_map sel (map CJournal js) ++ flat_map sel (map CTodo ts) ++ flat_map sel (map CTimezone zs)).
  { intros X sel. rewrite !flat_map_app. cbn [flat_map]. now rewrite app_nil_r. }
  rewrite !G.
  split; [rewrite (fm_none CEvent), (fm_none CFreebusy), (fm_none CJournal), (fm_none CTodo), (fm_none CTimezone); reflexivity|].
  split; [rewrite (fm_same CEvent), (fm_none CFreebusy), (fm_none CJournal), (fm_none CTodo), (fm_none CTimezone) by reflexivity; cbn [app]; now rewrite ?app_nil_r|].
  split; [rewrite (fm_none CEvent), (fm_same CFreebusy), (fm_none CJournal), (fm_none CTodo), (fm_none CTimezone) by reflexivity; cbn [app]; now rewrite ?app_nil_r|].
  split; [rewrite (fm_none CEvent), (fm_none CFreebusy), (fm_same CJournal), (fm_none CTodo), (fm_none CTimezone) by reflexivity; cbn [app]; now rewrite ?app_nil_r|].
  split; [rewrite (fm_none CEvent), (fm_none CFreebusy), (fm_none CJournal), (fm_none CTodo), (fm_same CTimezone) by reflexivity; cbn [app]; now rewrite ?app_nil_r|].
  rewrite (fm_none CEvent), (fm_none CFreebusy), (fm_none CJournal), (fm_same CTodo), (fm_none CTimezone) by reflexivity; cbn [app]; now rewrite ?app_nil_r.
Qed.
Lemma children_split v cs : Forall2 (fun (C : component -> Prop) a => C a) (children_of v) cs <->
  exists es fs js ts zs, cs = kids es fs js ts zs /\
  Forall2 (fun a b => vevent_read (vevent_written a) b) (ca_events v) es /\
  Forall2 (fun a b => vfreebusy_read (vfreebusy_written a) b) (ca_freebusy v) fs /\
  Forall2 (fun a b => vjournal_read (vjournal_written a) b) (ca_journals v) js /\
  Forall2 (fun a b => vtodo_read (vtodo_written a) b) (ca_todo v) ts /\
  Forall2 vtimezone_back (ca_timezones v) zs.
Proof.
  unfold children_of, kids. split.
  - intros H.
    apply (F2_split CEvent (fun a b => vevent_read (vevent_written a) b)) in H as (es & c1 & -> & He & H); [|reflexivity].
    apply (F2_split CFreebusy (fun a b => vfreebusy_read (vfreebusy_written a) b)) in H as (fs & c2 & -> & Hf & H); [|reflexivity].
    apply (F2_split CJournal (fun a b => vjournal_read (vjournal_written a) b)) in H as (js & c3 & -> & Hj & H); [|reflexivity].
    apply (F2_split CTodo (fun a b => vtodo_read (vtodo_written a) b)) in H as (ts & c4 & -> & Ht & H); [|reflexivity].
    apply (F2_split CTimezone vtimezone_back) in H as (zs & c5 & -> & Hz & H); [|reflexivity].
    inversion H; subst. exists es, fs, js, ts, zs. auto 10.
  - intros (es & fs & js & ts & zs & -> & He & Hf & Hj & Ht & Hz).
    apply (F2_split CEvent (fun a b => vevent_read (vevent_written a) b)); [reflexivity|]. eexists _, _. split; [reflexivity|]. split; auto.
    apply (F2_split CFreebusy (fun a b => vfreebusy_read (vfreebusy_written a) b)); [reflexivity|]. eexists _, _. split; [reflexivity|]. split; auto.
    apply (F2_split CJournal (fun a b => vjournal_read (vjournal_written a) b)); [reflexivity|]. eexists _, _. split; [reflexivity|]. split; auto.
    apply (F2_split CTodo (fun a b => vtodo_read (vtodo_written a) b)); [reflexivity|]. eexists _, _. split; [reflexivity|]. split; auto.
    apply (F2_split CTimezone vtimezone_back); [reflexivity|]. eexists _, _. split; [reflexivity|]. split; auto.
Qed.
Lemma calendar_back_iff v out : vcalendar_fit v -> s_ical ser_vcalendar v = Ok out -> forall w, vcalendar_of_str out = Ok w <-> vcalendar_back v w.
Proof.
  intros F H w. destruct (calendar_parts v out F H) as (b & ps & -> & Hb & Hp & Hf).
  destruct (container child_text (lit "VCALENDAR") (vcalendar_written v) b ps [] child_begin vcalendar_upper Hb Hp nc_nil) as (t & t2 & U & L & D & Q).
  rewrite C15_calendar_grammar. rewrite Hf in Q. rewrite ?app_nil_r in U. rewrite U. unfold calendar_text, vcalendar_back. split.
  - intros (ls & cs & rest & (t' & t2' & Et & L' & S) & W1 & W2 & W3 & W4 & W5 & W6 & v0 & R & Q1 & Q2 & Q3 & Q4 & Q5 & Q6).
    assert (X : t' = t). { change (lit "BEGIN:VCALENDAR" ++ [CR; LF] ++ t') with (lit "BEGIN:" ++ lit "VCALENDAR" ++ [CR; LF] ++ t') in Et. now repeat apply app_inv_head in Et. }
    subst t'. assert (D2 : delimiter t2') by (eapply seq_head; [exact S|apply child_begin|apply (begins_app (lit "END:"))]).
    destruct (lines_text_det _ _ _ _ _ D2 D L' L) as [-> ->].
    apply Q in S as [S _]; [|apply (begins_app (lit "END:"))]. apply children_split in S as (es & fs & js & ts & zs & -> & He & Hf' & Hj & Ht & Hz).
    destruct (kids_sorted es fs js ts zs) as (E0 & E1 & E2 & E3 & E4 & E5). rewrite W1, W2, W3, W4, W5, W6, E0, E1, E2, E3, E4, E5.
    split; [|auto 8]. rewrite Q1, Q2, Q3, Q4, Q5, Q6.
    assert (Z : ca_alarms v0 = [] /\ ca_events v0 = [] /\ ca_freebusy v0 = [] /\ ca_journals v0 = [] /\ ca_todo v0 = [] /\ ca_timezones v0 = []) by (unfold vcalendar_read in R; tauto).
    destruct Z as (Z1 & Z2 & Z3 & Z4 & Z5 & Z6). destruct v0. cbn in *. subst. exact R.
  - intros (R & W1 & He & Hf' & Hj & Ht & Hz).
    destruct (kids_sorted (ca_events w) (ca_freebusy w) (ca_journals w) (ca_todo w) (ca_timezones w)) as (E0 & E1 & E2 & E3 & E4 & E5).
    exists (vcalendar_written v), (kids (ca_events w) (ca_freebusy w) (ca_journals w) (ca_todo w) (ca_timezones w)), (CRLF ++ []). split.
    + exists t, t2. split; [reflexivity|]. split; [exact L|]. apply Q; [apply (begins_app (lit "END:"))|]. split; [|reflexivity].
      apply children_split. exists (ca_events w), (ca_freebusy w), (ca_journals w), (ca_todo w), (ca_timezones w). split; [reflexivity|]. repeat (split; [assumption|]). assumption.
    + unfold calendar_holds. rewrite W1, E0, E1, E2, E3, E4, E5. do 6 (split; [auto|]). eexists. split; [exact R|]. cbn. auto 8.
Qed.
(** ** Safe timezones and calendars read back as they were *)
Lemma tz_safe_tidy v : vtimezone_safe v -> vtimezone_fit v.
Proof.
  intros (A1 & A2 & A3 & A4 & A5 & A6 & A7 & A8). unfold vtimezone_fit, vtimezone_tidy. rewrite A7, A8.
  split; [split; [now apply S_text|split; [eapply holds_mono; [apply S_datetime|auto]|split; [eapply holds_mono; [apply S_uri|auto]|split; apply tidy_none]]]|].
  split; auto. split; [eapply all_mono; [apply standard_safe_tidy|auto]|]. split; [eapply all_mono; [apply daylight_safe_tidy|auto]|]. now right.
Qed.
Lemma F2_same {X} (R : X -> X -> Prop) (P : X -> Prop) l : (forall x, P x -> R x x) -> Forall P l -> Forall2 R l l.
Proof. intros H. induction 1; constructor; auto. Qed.
Lemma tz_fields_back v : vtimezone_safe v -> vtimezone_read (vtimezone_written v) (set_tz_daylight (set_tz_standard v []) []).
Proof.
  intros (A1 & A2 & A3 & A4 & A5 & A6 & A7 & A8). apply C11_vtimezone_read. unfold vtimezone_of_lines.
  rewrite (comp_back vtimezone_schema (vtimezone_to (set_tz_daylight (set_tz_standard v []) []))); [unfold omap, obind; f_equal; apply vtimezone_of_to|apply vtimezone_nodup| |exact A7|exact A8].
  rewrite <- vtimezone_body_eq, A7, A8. change (ext_line (lit "X-PROP") []) with (@nil content_line). change (ext_line (lit "IANA-PROP") []) with (@nil content_line). rewrite !app_nil_r.
  unfold vtimezone_to, vtimezone_schema, vtimezone_body, set_tz_daylight, set_tz_standard. cbn [c_fields tz_tzid tz_last_modified tz_tzurl tz_standard tz_daylight].
  eapply back_cons; [reflexivity|cbn [fst]; eapply fb_req; [apply B_text|assumption]|cbn [snd]].
  eapply back_cons; [reflexivity|cbn [fst]; eapply fb_opt; [apply B_datetime|assumption]|cbn [snd]].
  eapply back_cons; [reflexivity|cbn [fst]; eapply fb_opt; [apply B_uri|assumption]|cbn [snd]].
  eapply back_cons; [reflexivity|cbn [fst]; apply fb_none|cbn [snd]].
  eapply back_cons; [reflexivity|cbn [fst]; apply fb_none|cbn [snd]]. apply back_nil.
Qed.
Lemma tz_safe_back v : vtimezone_safe v -> vtimezone_back v v.
Proof.
  intros H. split; [now apply tz_fields_back|]. destruct H as (A1 & A2 & A3 & A4 & A5 & A6 & A7 & A8). split.
  - eapply F2_same; [|exact A5]. intros x Hx. cbn beta. apply C11_standard_read. now apply standard_safe_lines.
  - eapply F2_same; [|exact A6]. intros x Hx. cbn beta. apply C11_daylight_read. now apply daylight_safe_lines.
Qed.
Lemma ca_safe_tidy v : vcalendar_safe v -> vcalendar_fit v.
Proof.
  intros (A1 & A2 & A3 & A4 & A5 & A6 & A7 & A8 & A9 & A10 & A11 & A12). unfold vcalendar_fit, vcalendar_tidy. rewrite A11, A12.
  split; [split; [now apply S_text|split; [now apply S_text|split; [eapply holds_mono; [apply S_text|auto]|split; [eapply holds_mono; [apply S_text|auto]|split; apply tidy_none]]]]|].
  split; auto. split; [eapply all_mono; [apply vevent_safe_tidy|auto]|]. split; [eapply all_mono; [apply vfreebusy_safe_tidy|auto]|].
  split; [eapply all_mono; [apply vjournal_safe_tidy|auto]|]. split; [eapply all_mono; [apply vtodo_safe_tidy|auto]|]. split; [eapply all_mono; [apply tz_safe_tidy|auto]|]. now right.
Qed.
Lemma ca_safe_back v : vcalendar_safe v -> vcalendar_back v v.
Proof.
  intros (A1 & A2 & A3 & A4 & A5 & A6 & A7 & A8 & A9 & A10 & A11 & A12). unfold vcalendar_back. split.
  - apply C11_vcalendar_read. unfold vcalendar_of_lines.
    match goal with |- _ = Ok ?x => rewrite (comp_back vcalendar_schema (vcalendar_to x)); [unfold omap, obind; f_equal; apply vcalendar_of_to|apply vcalendar_nodup| |exact A11|exact A12] end.
    rewrite <- vcalendar_body_eq, A11, A12. change (ext_line (lit "X-PROP") []) with (@nil content_line). change (ext_line (lit "IANA-PROP") []) with (@nil content_line). rewrite !app_nil_r.
    unfold vcalendar_to, vcalendar_schema, vcalendar_body. cbn [c_fields ca_prodid ca_version ca_calscale ca_method ca_alarms ca_events ca_freebusy ca_journals ca_todo ca_timezones].
    eapply back_cons; [reflexivity|cbn [fst]; eapply fb_req; [apply B_text|assumption]|cbn [snd]].
    eapply back_cons; [reflexivity|cbn [fst]; eapply fb_req; [apply B_text|assumption]|cbn [snd]].
    eapply back_cons; [reflexivity|cbn [fst]; eapply fb_opt; [apply B_text|assumption]|cbn [snd]].
    eapply back_cons; [reflexivity|cbn [fst]; eapply fb_opt; [apply B_text|assumption]|cbn [snd]].
    do 6 (eapply back_cons; [reflexivity|cbn [fst]; apply fb_none|cbn [snd]]). apply back_nil.
  - destruct A5 as (L0 & _). split; auto.
    split; [eapply F2_same; [|exact A6]; intros x Hx; cbn beta; apply C11_vevent_read; now apply vevent_safe_lines|].
    split; [eapply F2_same; [|exact A7]; intros x Hx; cbn beta; apply C11_vfreebusy_read; now apply vfreebusy_safe_lines|].
    split; [eapply F2_same; [|exact A8]; intros x Hx; cbn beta; apply C11_vjournal_read; now apply vjournal_safe_lines|].
    split; [eapply F2_same; [|exact A9]; intros x Hx; cbn beta; apply C11_vtodo_read; now apply vtodo_safe_lines|].
    eapply F2_same; [|exact A10]. apply tz_safe_back.
Qed.
End Env.

