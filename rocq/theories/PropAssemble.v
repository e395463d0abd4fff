(** * C90: texts put together from saved parts. *)
From Verif Require Import Base Env Chrono Nom Types Ser Parser Derive BaseFacts NomFacts SpecLine LineFacts SpecText SerFacts PropText PropLine
  SpecCal SpecDur PropVocab PropRule PropPeriod PropList Components SpecComp DeriveFacts SpecFields PropComp SpecFile PropFile SpecRound RoundFacts FrameFacts BackFacts FieldFacts ChildFacts
  AlarmFacts CalFacts SpecCrowd PropRound SpecAssemble.
Section Env.
Context {E : Env}.
Lemma around_inj n b b' : around n b = around n b' -> b = b'.
Proof. unfold around. intros H. do 3 apply app_inv_head in H. now apply app_inv_tail in H. Qed.
Lemma around_app n b s rest : around n (b ++ s) ++ rest = lit "BEGIN:" ++ n ++ CRLF ++ b ++ s ++ lit "END:" ++ n ++ CRLF ++ rest.
Proof. unfold around. now rewrite <- !app_assoc. Qed.
Lemma piece_loads {A} (one : str -> A -> str -> Prop) C o : piece one C o -> forall a, (exists r, one (unfold_lines o) a r) <-> C a.
Proof.
  intros P a. destruct (P [] nc_nil) as (_ & _ & Q). rewrite app_nil_r in Q. split.
  - intros [r H]. apply Q in H. tauto.
  - intros H. eexists. apply Q. split; [exact H|reflexivity].
Qed.
Lemma F2_loads {A} (one : str -> A -> str -> Prop) (L : str -> A -> Prop) ps l : (forall o a, L o a <-> exists r, one (unfold_lines o) a r) ->
  Forall (fun p => piece one (fst p) (snd p)) ps -> Forall2 (fun C a => C a) (map fst ps) l <-> Forall2 L (map snd ps) l.
Proof.
  intros HL H. revert l; induction H as [|[C o] ps P H IH]; intros l; cbn [map fst snd] in *.
  - split; intros F; inversion F; constructor.
  - split; intros F; inversion F; subst; constructor; try (now apply IH).
    + apply HL. now apply (piece_loads one C o P).
    + apply (piece_loads one C o P). now apply HL.
Qed.
(** ** Events *)
Lemma event_splice ls b ps : reads_as b ls -> Forall (fun p => piece alarm_text (fst p) (snd p)) ps ->
  piece event_text (fun w => vevent_read ls (event_bare w) /\ Forall2 (fun C a => C a) (map fst ps) (ev_alarms w)) (around (lit "VEVENT") (b ++ concat (map snd ps))).
Proof.
  intros Hb Hp rest Hr. rewrite around_app.
  assert (A1 : forall s a r, alarm_text s a r -> begins (lit "BEGIN:") s) by (intros ? ? ?; apply simple_head).
  destruct (container alarm_text (lit "VEVENT") ls b ps rest A1 vevent_upper Hb Hp Hr) as (t & t2 & U & L & D & Q).
  split; [apply nc_begin|]. rewrite U. split; [apply begins_app|]. intros w r. unfold event_text. split.
  - intros (t' & ls' & t2' & v0 & Et & L' & S0 & R & V).
    assert (X : t' = t). { change (lit "BEGIN:VEVENT" ++ [CR; LF] ++ t') with (lit "BEGIN:" ++ lit "VEVENT" ++ [CR; LF] ++ t') in Et. now repeat apply app_inv_head in Et. }
    subst t'. assert (D2 : delimiter t2') by (eapply seq_head; [exact S0|exact A1|apply (begins_app (lit "END:"))]).
    destruct (lines_text_det _ _ _ _ _ D2 D L' L) as [-> ->].
    apply Q in S0 as [S0 Er]; [|apply (begins_app (lit "END:"))].
    assert (Y : r = unfold_lines rest). { change (lit "END:VEVENT" ++ [CR; LF] ++ r) with (lit "END:" ++ lit "VEVENT" ++ [CR; LF] ++ r) in Er. now repeat apply app_inv_head in Er. }
    split; auto. split; auto. rewrite V. assert (Z0 : ev_alarms v0 = []) by (unfold vevent_read in R; tauto).
    unfold event_bare. replace (set_ev_alarms (set_ev_alarms v0 (ev_alarms w)) []) with v0; [exact R|]. clear -Z0. destruct v0; cbn in *. now subst.
  - intros [[R F] ->]. exists t, ls, t2, (event_bare w). split; [reflexivity|]. split; [exact L|]. split; [|split; [exact R|]].
    + apply Q; [apply (begins_app (lit "END:"))|]. split; [exact F|reflexivity].
    + clear. destruct w; reflexivity.
Qed.
Lemma alarm_parts l outs : Forall valarm_tidy l -> Forall2 (fun a o => s_ical ser_valarm a = Ok o) l outs ->
  exists ps, map fst ps = map (fun a => valarm_read (valarm_written a)) l /\ map snd ps = outs /\ Forall (fun p => piece alarm_text (fst p) (snd p)) ps.
Proof.
  intros T F. apply (pieces_of alarm_text (fun a => valarm_read (valarm_written a)) _ _ _ F).
  intros a o Ha Ho. rewrite Forall_forall in T. eapply simple_piece; [apply valarm_read_iff|]. apply alarm_block; auto.
Qed.
Lemma event_header v h : vevent_tidy v -> s_ical ser_vevent v = Ok h -> exists b, h = around (lit "VEVENT") b /\ reads_as b (vevent_written v).
Proof.
  intros T H. destruct (comp_reads (lit "VEVENT") vevent_schema (vevent_to v) (vevent_body v) h vevent_names (vevent_fields v T)) as (b & -> & R); auto;
    try (cbn [c_xprop c_iana vevent_to]; unfold vevent_tidy in T; tauto).
  exists b. split; [reflexivity|]. rewrite <- vevent_body_eq. exact R.
Qed.
Lemma event_pieces v h outs out : event_tidy v -> event_assembled v h outs out ->
  exists b ps, h = around (lit "VEVENT") b /\ out = around (lit "VEVENT") (b ++ concat (map snd ps)) /\ map snd ps = outs /\
    reads_as b (vevent_written v) /\ Forall (fun p => piece alarm_text (fst p) (snd p)) ps.
Proof.
  intros [T T2] (H & F & b & Eh & Eo). destruct (event_header _ _ T H) as (b' & Eh' & R). rewrite Eh in Eh'. apply around_inj in Eh'. subst b'.
  destruct (alarm_parts _ _ T2 F) as (ps & _ & A2 & A3). exists b, ps. rewrite A2. auto.
Qed.
Theorem C90_event : forall v h outs out w, event_tidy v -> event_assembled v h outs out ->
  vevent_of_str out = Ok w <->
  exists w0 l, vevent_of_str h = Ok w0 /\ Forall2 (fun o a => valarm_of_str o = Ok a) outs l /\ w = set_ev_alarms w0 l.
Proof.
  intros v h outs out w T H. destruct (event_pieces v h outs out T H) as (b & ps & -> & -> & <- & R & P).
  rewrite C15_event_grammar, (piece_loads _ _ _ (event_splice _ _ _ R P)).
  pose proof (event_splice _ _ [] R (Forall_nil _)) as P0. cbn [map concat] in P0. rewrite app_nil_r in P0.
  rewrite (F2_loads alarm_text (fun o a => valarm_of_str o = Ok a)) by (auto; intros; apply C15_alarm_grammar). split.
  - intros [A B]. exists (event_bare w), (ev_alarms w). rewrite C15_event_grammar, (piece_loads _ _ _ P0). split; [|split; [exact B|clear; destruct w; reflexivity]].
    split; [exact A|constructor].
  - intros (w0 & l & A & B & ->). rewrite C15_event_grammar, (piece_loads _ _ _ P0) in A. destruct A as [A _]. split; [exact A|exact B].
Qed.
(** ** Timezones *)
Lemma timezone_splice ls b ps : reads_as b ls -> Forall (fun p => piece tz_part_text (fst p) (snd p)) ps ->
  piece timezone_text (fun w => exists cs, vtimezone_read ls (timezone_bare w) /\ Forall2 (fun C a => C a) (map fst ps) cs /\
    tz_standard w = standards_of cs /\ tz_daylight w = daylights_of cs) (around (lit "VTIMEZONE") (b ++ concat (map snd ps))).
Proof.
  intros Hb Hp rest Hr. rewrite around_app.
  destruct (container tz_part_text (lit "VTIMEZONE") ls b ps rest tz_part_head vtimezone_upper Hb Hp Hr) as (t & t2 & U & L & D & Q).
  split; [apply nc_begin|]. rewrite U. split; [apply begins_app|]. intros w r. unfold timezone_text. split.
  - intros (t' & ls' & t2' & cs & v0 & Et & L' & S0 & R & V & W1 & W2).
    assert (X : t' = t). { change (lit "BEGIN:VTIMEZONE" ++ [CR; LF] ++ t') with (lit "BEGIN:" ++ lit "VTIMEZONE" ++ [CR; LF] ++ t') in Et. now repeat apply app_inv_head in Et. }
    subst t'. assert (D2 : delimiter t2') by (eapply seq_head; [exact S0|exact tz_part_head|apply (begins_app (lit "END:"))]).
    destruct (lines_text_det _ _ _ _ _ D2 D L' L) as [-> ->].
    apply Q in S0 as [S0 Er]; [|apply (begins_app (lit "END:"))].
    assert (Y : r = unfold_lines rest). { change (lit "END:VTIMEZONE" ++ [CR; LF] ++ r) with (lit "END:" ++ lit "VTIMEZONE" ++ [CR; LF] ++ r) in Er. now repeat apply app_inv_head in Er. }
    split; auto. exists cs. split; [|split; [exact S0|split; [exact W1|exact W2]]]. rewrite V.
    assert (Z0 : tz_standard v0 = [] /\ tz_daylight v0 = []) by (unfold vtimezone_read in R; tauto).
    unfold timezone_bare. match goal with |- vtimezone_read _ ?x => replace x with v0; [exact R|] end. clear -Z0. destruct v0; cbn in *. destruct Z0. now subst.
  - intros [(cs & R & F & W1 & W2) ->]. exists t, ls, t2, cs, (timezone_bare w). split; [reflexivity|]. split; [exact L|]. split; [|split; [exact R|]].
    + apply Q; [apply (begins_app (lit "END:"))|]. split; [exact F|reflexivity].
    + split; [|split; [exact W1|exact W2]]. clear. destruct w; reflexivity.
Qed.
Lemma part_loads_iff o p : part_loads o p <-> exists r, tz_part_text (unfold_lines o) p r.
Proof. destruct p; cbn [part_loads tz_part_text]; [apply C15_standard_grammar|apply C15_daylight_grammar]. Qed.
Definition part_tidy (p : tz_part) : Prop := match p with TStandard x => standard_tidy x | TDaylight x => daylight_tidy x end.
Lemma tz_parts ps outs : Forall part_tidy ps -> Forall2 part_saved ps outs ->
  exists qs, map snd qs = outs /\ Forall (fun p => piece tz_part_text (fst p) (snd p)) qs.
Proof.
  intros T F. destruct (pieces_of tz_part_text (fun p => match p with TStandard x => is_standard x | TDaylight x => is_daylight x end) _ _ _ F) as (qs & _ & A2 & A3); [|eauto].
  intros p o Hp Ho. rewrite Forall_forall in T. specialize (T _ Hp). destruct p as [x|x]; cbn [part_tidy part_saved] in *.
  - apply standard_part. now apply standard_block.
  - apply daylight_part. now apply daylight_block.
Qed.
Lemma parts_tidy v ps : timezone_tidy v -> tz_standard v = standards_of ps -> tz_daylight v = daylights_of ps -> Forall part_tidy ps.
Proof.
  intros (_ & T1 & T2) H1 H2. rewrite H1 in T1. rewrite H2 in T2. clear H1 H2. rewrite Forall_forall in *. intros p Hp. destruct p as [x|x]; cbn [part_tidy].
  - apply T1. apply in_flat_map. eexists. split; [exact Hp|cbn; auto].
  - apply T2. apply in_flat_map. eexists. split; [exact Hp|cbn; auto].
Qed.
Lemma timezone_header v h : vtimezone_tidy v -> childless_tz v -> s_ical ser_vtimezone v = Ok h -> exists b, h = around (lit "VTIMEZONE") b /\ reads_as b (vtimezone_written v).
Proof.
  intros T C H. destruct (comp_reads (lit "VTIMEZONE") vtimezone_schema (vtimezone_to v) (vtimezone_body v) h vtimezone_names (vtimezone_fields v C T)) as (b & -> & R); auto;
    try (cbn [c_xprop c_iana vtimezone_to]; unfold vtimezone_tidy in T; tauto).
  exists b. split; [reflexivity|]. rewrite <- vtimezone_body_eq. exact R.
Qed.
Lemma timezone_pieces v ps h outs out : timezone_tidy v -> timezone_assembled v ps h outs out ->
  exists b qs, h = around (lit "VTIMEZONE") b /\ out = around (lit "VTIMEZONE") (b ++ concat (map snd qs)) /\ map snd qs = outs /\
    reads_as b (vtimezone_written v) /\ Forall (fun p => piece tz_part_text (fst p) (snd p)) qs.
Proof.
  intros T (H1 & H2 & H & F & b & Eh & Eo). destruct (timezone_header (timezone_bare v) h) as (b' & Eh' & R); [apply T|split; reflexivity|exact H|].
  rewrite Eh in Eh'. apply around_inj in Eh'. subst b'. destruct (tz_parts ps outs) as (qs & A2 & A3); [eapply parts_tidy; eauto|exact F|].
  exists b, qs. rewrite A2. auto.
Qed.
Theorem C90_timezone : forall v ps h outs out w, timezone_tidy v -> timezone_assembled v ps h outs out ->
  vtimezone_of_str out = Ok w <->
  exists w0 l, vtimezone_of_str h = Ok w0 /\ Forall2 part_loads outs l /\ w = timezone_with w0 l.
Proof.
  intros v ps h outs out w T H. destruct (timezone_pieces v ps h outs out T H) as (b & qs & -> & -> & <- & R & P).
  rewrite C15_timezone_grammar, (piece_loads _ _ _ (timezone_splice _ _ _ R P)).
  pose proof (timezone_splice _ _ [] R (Forall_nil _)) as P0. cbn [map concat] in P0. rewrite app_nil_r in P0. split.
  - intros (cs & A & B & W1 & W2). apply (F2_loads tz_part_text part_loads) in B; [|exact part_loads_iff|exact P].
    exists (timezone_bare w), cs. rewrite C15_timezone_grammar, (piece_loads _ _ _ P0). split; [|split; [exact B|]].
    + exists []. split; [exact A|]. repeat split. constructor.
    + unfold timezone_with. rewrite <- W1, <- W2. clear. destruct w; reflexivity.
  - intros (w0 & l & A & B & ->). rewrite C15_timezone_grammar, (piece_loads _ _ _ P0) in A. destruct A as (cs & A & _).
    exists l. split; [exact A|]. split; [|split; reflexivity]. apply (F2_loads tz_part_text part_loads); [exact part_loads_iff|exact P|exact B].
Qed.
(** ** Calendars *)
Lemma splice_head {A} (one : str -> A -> str -> Prop) name ls b ps : (forall s a r, one s a r -> begins (lit "BEGIN:") s) -> upper_text name -> reads_as b ls ->
  Forall (fun p => piece one (fst p) (snd p)) ps ->
  forall rest, not_continuation rest -> begins (lit "BEGIN:" ++ name ++ CRLF) (unfold_lines (around name (b ++ concat (map snd ps)) ++ rest)).
Proof.
  intros H1 Hn Hb Hp rest Hr. rewrite around_app. destruct (container one name ls b ps rest H1 Hn Hb Hp Hr) as (t & t2 & U & _).
  rewrite U. exists t. unfold CRLF. now rewrite <- !app_assoc.
Qed.
Definition component_tidy (c : component) : Prop :=
  match c with CAlarm x => valarm_tidy x | CEvent x => event_tidy x | CFreebusy x => vfreebusy_tidy x | CJournal x => vjournal_tidy x
  | CTimezone x => timezone_tidy x | CTodo x => vtodo_tidy x end.
Lemma child_piece c o : component_tidy c -> child_saved c o -> exists C, piece child_text C o.
Proof.
  intros T H. destruct H as [a o H|e h outs o H|f o H|j o H|z ps h outs o H|t o H]; cbn [component_tidy] in T.
  - pose proof (alarm_block a o T H) as B. pose proof (block_head _ _ _ B) as Hh. pose proof (simple_piece _ _ _ _ _ valarm_read_iff B) as P.
    eexists. eapply (piece_kind (simple_text (lit "VALARM") valarm_read) child_text CAlarm); [exact Hh|reflexivity| |intros y y' X; now inv X|exact P].
    intros s a0 r X G. destruct a0; eauto; exfalso; eapply child_kind; eauto; reflexivity.
  - destruct (event_pieces e h outs o T H) as (b & qs & _ & -> & _ & R & P). eexists.
    eapply (piece_kind event_text child_text CEvent); [|reflexivity| |intros y y' X; now inv X|exact (event_splice _ _ _ R P)].
    + eapply (splice_head alarm_text); [intros ? ? ?; apply simple_head|exact vevent_upper|exact R|exact P].
    + intros s a0 r X G. destruct a0; eauto; exfalso; eapply child_kind; eauto; reflexivity.
  - eexists. exact (vfreebusy_child _ _ T H).
  - eexists. exact (vjournal_child _ _ T H).
  - destruct (timezone_pieces z ps h outs o T H) as (b & qs & _ & -> & _ & R & P). eexists.
    eapply (piece_kind timezone_text child_text CTimezone); [|reflexivity| |intros y y' X; now inv X|exact (timezone_splice _ _ _ R P)].
    + eapply (splice_head tz_part_text); [exact tz_part_head|exact vtimezone_upper|exact R|exact P].
    + intros s a0 r X G. destruct a0; eauto; exfalso; eapply child_kind; eauto; reflexivity.
  - eexists. exact (vtodo_child _ _ T H).
Qed.
Lemma child_pieces cs outs : Forall component_tidy cs -> Forall2 child_saved cs outs ->
  exists qs, map snd qs = outs /\ Forall (fun p => piece child_text (fst p) (snd p)) qs.
Proof.
  intros T F. induction F as [|c o cs outs H F IH]; [exists []; split; [reflexivity|constructor]|]. inversion T; subst. destruct IH as (qs & A & B); auto.
  destruct (child_piece c o) as [C P]; auto. exists ((C, o) :: qs). cbn [map snd]. rewrite A. split; auto.
Qed.
Lemma child_loads_iff o c : child_loads o c <-> exists r, child_text (unfold_lines o) c r.
Proof.
  destruct c; cbn [child_loads child_text]; [apply C15_alarm_grammar|apply C15_event_grammar|apply C15_freebusy_grammar|apply C15_journal_grammar|apply C15_timezone_grammar|apply C15_todo_grammar].
Qed.
Lemma calendar_splice ls b ps : reads_as b ls -> Forall (fun p => piece child_text (fst p) (snd p)) ps ->
  forall w, vcalendar_of_str (around (lit "VCALENDAR") (b ++ concat (map snd ps))) = Ok w <->
  exists cs, vcalendar_read ls (calendar_bare w) /\ Forall2 (fun C a => C a) (map fst ps) cs /\ w = calendar_with w cs.
Proof.
  intros Hb Hp w. rewrite C15_calendar_grammar. rewrite <- (app_nil_r (around _ _)), around_app.
  destruct (container child_text (lit "VCALENDAR") ls b ps [] child_begin vcalendar_upper Hb Hp nc_nil) as (t & t2 & U & L & D & Q).
  rewrite U. unfold calendar_text, calendar_holds. split.
  - intros (ls' & cs & rest & (t' & t2' & Et & L' & S0) & W1 & W2 & W3 & W4 & W5 & W6 & v0 & R & Q1 & Q2 & Q3 & Q4 & Q5 & Q6).
    assert (X : t' = t). { change (lit "BEGIN:VCALENDAR" ++ [CR; LF] ++ t') with (lit "BEGIN:" ++ lit "VCALENDAR" ++ [CR; LF] ++ t') in Et. now repeat apply app_inv_head in Et. }
    subst t'. assert (D2 : delimiter t2') by (eapply seq_head; [exact S0|exact child_begin|apply (begins_app (lit "END:"))]).
    destruct (lines_text_det _ _ _ _ _ D2 D L' L) as [-> ->].
    apply Q in S0 as [S0 _]; [|apply (begins_app (lit "END:"))]. exists cs. split; [|split; [exact S0|]].
    + unfold calendar_bare, calendar_with. rewrite Q1, Q2, Q3, Q4, Q5, Q6.
      assert (Z0 : ca_alarms v0 = [] /\ ca_events v0 = [] /\ ca_freebusy v0 = [] /\ ca_journals v0 = [] /\ ca_todo v0 = [] /\ ca_timezones v0 = []) by (unfold vcalendar_read in R; tauto).
      match goal with |- vcalendar_read _ ?x => replace x with v0; [exact R|] end. clear -Z0. destruct v0; cbn in *. destruct Z0 as (?&?&?&?&?&?). now subst.
    + unfold calendar_with. rewrite <- W1, <- W2, <- W3, <- W4, <- W5, <- W6. clear. destruct w; reflexivity.
  - intros (cs & R & F & W). exists ls, cs, (CRLF ++ []). split.
    + exists t, t2. split; [reflexivity|]. split; [exact L|]. apply Q; [apply (begins_app (lit "END:"))|]. split; [exact F|reflexivity].
    + rewrite W. cbn [calendar_with ca_alarms ca_events ca_freebusy ca_journals ca_timezones ca_todo]. repeat (split; [reflexivity|]).
      exists (calendar_bare w). split; [exact R|]. repeat split.
Qed.
Lemma calendar_header v h : vcalendar_tidy v -> childless v -> s_ical ser_vcalendar v = Ok h -> exists b, h = around (lit "VCALENDAR") b /\ reads_as b (vcalendar_written v).
Proof.
  intros T C H. destruct (comp_reads (lit "VCALENDAR") vcalendar_schema (vcalendar_to v) (vcalendar_body v) h vcalendar_names (vcalendar_fields v C T)) as (b & -> & R); auto;
    try (cbn [c_xprop c_iana vcalendar_to]; unfold vcalendar_tidy in T; tauto).
  exists b. split; [reflexivity|]. rewrite <- vcalendar_body_eq. exact R.
Qed.
Lemma in_sel {X A} (sel : A -> list X) x a l : In a l -> In x (sel a) -> In x (flat_map sel l).
Proof. intros. apply in_flat_map. eauto. Qed.
Lemma components_tidy v cs : calendar_tidy v -> v = calendar_with v cs -> Forall component_tidy cs.
Proof.
  intros (_ & T1 & T2 & T3 & T4 & T5 & T6) W. rewrite W in T1, T2, T3, T4, T5, T6.
  cbn [calendar_with ca_alarms ca_events ca_freebusy ca_journals ca_timezones ca_todo] in *. rewrite Forall_forall in *.
  intros c Hc. destruct c as [x|x|x|x|x|x]; cbn [component_tidy]; [apply T1|apply T2|apply T3|apply T4|apply T6|apply T5]; (eapply in_sel; [exact Hc|cbn; auto]).
Qed.
Theorem C90_calendar : forall v cs h outs out w, calendar_tidy v -> calendar_assembled v cs h outs out ->
  vcalendar_of_str out = Ok w <->
  exists w0 l, vcalendar_of_str h = Ok w0 /\ Forall2 child_loads outs l /\ w = calendar_with w0 l.
Proof.
  intros v cs h outs out w T (W & H & F & b & Eh & Eo).
  destruct (calendar_header (calendar_bare v) h) as (b' & Eh' & R); [apply T|repeat split; reflexivity|exact H|]. rewrite Eh in Eh'. apply around_inj in Eh'. subst b'.
  destruct (child_pieces cs outs) as (qs & A & P); [eapply components_tidy; eauto|exact F|]. subst h out outs.
  rewrite (calendar_splice _ _ _ R P).
  pose proof (calendar_splice _ _ [] R (Forall_nil _)) as P0. cbn [map concat] in P0. rewrite app_nil_r in P0. split.
  - intros (l & A & B & Ew). apply (F2_loads child_text child_loads) in B; [|exact child_loads_iff|exact P].
    exists (calendar_bare w), l. rewrite P0. split; [|split; [exact B|exact Ew]]. exists []. split; [exact A|]. split; [constructor|reflexivity].
  - intros (w0 & l & A & B & ->). rewrite P0 in A. destruct A as (l0 & A & _). exists l. split; [exact A|]. split; [|reflexivity].
    apply (F2_loads child_text child_loads); [exact child_loads_iff|exact P|exact B].
Qed.
(** ** Nothing is lost when everything is safe *)
Lemma valarm_safe_is_tidy a : valarm_safe a -> valarm_tidy a.
Proof. destruct a; cbn [valarm_safe valarm_tidy]; intros [H _]; [now apply audio_safe_tidy|now apply display_safe_tidy|now apply email_safe_tidy]. Qed.
Lemma event_safe_is_tidy v : event_safe v -> event_tidy v.
Proof. intros [A B]. split; [now apply vevent_safe_tidy|]. eapply all_mono; [apply valarm_safe_is_tidy|exact B]. Qed.
Theorem C90_event_round_trip : forall v h outs out, event_safe v -> event_assembled v h outs out -> vevent_of_str out = Ok v.
Proof.
  intros v h outs out SV H. apply (C90_event v h outs out v (event_safe_is_tidy v SV) H). destruct SV as [A B]. destruct H as (H & F & _).
  exists (event_bare v), (ev_alarms v). split; [now apply C53_vevent_round_trip|]. split; [|clear; destruct v; reflexivity].
  clear - B F. induction F; constructor; inversion B; subst; auto. now apply C53_valarm_round_trip.
Qed.
Definition part_safe (p : tz_part) : Prop := match p with TStandard x => standard_safe x | TDaylight x => daylight_safe x end.
Lemma timezone_safe_is_tidy v : timezone_safe v -> timezone_tidy v.
Proof.
  intros (A & B & C). split; [|split; [eapply all_mono; [apply standard_safe_tidy|auto]|eapply all_mono; [apply daylight_safe_tidy|auto]]].
  destruct (tz_safe_tidy _ A) as [T _]. exact T.
Qed.
Lemma timezone_again v ps : tz_standard v = standards_of ps -> tz_daylight v = daylights_of ps -> v = timezone_with (timezone_bare v) ps.
Proof. intros H1 H2. unfold timezone_with. rewrite <- H1, <- H2. destruct v; reflexivity. Qed.
Theorem C90_timezone_round_trip : forall v ps h outs out, timezone_safe v -> timezone_assembled v ps h outs out -> vtimezone_of_str out = Ok v.
Proof.
  intros v ps h outs out SV H. apply (C90_timezone v ps h outs out v (timezone_safe_is_tidy v SV) H). destruct SV as (A & B & C). destruct H as (H1 & H2 & H & F & _).
  exists (timezone_bare v), ps. split; [now apply C53_vtimezone_round_trip|]. split; [|now apply timezone_again].
  rewrite H1 in B. rewrite H2 in C. clear H1 H2. induction F as [|p o ps outs P F IH]; constructor.
  - destruct p as [x|x]; cbn [part_saved part_loads standards_of daylights_of flat_map app] in *; [inversion B|inversion C]; subst.
    + now apply C53_standard_round_trip.
    + now apply C53_daylight_round_trip.
  - apply IH; destruct p as [x|x]; cbn [standards_of daylights_of flat_map app] in *; auto; [inversion B|inversion C]; subst; auto.
Qed.
Definition component_safe (c : component) : Prop :=
  match c with CAlarm x => valarm_safe x | CEvent x => event_safe x | CFreebusy x => vfreebusy_safe x | CJournal x => vjournal_safe x
  | CTimezone x => timezone_safe x | CTodo x => vtodo_safe x end.
Lemma components_safe v cs : calendar_safe v -> v = calendar_with v cs -> Forall component_safe cs.
Proof.
  intros (_ & T1 & T2 & T3 & T4 & T5 & T6) W. rewrite W in T1, T2, T3, T4, T5, T6.
  cbn [calendar_with ca_alarms ca_events ca_freebusy ca_journals ca_timezones ca_todo] in *. rewrite Forall_forall in *.
  intros c Hc. destruct c as [x|x|x|x|x|x]; cbn [component_safe]; [apply T1|apply T2|apply T3|apply T4|apply T6|apply T5]; (eapply in_sel; [exact Hc|cbn; auto]).
Qed.
Lemma calendar_safe_is_tidy v : calendar_safe v -> calendar_tidy v.
Proof.
  intros (A & B & C & D & F & G & H). destruct (ca_safe_tidy _ A) as [T _]. split; [exact T|].
  split; [eapply all_mono; [apply valarm_safe_is_tidy|exact B]|]. split; [eapply all_mono; [apply event_safe_is_tidy|exact C]|].
  split; [eapply all_mono; [apply vfreebusy_safe_tidy|exact D]|]. split; [eapply all_mono; [apply vjournal_safe_tidy|exact F]|].
  split; [eapply all_mono; [apply vtodo_safe_tidy|exact G]|]. eapply all_mono; [apply timezone_safe_is_tidy|exact H].
Qed.
Theorem C90_calendar_round_trip : forall v cs h outs out, calendar_safe v -> calendar_assembled v cs h outs out -> vcalendar_of_str out = Ok v.
Proof.
  intros v cs h outs out SV H. apply (C90_calendar v cs h outs out v (calendar_safe_is_tidy v SV) H). destruct H as (W & H & F & _).
  pose proof (components_safe v cs SV W) as SC. exists (calendar_bare v), cs. split; [apply C53_vcalendar_round_trip; [apply SV|exact H]|]. split; [|exact W].
  clear - SC F. induction F as [|c o cs outs P F IH]; constructor; inversion SC as [|? ? S1 S2]; subst; auto.
  destruct P; cbn [component_safe child_loads] in *; [now apply C53_valarm_round_trip|eapply C90_event_round_trip; eauto|now apply C53_vfreebusy_round_trip|now apply C53_vjournal_round_trip
    |eapply C90_timezone_round_trip; eauto|now apply C53_vtodo_round_trip].
Qed.
(** ** Texts without multi-byte characters can always be put together so *)
Lemma F2_exist {X Y} (R : X -> Y -> Prop) l : Forall (fun x => exists y, R x y) l -> exists ys, Forall2 R l ys.
Proof. induction 1 as [|x l [y Hy] H [ys IH]]; [exists []; constructor|]. exists (y :: ys). now constructor. Qed.
Lemma all_both {X} (P Q : X -> Prop) l : Forall P l -> Forall Q l -> Forall (fun x => P x /\ Q x) l.
Proof. rewrite !Forall_forall. auto. Qed.
Theorem C90_event_assembles : forall v, event_tidy v -> event_ascii v -> exists h outs out, event_assembled v h outs out.
Proof.
  intros v [T TA] [A AA]. destruct (C53_vevent_serialises (event_bare v) T A) as [h H]. destruct (event_header _ _ T H) as (b & Eh & _).
  destruct (F2_exist (fun a o => s_ical ser_valarm a = Ok o) (ev_alarms v)) as [outs F].
  { eapply all_mono; [|apply (all_both _ _ _ TA AA)]. intros a [X Y]. now apply C53_valarm_serialises. }
  exists h, outs, (around (lit "VEVENT") (b ++ concat outs)). split; [exact H|]. split; [exact F|]. exists b. auto.
Qed.
Theorem C90_timezone_assembles : forall v ps, timezone_tidy v -> timezone_ascii v -> tz_standard v = standards_of ps -> tz_daylight v = daylights_of ps ->
  exists h outs out, timezone_assembled v ps h outs out.
Proof.
  intros v ps T (A & A1 & A2) H1 H2.
  assert (C : childless_tz (timezone_bare v)) by (split; reflexivity).
  destruct (vtimezone_out (timezone_bare v) C (proj1 T) A) as [h H]. destruct (timezone_header _ _ (proj1 T : vtimezone_tidy (timezone_bare v)) C H) as (b & Eh & _).
  destruct (F2_exist part_saved ps) as [outs F].
  { pose proof (parts_tidy v ps T H1 H2) as TP. rewrite H1 in A1. rewrite H2 in A2. rewrite Forall_forall in *. intros p Hp. specialize (TP p Hp).
    destruct p as [x|x]; cbn [part_saved part_tidy] in *.
    - apply C53_standard_serialises; auto. apply A1. eapply in_sel; [exact Hp|cbn; auto].
    - apply C53_daylight_serialises; auto. apply A2. eapply in_sel; [exact Hp|cbn; auto]. }
  exists h, outs, (around (lit "VTIMEZONE") (b ++ concat outs)). split; [exact H1|]. split; [exact H2|]. split; [exact H|]. split; [exact F|]. exists b. auto.
Qed.
Lemma parts_exist v : exists ps, tz_standard v = standards_of ps /\ tz_daylight v = daylights_of ps.
Proof. exists (map TStandard (tz_standard v) ++ map TDaylight (tz_daylight v)). destruct (tz_children (tz_standard v) (tz_daylight v)) as [A B]. split; symmetry; [exact A|exact B]. Qed.
Theorem C90_calendar_assembles : forall v cs, calendar_tidy v -> calendar_ascii v -> v = calendar_with v cs -> exists h outs out, calendar_assembled v cs h outs out.
Proof.
  intros v cs T A W. assert (C : childless (calendar_bare v)) by (repeat split; reflexivity).
  destruct (vcalendar_out (calendar_bare v) C (proj1 T) (proj1 A)) as [h H]. destruct (calendar_header _ _ (proj1 T : vcalendar_tidy (calendar_bare v)) C H) as (b & Eh & _).
  destruct (F2_exist child_saved cs) as [outs F].
  { pose proof (components_tidy v cs T W) as TC. destruct A as (_ & A1 & A2 & A3 & A4 & A5 & A6). rewrite W in A1, A2, A3, A4, A5, A6.
    cbn [calendar_with ca_alarms ca_events ca_freebusy ca_journals ca_timezones ca_todo] in *. rewrite Forall_forall in *. intros c Hc. specialize (TC c Hc).
    destruct c as [x|x|x|x|x|x]; cbn [component_tidy] in TC.
    - destruct (C53_valarm_serialises x TC) as [o O]; [apply A1; eapply in_sel; [exact Hc|cbn; auto]|]. exists o. now constructor.
    - destruct (C90_event_assembles x TC) as (h' & outs & o & O); [apply A2; eapply in_sel; [exact Hc|cbn; auto]|]. exists o. econstructor. exact O.
    - destruct (C53_vfreebusy_serialises x TC) as [o O]; [apply A3; eapply in_sel; [exact Hc|cbn; auto]|]. exists o. now constructor.
    - destruct (C53_vjournal_serialises x TC) as [o O]; [apply A4; eapply in_sel; [exact Hc|cbn; auto]|]. exists o. now constructor.
    - destruct (parts_exist x) as (ps & P1 & P2).
      destruct (C90_timezone_assembles x ps TC) as (h' & outs & o & O); auto; [apply A6; eapply in_sel; [exact Hc|cbn; auto]|]. exists o. econstructor. exact O.
    - destruct (C53_vtodo_serialises x TC) as [o O]; [apply A5; eapply in_sel; [exact Hc|cbn; auto]|]. exists o. now constructor. }
  exists h, outs, (around (lit "VCALENDAR") (b ++ concat outs)). split; [exact W|]. split; [exact H|]. split; [exact F|]. exists b. auto.
Qed.
End Env.
