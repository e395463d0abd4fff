(** * C53, C58: what is written is read back. *)
From Verif Require Import Base Env Chrono Nom Types Ser Parser Derive BaseFacts NomFacts SpecLine LineFacts SpecText SerFacts PropText PropLine
  SpecCal SpecDur PropVocab PropRule PropPeriod PropList Components SpecComp DeriveFacts SpecFields PropComp SpecFile PropFile SpecRound RoundFacts FrameFacts BackFacts FieldFacts ChildFacts CalFacts AlarmFacts.
Section Env.
Context {E : Env}.
Lemma block_alone name ls out : block name ls out -> exists t, unfold_lines out = lit "BEGIN:" ++ name ++ [CR; LF] ++ t /\
  lines_text t ls (lit "END:" ++ name ++ [CR; LF]).
Proof. intros H. destruct (H [] nc_nil) as (_ & t & U & L). rewrite app_nil_r in U. exists t. split; auto. Qed.
(** ** One component without children

    [_lines]: once unfolded, the text is the BEGIN line, the lines [X_written], the END line.
    [_serialises]: nothing but multi-byte chars can prevent writing.
    [_read_back]: what parsing the text gives, for any tidy component.
    [_round_trip]: a safe component comes back unchanged. *)

(** *** VTODO *)
Theorem C53_vtodo_lines : forall v out, vtodo_tidy v -> s_ical ser_vtodo v = Ok out ->
  exists t, unfold_lines out = lit "BEGIN:" ++ lit "VTODO" ++ [CR; LF] ++ t /\ lines_text t (vtodo_written v) (lit "END:" ++ lit "VTODO" ++ [CR; LF]).
Proof. intros v out T H. apply block_alone. now apply vtodo_block. Qed.
Theorem C53_vtodo_serialises : forall v, vtodo_tidy v -> Forall ascii_line (vtodo_written v) -> exists out, s_ical ser_vtodo v = Ok out.
Proof. exact vtodo_out. Qed.
Theorem C53_vtodo_read_back : forall v out w, vtodo_tidy v -> s_ical ser_vtodo v = Ok out ->
  vtodo_of_str out = Ok w <-> vtodo_read (vtodo_written v) w.
Proof. intros v out w T H. apply (block_from_str_iff _ _ vtodo_read _ _ (vtodo_block v out T H)). apply C11_vtodo_read. Qed.
Theorem C53_vtodo_round_trip : forall v out, vtodo_safe v -> s_ical ser_vtodo v = Ok out -> vtodo_of_str out = Ok v.
Proof.
  intros v out S H. apply (C53_vtodo_read_back v out v); auto; [now apply vtodo_safe_tidy|]. apply C11_vtodo_read. now apply vtodo_safe_lines.
Qed.

(** *** VJOURNAL *)
Theorem C53_vjournal_lines : forall v out, vjournal_tidy v -> s_ical ser_vjournal v = Ok out ->
  exists t, unfold_lines out = lit "BEGIN:" ++ lit "VJOURNAL" ++ [CR; LF] ++ t /\ lines_text t (vjournal_written v) (lit "END:" ++ lit "VJOURNAL" ++ [CR; LF]).
Proof. intros v out T H. apply block_alone. now apply vjournal_block. Qed.
Theorem C53_vjournal_serialises : forall v, vjournal_tidy v -> Forall ascii_line (vjournal_written v) -> exists out, s_ical ser_vjournal v = Ok out.
Proof. exact vjournal_out. Qed.
Theorem C53_vjournal_read_back : forall v out w, vjournal_tidy v -> s_ical ser_vjournal v = Ok out ->
  vjournal_of_str out = Ok w <-> vjournal_read (vjournal_written v) w.
Proof. intros v out w T H. apply (block_from_str_iff _ _ vjournal_read _ _ (vjournal_block v out T H)). apply C11_vjournal_read. Qed.
Theorem C53_vjournal_round_trip : forall v out, vjournal_safe v -> s_ical ser_vjournal v = Ok out -> vjournal_of_str out = Ok v.
Proof.
  intros v out S H. apply (C53_vjournal_read_back v out v); auto; [now apply vjournal_safe_tidy|]. apply C11_vjournal_read. now apply vjournal_safe_lines.
Qed.

(** *** VFREEBUSY *)
Theorem C53_vfreebusy_lines : forall v out, vfreebusy_tidy v -> s_ical ser_vfreebusy v = Ok out ->
  exists t, unfold_lines out = lit "BEGIN:" ++ lit "VFREEBUSY" ++ [CR; LF] ++ t /\ lines_text t (vfreebusy_written v) (lit "END:" ++ lit "VFREEBUSY" ++ [CR; LF]).
Proof. intros v out T H. apply block_alone. now apply vfreebusy_block. Qed.
Theorem C53_vfreebusy_serialises : forall v, vfreebusy_tidy v -> Forall ascii_line (vfreebusy_written v) -> exists out, s_ical ser_vfreebusy v = Ok out.
Proof. exact vfreebusy_out. Qed.
Theorem C53_vfreebusy_read_back : forall v out w, vfreebusy_tidy v -> s_ical ser_vfreebusy v = Ok out ->
  vfreebusy_of_str out = Ok w <-> vfreebusy_read (vfreebusy_written v) w.
Proof. intros v out w T H. apply (block_from_str_iff _ _ vfreebusy_read _ _ (vfreebusy_block v out T H)). apply C11_vfreebusy_read. Qed.
Theorem C53_vfreebusy_round_trip : forall v out, vfreebusy_safe v -> s_ical ser_vfreebusy v = Ok out -> vfreebusy_of_str out = Ok v.
Proof.
  intros v out S H. apply (C53_vfreebusy_read_back v out v); auto; [now apply vfreebusy_safe_tidy|]. apply C11_vfreebusy_read. now apply vfreebusy_safe_lines.
Qed.

(** *** STANDARD *)
Theorem C53_standard_lines : forall v out, standard_tidy v -> s_ical ser_standard v = Ok out ->
  exists t, unfold_lines out = lit "BEGIN:" ++ lit "STANDARD" ++ [CR; LF] ++ t /\ lines_text t (standard_written v) (lit "END:" ++ lit "STANDARD" ++ [CR; LF]).
Proof. intros v out T H. apply block_alone. now apply standard_block. Qed.
Theorem C53_standard_serialises : forall v, standard_tidy v -> Forall ascii_line (standard_written v) -> exists out, s_ical ser_standard v = Ok out.
Proof. exact standard_out. Qed.
Theorem C53_standard_read_back : forall v out w, standard_tidy v -> s_ical ser_standard v = Ok out ->
  standard_of_str out = Ok w <-> standard_read (standard_written v) w.
Proof. intros v out w T H. apply (block_from_str_iff _ _ standard_read _ _ (standard_block v out T H)). apply C11_standard_read. Qed.
Theorem C53_standard_round_trip : forall v out, standard_safe v -> s_ical ser_standard v = Ok out -> standard_of_str out = Ok v.
Proof.
  intros v out S H. apply (C53_standard_read_back v out v); auto; [now apply standard_safe_tidy|]. apply C11_standard_read. now apply standard_safe_lines.
Qed.

(** *** DAYLIGHT *)
Theorem C53_daylight_lines : forall v out, daylight_tidy v -> s_ical ser_daylight v = Ok out ->
  exists t, unfold_lines out = lit "BEGIN:" ++ lit "DAYLIGHT" ++ [CR; LF] ++ t /\ lines_text t (daylight_written v) (lit "END:" ++ lit "DAYLIGHT" ++ [CR; LF]).
Proof. intros v out T H. apply block_alone. now apply daylight_block. Qed.
Theorem C53_daylight_serialises : forall v, daylight_tidy v -> Forall ascii_line (daylight_written v) -> exists out, s_ical ser_daylight v = Ok out.
Proof. exact daylight_out. Qed.
Theorem C53_daylight_read_back : forall v out w, daylight_tidy v -> s_ical ser_daylight v = Ok out ->
  daylight_of_str out = Ok w <-> daylight_read (daylight_written v) w.
Proof. intros v out w T H. apply (block_from_str_iff _ _ daylight_read _ _ (daylight_block v out T H)). apply C11_daylight_read. Qed.
Theorem C53_daylight_round_trip : forall v out, daylight_safe v -> s_ical ser_daylight v = Ok out -> daylight_of_str out = Ok v.
Proof.
  intros v out S H. apply (C53_daylight_read_back v out v); auto; [now apply daylight_safe_tidy|]. apply C11_daylight_read. now apply daylight_safe_lines.
Qed.

(** *** VEVENT *)
Theorem C53_vevent_lines : forall v out, vevent_tidy v -> s_ical ser_vevent v = Ok out ->
  exists t, unfold_lines out = lit "BEGIN:" ++ lit "VEVENT" ++ [CR; LF] ++ t /\ lines_text t (vevent_written v) (lit "END:" ++ lit "VEVENT" ++ [CR; LF]).
Proof. intros v out T H. apply block_alone. now apply vevent_block. Qed.
Theorem C53_vevent_serialises : forall v, vevent_tidy v -> Forall ascii_line (vevent_written v) -> exists out, s_ical ser_vevent v = Ok out.
Proof. exact vevent_out. Qed.
Theorem C53_vevent_read_back : forall v out w, vevent_tidy v -> s_ical ser_vevent v = Ok out ->
  vevent_of_str out = Ok w <-> vevent_read (vevent_written v) w.
Proof.
  intros v out w T H. rewrite C15_event_grammar. pose proof (event_piece _ _ (vevent_block v out T H) [] nc_nil) as (_ & _ & P). rewrite app_nil_r in P. split.
  - intros [r X]. now apply P in X.
  - intros X. exists []. now apply P.
Qed.
Theorem C53_vevent_round_trip : forall v out, vevent_safe v -> s_ical ser_vevent v = Ok out -> vevent_of_str out = Ok v.
Proof.
  intros v out S H. apply (C53_vevent_read_back v out v); auto; [now apply vevent_safe_tidy|]. apply C11_vevent_read. now apply vevent_safe_lines.
Qed.

(** *** VALARM *)
Theorem C53_valarm_lines : forall v out, valarm_tidy v -> s_ical ser_valarm v = Ok out ->
  exists t, unfold_lines out = lit "BEGIN:" ++ lit "VALARM" ++ [CR; LF] ++ t /\ lines_text t (valarm_written v) (lit "END:" ++ lit "VALARM" ++ [CR; LF]).
Proof. intros v out T H. apply block_alone. now apply alarm_block. Qed.
Theorem C53_valarm_serialises : forall v, valarm_tidy v -> Forall ascii_line (valarm_written v) -> exists out, s_ical ser_valarm v = Ok out.
Proof. exact alarm_out. Qed.
Theorem C53_valarm_read_back : forall v out w, valarm_tidy v -> s_ical ser_valarm v = Ok out ->
  valarm_of_str out = Ok w <-> valarm_read (valarm_written v) w.
Proof.
  intros v out w T H. rewrite C15_alarm_grammar. destruct (C53_valarm_lines v out T H) as (t & U & L). rewrite U. split.
  - intros (rest & t' & ls & Et & L' & R). repeat apply app_inv_head in Et. subst t'.
    destruct (lines_text_det _ _ _ _ _ (delim_end _ _) (delim_end _ _) L' L) as [-> _]. exact R.
  - intros R. exists [], t, (valarm_written v). auto.
Qed.
Lemma first_head n l ls : cl_key l = n -> first_line n (l :: ls) l.
Proof. intros H. exists [], ls. split; [reflexivity|]. split; auto. constructor. Qed.
Theorem C53_valarm_round_trip : forall v out, valarm_safe v -> s_ical ser_valarm v = Ok out -> valarm_of_str out = Ok v.
Proof.
  assert (G : forall t rest, safe_text t -> text_line (lit "ACTION") t ++ rest = mk_cl (lit "ACTION") (t_params t) (t_text t) :: rest).
  { intros t rest [_ S]. unfold text_line, text_shown. rewrite safe_escaped by auto. rewrite line_nonempty by apply S. reflexivity. }
  intros v out S H. destruct v as [x|x|x]; cbn [valarm_safe] in S; destruct S as [S A].
  - apply (C53_valarm_read_back (AAudio x) out); [cbn; now apply audio_safe_tidy|exact H|]. cbn [valarm_written].
    pose proof (audio_safe_lines x S) as R. apply C11_audio_read in R. eexists. split; [unfold audio_written; rewrite G by (unfold audio_safe in S; tauto); apply first_head; reflexivity|auto].
  - apply (C53_valarm_read_back (ADisplay x) out); [cbn; now apply display_safe_tidy|exact H|]. cbn [valarm_written].
    pose proof (display_safe_lines x S) as R. apply C11_display_read in R. eexists. split; [unfold display_written; rewrite G by (unfold display_safe in S; tauto); apply first_head; reflexivity|auto].
  - apply (C53_valarm_read_back (AEmail x) out); [cbn; now apply email_safe_tidy|exact H|]. cbn [valarm_written].
    pose proof (email_safe_lines x S) as R. apply C11_email_read in R. eexists. split; [unfold email_written; rewrite G by (unfold email_safe in S; tauto); apply first_head; reflexivity|auto].
Qed.

(** ** Timezones and calendars: the children are read back too *)
Theorem C53_vtimezone_read_back : forall v out w, vtimezone_fit v -> s_ical ser_vtimezone v = Ok out ->
  vtimezone_of_str out = Ok w <-> vtimezone_back v w.
Proof.
  intros v out w T H. rewrite C15_timezone_grammar. destruct (timezone_piece v out T H) as [_ P]. destruct (P [] nc_nil) as (_ & _ & Q). rewrite app_nil_r in Q. split.
  - intros [r X]. now apply Q in X.
  - intros X. exists []. now apply Q.
Qed.
Theorem C53_vtimezone_round_trip : forall v out, vtimezone_safe v -> s_ical ser_vtimezone v = Ok out -> vtimezone_of_str out = Ok v.
Proof. intros v out S H. apply (C53_vtimezone_read_back v out v); auto; [now apply tz_safe_tidy|now apply tz_safe_back]. Qed.
Theorem C53_vcalendar_read_back : forall v out w, vcalendar_fit v -> s_ical ser_vcalendar v = Ok out ->
  vcalendar_of_str out = Ok w <-> vcalendar_back v w.
Proof. intros. now apply calendar_back_iff. Qed.
Lemma vec_child_out {T} (S : serialize T) nm n l : s_component S = Some nm -> (length l <= 1)%nat -> Forall (fun x => exists o, s_ical S x = Ok o) l -> exists out, vec_field S n l = Ok out.
Proof.
  intros Hc Hl H. destruct l as [|x [|y l]]; cbn [vec_field length] in *; [| |lia].
  - rewrite (C01_empty_value _ (ser_vec S) n []) by reflexivity. eauto.
  - apply Forall_inv in H as [o H]. unfold ser_field. rewrite H, Hc. cbn. eauto.
Qed.
Lemma all_out {T} (S : serialize T) (P Q : T -> Prop) l : (forall x, P x -> Q x -> exists o, s_ical S x = Ok o) -> Forall P l -> Forall Q l -> Forall (fun x => exists o, s_ical S x = Ok o) l.
Proof. intros H A B. rewrite Forall_forall in *. auto. Qed.
Theorem C53_vtimezone_serialises : forall v, vtimezone_fit v -> Forall ascii_line (vtimezone_written v) ->
  Forall (fun x => Forall ascii_line (standard_written x)) (tz_standard v) -> Forall (fun x => Forall ascii_line (daylight_written x)) (tz_daylight v) ->
  exists out, s_ical ser_vtimezone v = Ok out.
Proof.
  intros v (T & [L1 L2] & F1 & F2 & _) A B C. rewrite <- vtimezone_body_eq, !Forall_app in A. destruct A as (A & X & I).
  destruct (fields_lines_written _ _ _ tz_line_names (tz_line_ok v T) A) as [h Hh].
  destruct (vec_child_out ser_standard (lit "STANDARD") (lit "STANDARD") (tz_standard v) eq_refl L1) as [s Hs]; [eapply all_out; [|exact F1|exact B]; intros; now apply standard_out|].
  destruct (vec_child_out ser_daylight (lit "DAYLIGHT") (lit "DAYLIGHT") (tz_daylight v) eq_refl L2) as [d Hd]; [eapply all_out; [|exact F2|exact C]; intros; now apply daylight_out|].
  unfold vtimezone_tidy in T. destruct T as (_ & _ & _ & T1 & T2).
  destruct (item_written (ser_map ser_cl) (lit "X-PROP") (tz_x_prop v) _ name_ok_x (item_ext _ _ T1) X) as [x Hx].
  destruct (item_written (ser_map ser_cl) (lit "IANA-PROP") (tz_iana_prop v) _ name_ok_i (item_ext _ _ T2) I) as [i Hi].
  cbn [s_ical ser_vtimezone ser_iso]. unfold comp_ical. cbn [c_xprop c_iana c_fields vtimezone_to]. rewrite Hx, Hi.
  assert (G : exists b, ser_fields vtimezone_schema (tz_tzid v, (tz_last_modified v, (tz_tzurl v, (tz_standard v, (tz_daylight v, tt))))) = Ok b).
  { revert Hh. unfold vtimezone_schema, tz_line_fields. cbn [ser_fields fst snd].
    destruct (f_ser (lit "TZID") _ _) as [a| |]; cbn [obind]; try discriminate.
    destruct (f_ser (lit "LAST-MODIFIED") _ _) as [b| |]; cbn [obind]; try discriminate.
    destruct (f_ser (lit "TZURL") _ _) as [c| |]; cbn [obind]; try discriminate. intros _.
    cbn [f_ser]. rewrite Hs, Hd. cbn [obind]. eauto. }
  destruct G as [b Hb]. rewrite Hb. cbn [obind]. eauto.
Qed.
Definition vtimezone_ascii (v : vtimezone) : Prop := Forall ascii_line (vtimezone_written v) /\
  Forall (fun x => Forall ascii_line (standard_written x)) (tz_standard v) /\ Forall (fun x => Forall ascii_line (daylight_written x)) (tz_daylight v).
Theorem C53_vcalendar_serialises : forall v, vcalendar_fit v -> Forall ascii_line (vcalendar_written v) ->
  Forall (fun x => Forall ascii_line (vevent_written x)) (ca_events v) -> Forall (fun x => Forall ascii_line (vfreebusy_written x)) (ca_freebusy v) ->
  Forall (fun x => Forall ascii_line (vjournal_written x)) (ca_journals v) -> Forall (fun x => Forall ascii_line (vtodo_written x)) (ca_todo v) ->
  Forall vtimezone_ascii (ca_timezones v) -> exists out, s_ical ser_vcalendar v = Ok out.
Proof.
  intros v (T & (L0 & L1 & L2 & L3 & L4 & L5) & F1 & F2 & F3 & F4 & F5 & _) A A1 A2 A3 A4 A5. rewrite <- vcalendar_body_eq, !Forall_app in A. destruct A as (A & X & I).
  destruct (fields_lines_written _ _ _ ca_line_names (ca_line_ok v T) A) as [h Hh].
  destruct (vec_child_out ser_vevent (lit "VEVENT") (lit "EVENTS") (ca_events v) eq_refl L1) as [s1 H1]; [eapply all_out; [|exact F1|exact A1]; intros; now apply vevent_out|].
  destruct (vec_child_out ser_vfreebusy (lit "VFREEBUSY") (lit "FREEBUSY") (ca_freebusy v) eq_refl L2) as [s2 H2]; [eapply all_out; [|exact F2|exact A2]; intros; now apply vfreebusy_out|].
  destruct (vec_child_out ser_vjournal (lit "VJOURNAL") (lit "JOURNALS") (ca_journals v) eq_refl L3) as [s3 H3]; [eapply all_out; [|exact F3|exact A3]; intros; now apply vjournal_out|].
  destruct (vec_child_out ser_vtodo (lit "VTODO") (lit "TODO") (ca_todo v) eq_refl L4) as [s4 H4]; [eapply all_out; [|exact F4|exact A4]; intros; now apply vtodo_out|].
  destruct (vec_child_out ser_vtimezone (lit "VTIMEZONE") (lit "TIMEZONES") (ca_timezones v) eq_refl L5) as [s5 H5]; [eapply all_out; [|exact F5|exact A5]; intros y Hy (Y1 & Y2 & Y3); now apply C53_vtimezone_serialises|].
  unfold vcalendar_tidy in T. destruct T as (_ & _ & _ & _ & T1 & T2).
  destruct (item_written (ser_map ser_cl) (lit "X-PROP") (ca_x_prop v) _ name_ok_x (item_ext _ _ T1) X) as [x Hx].
  destruct (item_written (ser_map ser_cl) (lit "IANA-PROP") (ca_iana_prop v) _ name_ok_i (item_ext _ _ T2) I) as [i Hi].
  cbn [s_ical ser_vcalendar ser_iso]. unfold comp_ical. cbn [c_xprop c_iana c_fields vcalendar_to]. rewrite Hx, Hi.
  assert (G : exists b, ser_fields vcalendar_schema (ca_prodid v, (ca_version v, (ca_calscale v, (ca_method v, (ca_alarms v, (ca_events v, (ca_freebusy v, (ca_journals v, (ca_todo v, (ca_timezones v, tt)))))))))) = Ok b).
  { revert Hh. unfold vcalendar_schema, ca_line_fields. cbn [ser_fields fst snd].
    destruct (f_ser (lit "PRODID") _ _) as [a| |]; cbn [obind]; try discriminate.
    destruct (f_ser (lit "VERSION") _ _) as [b| |]; cbn [obind]; try discriminate.
    destruct (f_ser (lit "CALSCALE") _ _) as [c| |]; cbn [obind]; try discriminate.
    destruct (f_ser (lit "METHOD") _ _) as [d| |]; cbn [obind]; try discriminate. intros _.
    cbn [f_ser]. rewrite L0, H1, H2, H3, H4, H5. cbn [vec_field]. rewrite (C01_empty_value _ (ser_vec ser_valarm) (lit "ALARMS") []) by reflexivity. cbn [obind]. eauto. }
  destruct G as [b Hb]. rewrite Hb. cbn [obind]. eauto.
Qed.
Theorem C53_vcalendar_round_trip : forall v out, vcalendar_safe v -> s_ical ser_vcalendar v = Ok out -> vcalendar_of_str out = Ok v.
Proof. intros v out S H. apply (C53_vcalendar_read_back v out v); auto; [now apply ca_safe_tidy|now apply ca_safe_back]. Qed.

(** ** C58: the frame of an alarm

    The content is BEGIN:kind, [body], END:kind; in the text of the alarm only the
    kind is changed. No hypothesis on the alarm: [body] may hold anything. *)
Theorem C58_alarm_frame : forall a out, s_ical ser_valarm a = Ok out <-> exists kind body,
  match a with
  | AAudio x => kind = lit "AUDIO" /\ s_ical ser_audio x = Ok (lit "BEGIN:AUDIO" ++ [CR; LF] ++ body ++ lit "END:AUDIO" ++ [CR; LF])
  | ADisplay x => kind = lit "DISPLAY" /\ s_ical ser_display_alarm x = Ok (lit "BEGIN:DISPLAY" ++ [CR; LF] ++ body ++ lit "END:DISPLAY" ++ [CR; LF])
  | AEmail x => kind = lit "EMAIL" /\ s_ical ser_email x = Ok (lit "BEGIN:EMAIL" ++ [CR; LF] ++ body ++ lit "END:EMAIL" ++ [CR; LF])
  end /\ (body = [] \/ exists b, body = b ++ [LF]) /\
  out = lit "BEGIN:VALARM" ++ [CR; LF] ++ body ++ lit "END:VALARM" ++ [CR; LF].
Proof.
  intros a out. split.
  - intros H. apply alarm_frame in H as (body & C & W & ->). exists (alarm_name a), body. split; [|split; [exact W|reflexivity]].
    destruct a; cbn [alarm_content alarm_name] in *; split; auto.
  - intros (kind & body & C & W & ->). cbn [s_ical ser_valarm]. unfold valarm_ical.
    destruct a; destruct C as [-> ->]; cbn [obind]; f_equal.
    + exact (reframe_frame (lit "AUDIO") body audio_upper W).
    + exact (reframe_frame (lit "DISPLAY") body display_upper W).
    + exact (reframe_frame (lit "EMAIL") body email_upper W).
Qed.
(** An alarm fails to serialise exactly when its content does, in the same way. *)
Theorem C58_alarm_fails : forall a,
  let content := match a with AAudio x => s_ical ser_audio x | ADisplay x => s_ical ser_display_alarm x | AEmail x => s_ical ser_email x end in
  (forall e, s_ical ser_valarm a = Err e <-> content = Err e) /\ (s_ical ser_valarm a = Panic <-> content = Panic).
Proof.
  intros a. cbn [s_ical ser_valarm]. unfold valarm_ical. cbv zeta. change (match a with AAudio x => _ | ADisplay y => _ | AEmail z => _ end) with (alarm_content a).
  destruct (alarm_content a); cbn [obind]; split; intros; split; intros X; try discriminate; auto; congruence.
Qed.
End Env.
