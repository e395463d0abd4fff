(** * The text of each component (generated text). *)
From Verif Require Import Base Env Chrono Nom Types Ser Parser Derive BaseFacts NomFacts SpecLine LineFacts SpecText SerFacts PropText PropLine
  SpecCal SpecDur PropVocab PropRule PropPeriod PropList Components SpecComp DeriveFacts SpecFields PropComp SpecFile PropFile SpecRound RoundFacts FrameFacts BackFacts FieldFacts ChildFacts CalFacts AlarmFacts SpecExact ExactFacts UnreadFacts.
Lemma line_names n m value : name_ok n -> Forall (fun c => name_ok (cl_key c)) (line n m value).
Proof. intros H. destruct value; constructor; [exact H|constructor]. Qed.
Lemma item_names {T} (S : serialize T) n v ls : name_ok n -> item' S n v ls -> Forall (fun c => name_ok (cl_key c)) ls.
Proof. intros H (value & m & _ & _ & _ & ->). now apply line_names. Qed.
Lemma fields_items_names s vs ls : Forall (fun nf => name_ok (fst nf)) s -> fields_items s vs ls -> Forall (fun c => name_ok (cl_key c)) ls.
Proof.
  revert ls; induction s as [|[n f] r IH]; intros ls Hs HL; cbn [fields_items] in *; [subst; constructor|].
  destruct HL as (a & b & -> & A & B). inversion Hs as [|? ? Hn Hs']; subst. apply Forall_app. split; [|eauto].
  cbn [fst] in *. clear B IH. revert a A. destruct vs as [v vs]. cbn [fst]. destruct f; cbn [f_items] in *; intros a A; try (eapply item_names; eauto; fail).
  - destruct v; [eapply item_names; eauto|subst; constructor].
  - destruct v as [|x [|y l]]; [subst; constructor|eapply item_names; eauto..].
  - destruct v as [|x [|y l]]; [subst; constructor|eapply item_names; eauto..].
  - destruct v as [|x [|y l]]; [subst; constructor|eapply item_names; eauto..].
Qed.
Lemma ext_names n m : name_ok n -> Forall (fun c => name_ok (cl_key c)) (ext_line n m).
Proof. intros H. now apply line_names. Qed.
Lemma nice_lines ls : Forall (fun c => name_ok (cl_key c)) ls -> Forall unbroken ls -> Forall (fun c => good_params (cl_params c)) ls -> Forall nice ls.
Proof. rewrite !Forall_forall. intros A B C x Hx. split; [now apply A|]. split; [now apply C|]. now apply B. Qed.
Section Env.
Context {E : Env}.

(** audio *)
Lemma audio_items v : fields_items audio_schema (c_fields (audio_to v)) (audio_body v).
Proof.
  intros. unfold audio_body, audio_schema, audio_to. cbn [c_fields]. 
  eapply fi_cons; [reflexivity|cbn [fst]; eapply fi_req; apply I_text|cbn [snd]].
  eapply fi_cons; [reflexivity|cbn [fst]; eapply fi_req; apply I_trigger|cbn [snd]].
  eapply fi_cons; [reflexivity|cbn [fst]; eapply fi_opt; apply I_td|cbn [snd]].
  eapply fi_cons; [reflexivity|cbn [fst]; eapply fi_opt; apply I_u32|cbn [snd]].
  eapply fi_cons; [reflexivity|cbn [fst]; eapply fi_vec; apply I_text|cbn [snd]].
  apply fi_nil.
Qed.
Lemma audio_unbroken v : audio_no_break v -> Forall unbroken (audio_written v).
Proof.
  unfold audio_no_break. intros. destruct_all. rewrite <- audio_body_eq. unfold audio_body. rewrite <- !app_assoc.
  apply Forall_app; split; [eapply u_req; [apply U_text|assumption]|].
  apply Forall_app; split; [eapply u_req; [apply U_trigger|assumption]|].
  apply Forall_app; split; [eapply u_opt; [apply U_td|apply holds_any]|].
  apply Forall_app; split; [eapply u_opt; [apply U_u32|apply holds_any]|].
  apply Forall_app; split; [eapply u_list; [apply U_text|assumption]|].
  cbn [app]. apply Forall_app; split; apply u_ext; assumption.
Qed.
Lemma audio_exact_body v out : Forall unbroken (audio_written v) -> s_ical ser_audio v = Ok out ->
  exists b, out = lit "BEGIN:" ++ lit "AUDIO" ++ CRLF ++ b ++ lit "END:" ++ lit "AUDIO" ++ CRLF /\ exact b (raw_lines (audio_written v)).
Proof.
  intros U H. rewrite <- audio_body_eq in *. change (au_x_prop v) with (c_xprop (audio_to v)) in *. change (au_iana_prop v) with (c_iana (audio_to v)) in *.
  apply comp_body; [apply audio_names|now apply audio_items|exact U|exact H].
Qed.
Lemma audio_exact v out : Forall unbroken (audio_written v) -> s_ical ser_audio v = Ok out -> exact out (audio_text v).
Proof.
  intros U H. destruct (audio_exact_body v out U H) as (b & -> & B). unfold audio_text. apply exact_frame; [apply audio_upper|exact B].
Qed.
Lemma audio_keys v : Forall (fun c => name_ok (cl_key c)) (audio_written v).
Proof.
  intros. rewrite <- audio_body_eq. rewrite !Forall_app. split; [eapply fields_items_names; [apply audio_names|now apply audio_items]|].
  split; apply ext_names; [apply name_ok_x|apply name_ok_i].
Qed.

(** display *)
Lemma display_items v : fields_items display_schema (c_fields (display_to v)) (display_body v).
Proof.
  intros. unfold display_body, display_schema, display_to. cbn [c_fields]. 
  eapply fi_cons; [reflexivity|cbn [fst]; eapply fi_req; apply I_text|cbn [snd]].
  eapply fi_cons; [reflexivity|cbn [fst]; eapply fi_req; apply I_trigger|cbn [snd]].
  eapply fi_cons; [reflexivity|cbn [fst]; eapply fi_req; apply I_text|cbn [snd]].
  eapply fi_cons; [reflexivity|cbn [fst]; eapply fi_opt; apply I_td|cbn [snd]].
  eapply fi_cons; [reflexivity|cbn [fst]; eapply fi_opt; apply I_u32|cbn [snd]].
  apply fi_nil.
Qed.
Lemma display_unbroken v : display_no_break v -> Forall unbroken (display_written v).
Proof.
  unfold display_no_break. intros. destruct_all. rewrite <- display_body_eq. unfold display_body. rewrite <- !app_assoc.
  apply Forall_app; split; [eapply u_req; [apply U_text|assumption]|].
  apply Forall_app; split; [eapply u_req; [apply U_trigger|assumption]|].
  apply Forall_app; split; [eapply u_req; [apply U_text|assumption]|].
  apply Forall_app; split; [eapply u_opt; [apply U_td|apply holds_any]|].
  apply Forall_app; split; [eapply u_opt; [apply U_u32|apply holds_any]|].
  cbn [app]. apply Forall_app; split; apply u_ext; assumption.
Qed.
Lemma display_exact_body v out : Forall unbroken (display_written v) -> s_ical ser_display_alarm v = Ok out ->
  exists b, out = lit "BEGIN:" ++ lit "DISPLAY" ++ CRLF ++ b ++ lit "END:" ++ lit "DISPLAY" ++ CRLF /\ exact b (raw_lines (display_written v)).
Proof.
  intros U H. rewrite <- display_body_eq in *. change (di_x_prop v) with (c_xprop (display_to v)) in *. change (di_iana_prop v) with (c_iana (display_to v)) in *.
  apply comp_body; [apply display_names|now apply display_items|exact U|exact H].
Qed.
Lemma display_exact v out : Forall unbroken (display_written v) -> s_ical ser_display_alarm v = Ok out -> exact out (display_text v).
Proof.
  intros U H. destruct (display_exact_body v out U H) as (b & -> & B). unfold display_text. apply exact_frame; [apply display_upper|exact B].
Qed.
Lemma display_keys v : Forall (fun c => name_ok (cl_key c)) (display_written v).
Proof.
  intros. rewrite <- display_body_eq. rewrite !Forall_app. split; [eapply fields_items_names; [apply display_names|now apply display_items]|].
  split; apply ext_names; [apply name_ok_x|apply name_ok_i].
Qed.

(** email *)
Lemma email_items v : fields_items email_schema (c_fields (email_to v)) (email_body v).
Proof.
  intros. unfold email_body, email_schema, email_to. cbn [c_fields]. 
  eapply fi_cons; [reflexivity|cbn [fst]; eapply fi_req; apply I_text|cbn [snd]].
  eapply fi_cons; [reflexivity|cbn [fst]; eapply fi_req; apply I_trigger|cbn [snd]].
  eapply fi_cons; [reflexivity|cbn [fst]; eapply fi_req; apply I_text|cbn [snd]].
  eapply fi_cons; [reflexivity|cbn [fst]; eapply fi_req; apply I_text|cbn [snd]].
  eapply fi_cons; [reflexivity|cbn [fst]; eapply fi_vec; apply I_uri|cbn [snd]].
  eapply fi_cons; [reflexivity|cbn [fst]; eapply fi_opt; apply I_td|cbn [snd]].
  eapply fi_cons; [reflexivity|cbn [fst]; eapply fi_opt; apply I_u32|cbn [snd]].
  eapply fi_cons; [reflexivity|cbn [fst]; eapply fi_vec; apply I_text|cbn [snd]].
  apply fi_nil.
Qed.
Lemma email_unbroken v : email_no_break v -> Forall unbroken (email_written v).
Proof.
  unfold email_no_break. intros. destruct_all. rewrite <- email_body_eq. unfold email_body. rewrite <- !app_assoc.
  apply Forall_app; split; [eapply u_req; [apply U_text|assumption]|].
  apply Forall_app; split; [eapply u_req; [apply U_trigger|assumption]|].
  apply Forall_app; split; [eapply u_req; [apply U_text|assumption]|].
  apply Forall_app; split; [eapply u_req; [apply U_text|assumption]|].
  apply Forall_app; split; [eapply u_list; [apply U_uri|assumption]|].
  apply Forall_app; split; [eapply u_opt; [apply U_td|apply holds_any]|].
  apply Forall_app; split; [eapply u_opt; [apply U_u32|apply holds_any]|].
  apply Forall_app; split; [eapply u_list; [apply U_text|assumption]|].
  cbn [app]. apply Forall_app; split; apply u_ext; assumption.
Qed.
Lemma email_exact_body v out : Forall unbroken (email_written v) -> s_ical ser_email v = Ok out ->
  exists b, out = lit "BEGIN:" ++ lit "EMAIL" ++ CRLF ++ b ++ lit "END:" ++ lit "EMAIL" ++ CRLF /\ exact b (raw_lines (email_written v)).
Proof.
  intros U H. rewrite <- email_body_eq in *. change (em_x_prop v) with (c_xprop (email_to v)) in *. change (em_iana_prop v) with (c_iana (email_to v)) in *.
  apply comp_body; [apply email_names|now apply email_items|exact U|exact H].
Qed.
Lemma email_exact v out : Forall unbroken (email_written v) -> s_ical ser_email v = Ok out -> exact out (email_text v).
Proof.
  intros U H. destruct (email_exact_body v out U H) as (b & -> & B). unfold email_text. apply exact_frame; [apply email_upper|exact B].
Qed.
Lemma email_keys v : Forall (fun c => name_ok (cl_key c)) (email_written v).
Proof.
  intros. rewrite <- email_body_eq. rewrite !Forall_app. split; [eapply fields_items_names; [apply email_names|now apply email_items]|].
  split; apply ext_names; [apply name_ok_x|apply name_ok_i].
Qed.

(** vevent *)
Lemma vevent_items v : ev_alarms v = [] -> fields_items vevent_schema (c_fields (vevent_to v)) (vevent_body v).
Proof.
  intros. unfold vevent_body, vevent_schema, vevent_to. cbn [c_fields]. rename H into Ha.
  eapply fi_cons; [reflexivity|cbn [fst]; eapply fi_req; apply I_datetime|cbn [snd]].
  eapply fi_cons; [reflexivity|cbn [fst]; eapply fi_req; apply I_text|cbn [snd]].
  eapply fi_cons; [reflexivity|cbn [fst]; eapply fi_req; apply I_date|cbn [snd]].
  eapply fi_cons; [reflexivity|cbn [fst]; eapply fi_opt; apply I_class|cbn [snd]].
  eapply fi_cons; [reflexivity|cbn [fst]; eapply fi_opt; apply I_datetime|cbn [snd]].
  eapply fi_cons; [reflexivity|cbn [fst]; eapply fi_opt; apply I_text|cbn [snd]].
  eapply fi_cons; [reflexivity|cbn [fst]; eapply fi_opt; apply I_geo|cbn [snd]].
  eapply fi_cons; [reflexivity|cbn [fst]; eapply fi_opt; apply I_datetime|cbn [snd]].
  eapply fi_cons; [reflexivity|cbn [fst]; eapply fi_opt; apply I_text|cbn [snd]].
  eapply fi_cons; [reflexivity|cbn [fst]; eapply fi_opt; apply I_uri|cbn [snd]].
  eapply fi_cons; [reflexivity|cbn [fst]; eapply fi_opt; apply I_u8|cbn [snd]].
  eapply fi_cons; [reflexivity|cbn [fst]; eapply fi_opt; apply I_u32|cbn [snd]].
  eapply fi_cons; [reflexivity|cbn [fst]; eapply fi_opt; apply I_status|cbn [snd]].
  eapply fi_cons; [reflexivity|cbn [fst]; eapply fi_opt; apply I_text|cbn [snd]].
  eapply fi_cons; [reflexivity|cbn [fst]; eapply fi_opt; apply I_transp|cbn [snd]].
  eapply fi_cons; [reflexivity|cbn [fst]; eapply fi_opt; apply I_uri|cbn [snd]].
  eapply fi_cons; [reflexivity|cbn [fst]; eapply fi_opt; apply I_date|cbn [snd]].
  eapply fi_cons; [reflexivity|cbn [fst]; eapply fi_opt; apply I_recur|cbn [snd]].
  eapply fi_cons; [reflexivity|cbn [fst]; eapply fi_opt; apply I_date|cbn [snd]].
  eapply fi_cons; [reflexivity|cbn [fst]; eapply fi_opt; apply I_td|cbn [snd]].
  eapply fi_cons; [reflexivity|cbn [fst]; eapply fi_vec; apply I_text|cbn [snd]].
  eapply fi_cons; [reflexivity|cbn [fst]; eapply fi_vec; apply I_uri|cbn [snd]].
  eapply fi_cons; [reflexivity|cbn [fst]; eapply fi_app; apply I_text|cbn [snd]].
  eapply fi_cons; [reflexivity|cbn [fst]; eapply fi_vec; apply I_text|cbn [snd]].
  eapply fi_cons; [reflexivity|cbn [fst]; eapply fi_vec; apply I_text|cbn [snd]].
  eapply fi_cons; [reflexivity|cbn [fst]; eapply fi_app; apply I_date|cbn [snd]].
  eapply fi_cons; [reflexivity|cbn [fst]; eapply fi_vec; apply I_rs|cbn [snd]].
  eapply fi_cons; [reflexivity|cbn [fst]; eapply fi_vec; apply I_text|cbn [snd]].
  eapply fi_cons; [reflexivity|cbn [fst]; eapply fi_app; apply I_text|cbn [snd]].
  eapply fi_cons; [reflexivity|cbn [fst]; eapply fi_vec; apply I_rdate|cbn [snd]].
  eapply fi_cons with (a := []); [reflexivity|cbn [fst]; apply fi_none, Ha|cbn [snd]].
  apply fi_nil.
Qed.
Lemma vevent_unbroken v : vevent_no_break v -> Forall unbroken (vevent_written v).
Proof.
  unfold vevent_no_break. intros. destruct_all. rewrite <- vevent_body_eq. unfold vevent_body. rewrite <- !app_assoc.
  apply Forall_app; split; [eapply u_req; [apply U_datetime|assumption]|].
  apply Forall_app; split; [eapply u_req; [apply U_text|assumption]|].
  apply Forall_app; split; [eapply u_req; [apply U_date|assumption]|].
  apply Forall_app; split; [eapply u_opt; [apply U_class|assumption]|].
  apply Forall_app; split; [eapply u_opt; [apply U_datetime|assumption]|].
  apply Forall_app; split; [eapply u_opt; [apply U_text|assumption]|].
  apply Forall_app; split; [eapply u_opt; [apply U_geo|assumption]|].
  apply Forall_app; split; [eapply u_opt; [apply U_datetime|assumption]|].
  apply Forall_app; split; [eapply u_opt; [apply U_text|assumption]|].
  apply Forall_app; split; [eapply u_opt; [apply U_uri|assumption]|].
  apply Forall_app; split; [eapply u_opt; [apply U_u8|apply holds_any]|].
  apply Forall_app; split; [eapply u_opt; [apply U_u32|apply holds_any]|].
  apply Forall_app; split; [eapply u_opt; [apply U_status|apply holds_any]|].
  apply Forall_app; split; [eapply u_opt; [apply U_text|assumption]|].
  apply Forall_app; split; [eapply u_opt; [apply U_transp|apply holds_any]|].
  apply Forall_app; split; [eapply u_opt; [apply U_uri|assumption]|].
  apply Forall_app; split; [eapply u_opt; [apply U_date|assumption]|].
  apply Forall_app; split; [eapply u_opt; [apply U_recur|assumption]|].
  apply Forall_app; split; [eapply u_opt; [apply U_date|assumption]|].
  apply Forall_app; split; [eapply u_opt; [apply U_td|apply holds_any]|].
  apply Forall_app; split; [eapply u_list; [apply U_text|assumption]|].
  apply Forall_app; split; [eapply u_list; [apply U_uri|assumption]|].
  apply Forall_app; split; [eapply u_list; [apply U_text|assumption]|].
  apply Forall_app; split; [eapply u_list; [apply U_text|assumption]|].
  apply Forall_app; split; [eapply u_list; [apply U_text|assumption]|].
  apply Forall_app; split; [eapply u_list; [apply U_date|assumption]|].
  apply Forall_app; split; [eapply u_list; [apply U_rs|assumption]|].
  apply Forall_app; split; [eapply u_list; [apply U_text|assumption]|].
  apply Forall_app; split; [eapply u_list; [apply U_text|assumption]|].
  apply Forall_app; split; [eapply u_list; [apply U_rdate|assumption]|].
  cbn [app]. apply Forall_app; split; apply u_ext; assumption.
Qed.
Lemma vevent_exact_body v out : ev_alarms v = [] -> Forall unbroken (vevent_written v) -> s_ical ser_vevent v = Ok out ->
  exists b, out = lit "BEGIN:" ++ lit "VEVENT" ++ CRLF ++ b ++ lit "END:" ++ lit "VEVENT" ++ CRLF /\ exact b (raw_lines (vevent_written v)).
Proof.
  intros Ha U H. rewrite <- vevent_body_eq in *. change (ev_x_prop v) with (c_xprop (vevent_to v)) in *. change (ev_iana_prop v) with (c_iana (vevent_to v)) in *.
  apply comp_body; [apply vevent_names|now apply vevent_items|exact U|exact H].
Qed.
Lemma vevent_exact v out : ev_alarms v = [] -> Forall unbroken (vevent_written v) -> s_ical ser_vevent v = Ok out -> exact out (vevent_text v).
Proof.
  intros Ha U H. destruct (vevent_exact_body v out Ha U H) as (b & -> & B). unfold vevent_text. apply exact_frame; [apply vevent_upper|exact B].
Qed.
Lemma vevent_keys v : ev_alarms v = [] -> Forall (fun c => name_ok (cl_key c)) (vevent_written v).
Proof.
  intros. rewrite <- vevent_body_eq. rewrite !Forall_app. split; [eapply fields_items_names; [apply vevent_names|now apply vevent_items]|].
  split; apply ext_names; [apply name_ok_x|apply name_ok_i].
Qed.

(** vfreebusy *)
Lemma vfreebusy_items v : fields_items vfreebusy_schema (c_fields (vfreebusy_to v)) (vfreebusy_body v).
Proof.
  intros. unfold vfreebusy_body, vfreebusy_schema, vfreebusy_to. cbn [c_fields]. 
  eapply fi_cons; [reflexivity|cbn [fst]; eapply fi_req; apply I_datetime|cbn [snd]].
  eapply fi_cons; [reflexivity|cbn [fst]; eapply fi_req; apply I_text|cbn [snd]].
  eapply fi_cons; [reflexivity|cbn [fst]; eapply fi_opt; apply I_text|cbn [snd]].
  eapply fi_cons; [reflexivity|cbn [fst]; eapply fi_opt; apply I_date|cbn [snd]].
  eapply fi_cons; [reflexivity|cbn [fst]; eapply fi_opt; apply I_date|cbn [snd]].
  eapply fi_cons; [reflexivity|cbn [fst]; eapply fi_opt; apply I_uri|cbn [snd]].
  eapply fi_cons; [reflexivity|cbn [fst]; eapply fi_opt; apply I_uri|cbn [snd]].
  eapply fi_cons; [reflexivity|cbn [fst]; eapply fi_vec; apply I_uri|cbn [snd]].
  eapply fi_cons; [reflexivity|cbn [fst]; eapply fi_vec; apply I_text|cbn [snd]].
  eapply fi_cons; [reflexivity|cbn [fst]; eapply fi_app; apply I_period|cbn [snd]].
  eapply fi_cons; [reflexivity|cbn [fst]; eapply fi_vec; apply I_rs|cbn [snd]].
  apply fi_nil.
Qed.
Lemma vfreebusy_unbroken v : vfreebusy_no_break v -> Forall unbroken (vfreebusy_written v).
Proof.
  unfold vfreebusy_no_break. intros. destruct_all. rewrite <- vfreebusy_body_eq. unfold vfreebusy_body. rewrite <- !app_assoc.
  apply Forall_app; split; [eapply u_req; [apply U_datetime|assumption]|].
  apply Forall_app; split; [eapply u_req; [apply U_text|assumption]|].
  apply Forall_app; split; [eapply u_opt; [apply U_text|assumption]|].
  apply Forall_app; split; [eapply u_opt; [apply U_date|assumption]|].
  apply Forall_app; split; [eapply u_opt; [apply U_date|assumption]|].
  apply Forall_app; split; [eapply u_opt; [apply U_uri|assumption]|].
  apply Forall_app; split; [eapply u_opt; [apply U_uri|assumption]|].
  apply Forall_app; split; [eapply u_list; [apply U_uri|assumption]|].
  apply Forall_app; split; [eapply u_list; [apply U_text|assumption]|].
  apply Forall_app; split; [eapply u_list; [apply U_period|assumption]|].
  apply Forall_app; split; [eapply u_list; [apply U_rs|assumption]|].
  cbn [app]. apply Forall_app; split; apply u_ext; assumption.
Qed.
Lemma vfreebusy_exact_body v out : Forall unbroken (vfreebusy_written v) -> s_ical ser_vfreebusy v = Ok out ->
  exists b, out = lit "BEGIN:" ++ lit "VFREEBUSY" ++ CRLF ++ b ++ lit "END:" ++ lit "VFREEBUSY" ++ CRLF /\ exact b (raw_lines (vfreebusy_written v)).
Proof.
  intros U H. rewrite <- vfreebusy_body_eq in *. change (fb_x_prop v) with (c_xprop (vfreebusy_to v)) in *. change (fb_iana_prop v) with (c_iana (vfreebusy_to v)) in *.
  apply comp_body; [apply vfreebusy_names|now apply vfreebusy_items|exact U|exact H].
Qed.
Lemma vfreebusy_exact v out : Forall unbroken (vfreebusy_written v) -> s_ical ser_vfreebusy v = Ok out -> exact out (vfreebusy_text v).
Proof.
  intros U H. destruct (vfreebusy_exact_body v out U H) as (b & -> & B). unfold vfreebusy_text. apply exact_frame; [apply vfreebusy_upper|exact B].
Qed.
Lemma vfreebusy_keys v : Forall (fun c => name_ok (cl_key c)) (vfreebusy_written v).
Proof.
  intros. rewrite <- vfreebusy_body_eq. rewrite !Forall_app. split; [eapply fields_items_names; [apply vfreebusy_names|now apply vfreebusy_items]|].
  split; apply ext_names; [apply name_ok_x|apply name_ok_i].
Qed.

(** vjournal *)
Lemma vjournal_items v : fields_items vjournal_schema (c_fields (vjournal_to v)) (vjournal_body v).
Proof.
  intros. unfold vjournal_body, vjournal_schema, vjournal_to. cbn [c_fields]. 
  eapply fi_cons; [reflexivity|cbn [fst]; eapply fi_req; apply I_datetime|cbn [snd]].
  eapply fi_cons; [reflexivity|cbn [fst]; eapply fi_req; apply I_text|cbn [snd]].
  eapply fi_cons; [reflexivity|cbn [fst]; eapply fi_opt; apply I_class|cbn [snd]].
  eapply fi_cons; [reflexivity|cbn [fst]; eapply fi_opt; apply I_datetime|cbn [snd]].
  eapply fi_cons; [reflexivity|cbn [fst]; eapply fi_req; apply I_date|cbn [snd]].
  eapply fi_cons; [reflexivity|cbn [fst]; eapply fi_opt; apply I_datetime|cbn [snd]].
  eapply fi_cons; [reflexivity|cbn [fst]; eapply fi_opt; apply I_uri|cbn [snd]].
  eapply fi_cons; [reflexivity|cbn [fst]; eapply fi_opt; apply I_date|cbn [snd]].
  eapply fi_cons; [reflexivity|cbn [fst]; eapply fi_opt; apply I_u32|cbn [snd]].
  eapply fi_cons; [reflexivity|cbn [fst]; eapply fi_opt; apply I_status|cbn [snd]].
  eapply fi_cons; [reflexivity|cbn [fst]; eapply fi_opt; apply I_text|cbn [snd]].
  eapply fi_cons; [reflexivity|cbn [fst]; eapply fi_opt; apply I_uri|cbn [snd]].
  eapply fi_cons; [reflexivity|cbn [fst]; eapply fi_opt; apply I_recur|cbn [snd]].
  eapply fi_cons; [reflexivity|cbn [fst]; eapply fi_vec; apply I_text|cbn [snd]].
  eapply fi_cons; [reflexivity|cbn [fst]; eapply fi_vec; apply I_uri|cbn [snd]].
  eapply fi_cons; [reflexivity|cbn [fst]; eapply fi_app; apply I_text|cbn [snd]].
  eapply fi_cons; [reflexivity|cbn [fst]; eapply fi_vec; apply I_text|cbn [snd]].
  eapply fi_cons; [reflexivity|cbn [fst]; eapply fi_vec; apply I_text|cbn [snd]].
  eapply fi_cons; [reflexivity|cbn [fst]; eapply fi_vec; apply I_text|cbn [snd]].
  eapply fi_cons; [reflexivity|cbn [fst]; eapply fi_app; apply I_date|cbn [snd]].
  eapply fi_cons; [reflexivity|cbn [fst]; eapply fi_vec; apply I_text|cbn [snd]].
  eapply fi_cons; [reflexivity|cbn [fst]; eapply fi_vec; apply I_rdate|cbn [snd]].
  eapply fi_cons; [reflexivity|cbn [fst]; eapply fi_vec; apply I_rs|cbn [snd]].
  apply fi_nil.
Qed.
Lemma vjournal_unbroken v : vjournal_no_break v -> Forall unbroken (vjournal_written v).
Proof.
  unfold vjournal_no_break. intros. destruct_all. rewrite <- vjournal_body_eq. unfold vjournal_body. rewrite <- !app_assoc.
  apply Forall_app; split; [eapply u_req; [apply U_datetime|assumption]|].
  apply Forall_app; split; [eapply u_req; [apply U_text|assumption]|].
  apply Forall_app; split; [eapply u_opt; [apply U_class|assumption]|].
  apply Forall_app; split; [eapply u_opt; [apply U_datetime|assumption]|].
  apply Forall_app; split; [eapply u_req; [apply U_date|assumption]|].
  apply Forall_app; split; [eapply u_opt; [apply U_datetime|assumption]|].
  apply Forall_app; split; [eapply u_opt; [apply U_uri|assumption]|].
  apply Forall_app; split; [eapply u_opt; [apply U_date|assumption]|].
  apply Forall_app; split; [eapply u_opt; [apply U_u32|apply holds_any]|].
  apply Forall_app; split; [eapply u_opt; [apply U_status|apply holds_any]|].
  apply Forall_app; split; [eapply u_opt; [apply U_text|assumption]|].
  apply Forall_app; split; [eapply u_opt; [apply U_uri|assumption]|].
  apply Forall_app; split; [eapply u_opt; [apply U_recur|assumption]|].
  apply Forall_app; split; [eapply u_list; [apply U_text|assumption]|].
  apply Forall_app; split; [eapply u_list; [apply U_uri|assumption]|].
  apply Forall_app; split; [eapply u_list; [apply U_text|assumption]|].
  apply Forall_app; split; [eapply u_list; [apply U_text|assumption]|].
  apply Forall_app; split; [eapply u_list; [apply U_text|assumption]|].
  apply Forall_app; split; [eapply u_list; [apply U_text|assumption]|].
  apply Forall_app; split; [eapply u_list; [apply U_date|assumption]|].
  apply Forall_app; split; [eapply u_list; [apply U_text|assumption]|].
  apply Forall_app; split; [eapply u_list; [apply U_rdate|assumption]|].
  apply Forall_app; split; [eapply u_list; [apply U_rs|assumption]|].
  cbn [app]. apply Forall_app; split; apply u_ext; assumption.
Qed.
Lemma vjournal_exact_body v out : Forall unbroken (vjournal_written v) -> s_ical ser_vjournal v = Ok out ->
  exists b, out = lit "BEGIN:" ++ lit "VJOURNAL" ++ CRLF ++ b ++ lit "END:" ++ lit "VJOURNAL" ++ CRLF /\ exact b (raw_lines (vjournal_written v)).
Proof.
  intros U H. rewrite <- vjournal_body_eq in *. change (jo_x_prop v) with (c_xprop (vjournal_to v)) in *. change (jo_iana_prop v) with (c_iana (vjournal_to v)) in *.
  apply comp_body; [apply vjournal_names|now apply vjournal_items|exact U|exact H].
Qed.
Lemma vjournal_exact v out : Forall unbroken (vjournal_written v) -> s_ical ser_vjournal v = Ok out -> exact out (vjournal_text v).
Proof.
  intros U H. destruct (vjournal_exact_body v out U H) as (b & -> & B). unfold vjournal_text. apply exact_frame; [apply vjournal_upper|exact B].
Qed.
Lemma vjournal_keys v : Forall (fun c => name_ok (cl_key c)) (vjournal_written v).
Proof.
  intros. rewrite <- vjournal_body_eq. rewrite !Forall_app. split; [eapply fields_items_names; [apply vjournal_names|now apply vjournal_items]|].
  split; apply ext_names; [apply name_ok_x|apply name_ok_i].
Qed.

(** vtodo *)
Lemma vtodo_items v : fields_items vtodo_schema (c_fields (vtodo_to v)) (vtodo_body v).
Proof.
  intros. unfold vtodo_body, vtodo_schema, vtodo_to. cbn [c_fields]. 
  eapply fi_cons; [reflexivity|cbn [fst]; eapply fi_req; apply I_datetime|cbn [snd]].
  eapply fi_cons; [reflexivity|cbn [fst]; eapply fi_req; apply I_text|cbn [snd]].
  eapply fi_cons; [reflexivity|cbn [fst]; eapply fi_opt; apply I_class|cbn [snd]].
  eapply fi_cons; [reflexivity|cbn [fst]; eapply fi_opt; apply I_datetime|cbn [snd]].
  eapply fi_cons; [reflexivity|cbn [fst]; eapply fi_opt; apply I_datetime|cbn [snd]].
  eapply fi_cons; [reflexivity|cbn [fst]; eapply fi_opt; apply I_date|cbn [snd]].
  eapply fi_cons; [reflexivity|cbn [fst]; eapply fi_opt; apply I_geo|cbn [snd]].
  eapply fi_cons; [reflexivity|cbn [fst]; eapply fi_opt; apply I_datetime|cbn [snd]].
  eapply fi_cons; [reflexivity|cbn [fst]; eapply fi_opt; apply I_text|cbn [snd]].
  eapply fi_cons; [reflexivity|cbn [fst]; eapply fi_opt; apply I_uri|cbn [snd]].
  eapply fi_cons; [reflexivity|cbn [fst]; eapply fi_opt; apply I_u8|cbn [snd]].
  eapply fi_cons; [reflexivity|cbn [fst]; eapply fi_opt; apply I_u8|cbn [snd]].
  eapply fi_cons; [reflexivity|cbn [fst]; eapply fi_opt; apply I_date|cbn [snd]].
  eapply fi_cons; [reflexivity|cbn [fst]; eapply fi_opt; apply I_u32|cbn [snd]].
  eapply fi_cons; [reflexivity|cbn [fst]; eapply fi_opt; apply I_status|cbn [snd]].
  eapply fi_cons; [reflexivity|cbn [fst]; eapply fi_opt; apply I_text|cbn [snd]].
  eapply fi_cons; [reflexivity|cbn [fst]; eapply fi_opt; apply I_uri|cbn [snd]].
  eapply fi_cons; [reflexivity|cbn [fst]; eapply fi_opt; apply I_recur|cbn [snd]].
  eapply fi_cons; [reflexivity|cbn [fst]; eapply fi_opt; apply I_date|cbn [snd]].
  eapply fi_cons; [reflexivity|cbn [fst]; eapply fi_opt; apply I_td|cbn [snd]].
  eapply fi_cons; [reflexivity|cbn [fst]; eapply fi_vec; apply I_text|cbn [snd]].
  eapply fi_cons; [reflexivity|cbn [fst]; eapply fi_vec; apply I_uri|cbn [snd]].
  eapply fi_cons; [reflexivity|cbn [fst]; eapply fi_app; apply I_text|cbn [snd]].
  eapply fi_cons; [reflexivity|cbn [fst]; eapply fi_vec; apply I_text|cbn [snd]].
  eapply fi_cons; [reflexivity|cbn [fst]; eapply fi_vec; apply I_text|cbn [snd]].
  eapply fi_cons; [reflexivity|cbn [fst]; eapply fi_app; apply I_date|cbn [snd]].
  eapply fi_cons; [reflexivity|cbn [fst]; eapply fi_vec; apply I_rs|cbn [snd]].
  eapply fi_cons; [reflexivity|cbn [fst]; eapply fi_vec; apply I_text|cbn [snd]].
  eapply fi_cons; [reflexivity|cbn [fst]; eapply fi_app; apply I_text|cbn [snd]].
  eapply fi_cons; [reflexivity|cbn [fst]; eapply fi_vec; apply I_rdate|cbn [snd]].
  apply fi_nil.
Qed.
Lemma vtodo_unbroken v : vtodo_no_break v -> Forall unbroken (vtodo_written v).
Proof.
  unfold vtodo_no_break. intros. destruct_all. rewrite <- vtodo_body_eq. unfold vtodo_body. rewrite <- !app_assoc.
  apply Forall_app; split; [eapply u_req; [apply U_datetime|assumption]|].
  apply Forall_app; split; [eapply u_req; [apply U_text|assumption]|].
  apply Forall_app; split; [eapply u_opt; [apply U_class|assumption]|].
  apply Forall_app; split; [eapply u_opt; [apply U_datetime|assumption]|].
  apply Forall_app; split; [eapply u_opt; [apply U_datetime|assumption]|].
  apply Forall_app; split; [eapply u_opt; [apply U_date|assumption]|].
  apply Forall_app; split; [eapply u_opt; [apply U_geo|assumption]|].
  apply Forall_app; split; [eapply u_opt; [apply U_datetime|assumption]|].
  apply Forall_app; split; [eapply u_opt; [apply U_text|assumption]|].
  apply Forall_app; split; [eapply u_opt; [apply U_uri|assumption]|].
  apply Forall_app; split; [eapply u_opt; [apply U_u8|apply holds_any]|].
  apply Forall_app; split; [eapply u_opt; [apply U_u8|apply holds_any]|].
  apply Forall_app; split; [eapply u_opt; [apply U_date|assumption]|].
  apply Forall_app; split; [eapply u_opt; [apply U_u32|apply holds_any]|].
  apply Forall_app; split; [eapply u_opt; [apply U_status|apply holds_any]|].
  apply Forall_app; split; [eapply u_opt; [apply U_text|assumption]|].
  apply Forall_app; split; [eapply u_opt; [apply U_uri|assumption]|].
  apply Forall_app; split; [eapply u_opt; [apply U_recur|assumption]|].
  apply Forall_app; split; [eapply u_opt; [apply U_date|assumption]|].
  apply Forall_app; split; [eapply u_opt; [apply U_td|apply holds_any]|].
  apply Forall_app; split; [eapply u_list; [apply U_text|assumption]|].
  apply Forall_app; split; [eapply u_list; [apply U_uri|assumption]|].
  apply Forall_app; split; [eapply u_list; [apply U_text|assumption]|].
  apply Forall_app; split; [eapply u_list; [apply U_text|assumption]|].
  apply Forall_app; split; [eapply u_list; [apply U_text|assumption]|].
  apply Forall_app; split; [eapply u_list; [apply U_date|assumption]|].
  apply Forall_app; split; [eapply u_list; [apply U_rs|assumption]|].
  apply Forall_app; split; [eapply u_list; [apply U_text|assumption]|].
  apply Forall_app; split; [eapply u_list; [apply U_text|assumption]|].
  apply Forall_app; split; [eapply u_list; [apply U_rdate|assumption]|].
  cbn [app]. apply Forall_app; split; apply u_ext; assumption.
Qed.
Lemma vtodo_exact_body v out : Forall unbroken (vtodo_written v) -> s_ical ser_vtodo v = Ok out ->
  exists b, out = lit "BEGIN:" ++ lit "VTODO" ++ CRLF ++ b ++ lit "END:" ++ lit "VTODO" ++ CRLF /\ exact b (raw_lines (vtodo_written v)).
Proof.
  intros U H. rewrite <- vtodo_body_eq in *. change (to_x_prop v) with (c_xprop (vtodo_to v)) in *. change (to_iana_prop v) with (c_iana (vtodo_to v)) in *.
  apply comp_body; [apply vtodo_names|now apply vtodo_items|exact U|exact H].
Qed.
Lemma vtodo_exact v out : Forall unbroken (vtodo_written v) -> s_ical ser_vtodo v = Ok out -> exact out (vtodo_text v).
Proof.
  intros U H. destruct (vtodo_exact_body v out U H) as (b & -> & B). unfold vtodo_text. apply exact_frame; [apply vtodo_upper|exact B].
Qed.
Lemma vtodo_keys v : Forall (fun c => name_ok (cl_key c)) (vtodo_written v).
Proof.
  intros. rewrite <- vtodo_body_eq. rewrite !Forall_app. split; [eapply fields_items_names; [apply vtodo_names|now apply vtodo_items]|].
  split; apply ext_names; [apply name_ok_x|apply name_ok_i].
Qed.

(** standard *)
Lemma standard_items v : fields_items standard_schema (c_fields (standard_to v)) (standard_body v).
Proof.
  intros. unfold standard_body, standard_schema, standard_to. cbn [c_fields]. 
  eapply fi_cons; [reflexivity|cbn [fst]; eapply fi_req; apply I_date|cbn [snd]].
  eapply fi_cons; [reflexivity|cbn [fst]; eapply fi_req; apply I_offset|cbn [snd]].
  eapply fi_cons; [reflexivity|cbn [fst]; eapply fi_req; apply I_offset|cbn [snd]].
  eapply fi_cons; [reflexivity|cbn [fst]; eapply fi_opt; apply I_recur|cbn [snd]].
  eapply fi_cons; [reflexivity|cbn [fst]; eapply fi_vec; apply I_text|cbn [snd]].
  eapply fi_cons; [reflexivity|cbn [fst]; eapply fi_vec; apply I_rdate|cbn [snd]].
  eapply fi_cons; [reflexivity|cbn [fst]; eapply fi_vec; apply I_text|cbn [snd]].
  apply fi_nil.
Qed.
Lemma standard_unbroken v : standard_no_break v -> Forall unbroken (standard_written v).
Proof.
  unfold standard_no_break. intros. destruct_all. rewrite <- standard_body_eq. unfold standard_body. rewrite <- !app_assoc.
  apply Forall_app; split; [eapply u_req; [apply U_date|assumption]|].
  apply Forall_app; split; [eapply u_req; [apply U_offset|assumption]|].
  apply Forall_app; split; [eapply u_req; [apply U_offset|assumption]|].
  apply Forall_app; split; [eapply u_opt; [apply U_recur|assumption]|].
  apply Forall_app; split; [eapply u_list; [apply U_text|assumption]|].
  apply Forall_app; split; [eapply u_list; [apply U_rdate|assumption]|].
  apply Forall_app; split; [eapply u_list; [apply U_text|assumption]|].
  cbn [app]. apply Forall_app; split; apply u_ext; assumption.
Qed.
Lemma standard_exact_body v out : Forall unbroken (standard_written v) -> s_ical ser_standard v = Ok out ->
  exists b, out = lit "BEGIN:" ++ lit "STANDARD" ++ CRLF ++ b ++ lit "END:" ++ lit "STANDARD" ++ CRLF /\ exact b (raw_lines (standard_written v)).
Proof.
  intros U H. rewrite <- standard_body_eq in *. change (st_x_prop v) with (c_xprop (standard_to v)) in *. change (st_iana_prop v) with (c_iana (standard_to v)) in *.
  apply comp_body; [apply standard_names|now apply standard_items|exact U|exact H].
Qed.
Lemma standard_exact v out : Forall unbroken (standard_written v) -> s_ical ser_standard v = Ok out -> exact out (standard_text v).
Proof.
  intros U H. destruct (standard_exact_body v out U H) as (b & -> & B). unfold standard_text. apply exact_frame; [apply standard_upper|exact B].
Qed.
Lemma standard_keys v : Forall (fun c => name_ok (cl_key c)) (standard_written v).
Proof.
  intros. rewrite <- standard_body_eq. rewrite !Forall_app. split; [eapply fields_items_names; [apply standard_names|now apply standard_items]|].
  split; apply ext_names; [apply name_ok_x|apply name_ok_i].
Qed.

(** daylight *)
Lemma daylight_items v : fields_items daylight_schema (c_fields (daylight_to v)) (daylight_body v).
Proof.
  intros. unfold daylight_body, daylight_schema, daylight_to. cbn [c_fields]. 
  eapply fi_cons; [reflexivity|cbn [fst]; eapply fi_req; apply I_date|cbn [snd]].
  eapply fi_cons; [reflexivity|cbn [fst]; eapply fi_req; apply I_offset|cbn [snd]].
  eapply fi_cons; [reflexivity|cbn [fst]; eapply fi_req; apply I_offset|cbn [snd]].
  eapply fi_cons; [reflexivity|cbn [fst]; eapply fi_opt; apply I_recur|cbn [snd]].
  eapply fi_cons; [reflexivity|cbn [fst]; eapply fi_vec; apply I_text|cbn [snd]].
  eapply fi_cons; [reflexivity|cbn [fst]; eapply fi_vec; apply I_rdate|cbn [snd]].
  eapply fi_cons; [reflexivity|cbn [fst]; eapply fi_vec; apply I_text|cbn [snd]].
  apply fi_nil.
Qed.
Lemma daylight_unbroken v : daylight_no_break v -> Forall unbroken (daylight_written v).
Proof.
  unfold daylight_no_break. intros. destruct_all. rewrite <- daylight_body_eq. unfold daylight_body. rewrite <- !app_assoc.
  apply Forall_app; split; [eapply u_req; [apply U_date|assumption]|].
  apply Forall_app; split; [eapply u_req; [apply U_offset|assumption]|].
  apply Forall_app; split; [eapply u_req; [apply U_offset|assumption]|].
  apply Forall_app; split; [eapply u_opt; [apply U_recur|assumption]|].
  apply Forall_app; split; [eapply u_list; [apply U_text|assumption]|].
  apply Forall_app; split; [eapply u_list; [apply U_rdate|assumption]|].
  apply Forall_app; split; [eapply u_list; [apply U_text|assumption]|].
  cbn [app]. apply Forall_app; split; apply u_ext; assumption.
Qed.
Lemma daylight_exact_body v out : Forall unbroken (daylight_written v) -> s_ical ser_daylight v = Ok out ->
  exists b, out = lit "BEGIN:" ++ lit "DAYLIGHT" ++ CRLF ++ b ++ lit "END:" ++ lit "DAYLIGHT" ++ CRLF /\ exact b (raw_lines (daylight_written v)).
Proof.
  intros U H. rewrite <- daylight_body_eq in *. change (dl_x_prop v) with (c_xprop (daylight_to v)) in *. change (dl_iana_prop v) with (c_iana (daylight_to v)) in *.
  apply comp_body; [apply daylight_names|now apply daylight_items|exact U|exact H].
Qed.
Lemma daylight_exact v out : Forall unbroken (daylight_written v) -> s_ical ser_daylight v = Ok out -> exact out (daylight_text v).
Proof.
  intros U H. destruct (daylight_exact_body v out U H) as (b & -> & B). unfold daylight_text. apply exact_frame; [apply daylight_upper|exact B].
Qed.
Lemma daylight_keys v : Forall (fun c => name_ok (cl_key c)) (daylight_written v).
Proof.
  intros. rewrite <- daylight_body_eq. rewrite !Forall_app. split; [eapply fields_items_names; [apply daylight_names|now apply daylight_items]|].
  split; apply ext_names; [apply name_ok_x|apply name_ok_i].
Qed.
End Env.
