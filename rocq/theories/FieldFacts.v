(** * Fields to lines and back, one component after the other (generated text). *)
From Verif Require Import Base Env Chrono Nom Types Ser Parser Derive BaseFacts NomFacts SpecLine LineFacts SpecText SerFacts PropText PropLine
  SpecCal SpecDur PropVocab PropRule PropPeriod PropList Components SpecComp DeriveFacts SpecFields PropComp SpecFile PropFile SpecRound RoundFacts FrameFacts BackFacts.
Ltac destruct_all := repeat match goal with H : _ /\ _ |- _ => destruct H end.
Ltac rewrite_nil := repeat match goal with H : ?x = [] |- context [?x] => rewrite H end.
Lemma upper_lit s : forallb (fun c => (65 <=? c) && (c <=? 90)) s = true -> upper_text s.
Proof. intros H. apply Forall_forall. intros c Hc. rewrite forallb_forall in H. specialize (H c Hc). rewrite andb_true_iff, !Z.leb_le in H. lia. Qed.
Lemma fb_empty {T} n (S : serialize T) p one (show : T -> str) : f_back n (FVec S p) [] (list_lines one show n []).
Proof. split; [constructor|cbn; constructor]. Qed.
Section Env.
Context {E : Env}.

(** audio *)
Definition audio_body (v : audio) : list content_line :=
  (text_line (lit "ACTION") (au_action v)) ++
  (trigger_line (lit "TRIGGER") (au_trigger v)) ++
  (opt_lines (plain_line td_show) (lit "DURATION") (au_duration v)) ++
  (opt_lines (plain_line show_int) (lit "REPEAT") (au_repeat v)) ++
  (list_lines text_line text_shown (lit "ATTACH") (au_attach v)) ++ [].
Lemma audio_body_eq v : audio_body v ++ ext_line (lit "X-PROP") (au_x_prop v) ++ ext_line (lit "IANA-PROP") (au_iana_prop v) = audio_written v.
Proof. unfold audio_body, audio_written. cbn [app]. now rewrite <- ?app_assoc, ?app_nil_r. Qed.
Lemma audio_names : Forall (fun nf => name_ok (fst nf)) audio_schema.
Proof. apply names_ok_iff. vm_compute. reflexivity. Qed.
Lemma audio_upper : upper_text (lit "AUDIO").
Proof. apply upper_lit. reflexivity. Qed.
Lemma audio_fields v : audio_tidy v -> fields_lines audio_schema (c_fields (audio_to v)) (audio_body v).
Proof.
  unfold audio_tidy, audio_body, audio_schema, audio_to. cbn [c_fields]. intros. destruct_all.
  eapply fields_cons; [reflexivity|cbn [fst]; eapply fl_req; [apply L_text|assumption]|cbn [snd]].
  eapply fields_cons; [reflexivity|cbn [fst]; eapply fl_req; [apply L_trigger|assumption]|cbn [snd]].
  eapply fields_cons; [reflexivity|cbn [fst]; eapply fl_opt'; [apply L_td|apply holds_any]|cbn [snd]].
  eapply fields_cons; [reflexivity|cbn [fst]; eapply fl_opt'; [apply L_u32|apply holds_any]|cbn [snd]].
  eapply fields_cons; [reflexivity|cbn [fst]; eapply fl_vec; [apply L_text|assumption]|cbn [snd]].
  apply fields_nil.
Qed.
Lemma audio_block v out : audio_tidy v -> s_ical ser_audio v = Ok out -> block (lit "AUDIO") (audio_written v) out.
Proof.
  intros T H. rewrite <- audio_body_eq. change (au_x_prop v) with (c_xprop (audio_to v)). change (au_iana_prop v) with (c_iana (audio_to v)).
  apply comp_block; [apply audio_upper|apply audio_names|now apply audio_fields|cbn [c_xprop c_iana audio_to]; unfold audio_tidy in *; tauto|cbn [c_xprop c_iana audio_to]; unfold audio_tidy in *; tauto|exact H].
Qed.
Lemma audio_out v : audio_tidy v -> Forall ascii_line (audio_written v) -> exists out, s_ical ser_audio v = Ok out.
Proof.
  intros T H. rewrite <- audio_body_eq in H. change (au_x_prop v) with (c_xprop (audio_to v)) in H. change (au_iana_prop v) with (c_iana (audio_to v)) in H.
  eapply comp_written; [apply audio_names|now apply audio_fields|cbn [c_xprop c_iana audio_to]; unfold audio_tidy in *; tauto|cbn [c_xprop c_iana audio_to]; unfold audio_tidy in *; tauto|exact H].
Qed.
Lemma audio_nodup : NoDup (map fst audio_schema).
Proof. apply distinct_NoDup. vm_compute. reflexivity. Qed.
Lemma audio_safe_back v : audio_safe v -> fields_back audio_schema (c_fields (audio_to v)) (audio_body v).
Proof.
  unfold audio_safe, audio_body, audio_schema, audio_to. cbn [c_fields]. intros. destruct_all.
  eapply back_cons; [reflexivity|cbn [fst]; eapply fb_req; [apply B_text|assumption]|cbn [snd]].
  eapply back_cons; [reflexivity|cbn [fst]; eapply fb_req; [apply B_trigger|assumption]|cbn [snd]].
  eapply back_cons; [reflexivity|cbn [fst]; eapply fb_opt; [apply B_td|assumption]|cbn [snd]].
  eapply back_cons; [reflexivity|cbn [fst]; eapply fb_opt; [apply B_u32|assumption]|cbn [snd]].
  eapply back_cons; [reflexivity|cbn [fst]; eapply fb_vec; [apply B_text|assumption]|cbn [snd]].
  apply back_nil.
Qed.
Lemma audio_safe_tidy v : audio_safe v -> audio_tidy v.
Proof.
  unfold audio_safe, audio_tidy. intros. destruct_all.
  split; [now apply S_text|].
  split; [now apply S_trigger|].
  split; [eapply one_all; [apply S_text|assumption]|].
  split; rewrite_nil; apply tidy_none.
Qed.
Lemma audio_safe_lines v : audio_safe v -> audio_of_lines (audio_written v) = Ok v.
Proof.
  intros H. unfold audio_of_lines. rewrite (omap_iso audio_of audio_to) by (intros; rewrite ?audio_to_of, ?audio_of_to; auto).
  pose proof (audio_safe_back v H) as B. unfold audio_safe in H. destruct_all.
  rewrite <- audio_body_eq. replace (ext_line (lit "X-PROP") (au_x_prop v) ++ ext_line (lit "IANA-PROP") (au_iana_prop v)) with (@nil content_line) by (rewrite_nil; reflexivity).
  rewrite app_nil_r. apply comp_back; [apply audio_nodup|exact B|cbn [c_xprop audio_to]; assumption|cbn [c_iana audio_to]; assumption].
Qed.

(** display *)
Definition display_body (v : display) : list content_line :=
  (text_line (lit "ACTION") (di_action v)) ++
  (trigger_line (lit "TRIGGER") (di_trigger v)) ++
  (text_line (lit "DESCRIPTION") (di_description v)) ++
  (opt_lines (plain_line td_show) (lit "DURATION") (di_duration v)) ++
  (opt_lines (plain_line show_int) (lit "REPEAT") (di_repeat v)) ++ [].
Lemma display_body_eq v : display_body v ++ ext_line (lit "X-PROP") (di_x_prop v) ++ ext_line (lit "IANA-PROP") (di_iana_prop v) = display_written v.
Proof. unfold display_body, display_written. cbn [app]. now rewrite <- ?app_assoc, ?app_nil_r. Qed.
Lemma display_names : Forall (fun nf => name_ok (fst nf)) display_schema.
Proof. apply names_ok_iff. vm_compute. reflexivity. Qed.
Lemma display_upper : upper_text (lit "DISPLAY").
Proof. apply upper_lit. reflexivity. Qed.
Lemma display_fields v : display_tidy v -> fields_lines display_schema (c_fields (display_to v)) (display_body v).
Proof.
  unfold display_tidy, display_body, display_schema, display_to. cbn [c_fields]. intros. destruct_all.
  eapply fields_cons; [reflexivity|cbn [fst]; eapply fl_req; [apply L_text|assumption]|cbn [snd]].
  eapply fields_cons; [reflexivity|cbn [fst]; eapply fl_req; [apply L_trigger|assumption]|cbn [snd]].
  eapply fields_cons; [reflexivity|cbn [fst]; eapply fl_req; [apply L_text|assumption]|cbn [snd]].
  eapply fields_cons; [reflexivity|cbn [fst]; eapply fl_opt'; [apply L_td|apply holds_any]|cbn [snd]].
  eapply fields_cons; [reflexivity|cbn [fst]; eapply fl_opt'; [apply L_u32|apply holds_any]|cbn [snd]].
  apply fields_nil.
Qed.
Lemma display_block v out : display_tidy v -> s_ical ser_display_alarm v = Ok out -> block (lit "DISPLAY") (display_written v) out.
Proof.
  intros T H. rewrite <- display_body_eq. change (di_x_prop v) with (c_xprop (display_to v)). change (di_iana_prop v) with (c_iana (display_to v)).
  apply comp_block; [apply display_upper|apply display_names|now apply display_fields|cbn [c_xprop c_iana display_to]; unfold display_tidy in *; tauto|cbn [c_xprop c_iana display_to]; unfold display_tidy in *; tauto|exact H].
Qed.
Lemma display_out v : display_tidy v -> Forall ascii_line (display_written v) -> exists out, s_ical ser_display_alarm v = Ok out.
Proof.
  intros T H. rewrite <- display_body_eq in H. change (di_x_prop v) with (c_xprop (display_to v)) in H. change (di_iana_prop v) with (c_iana (display_to v)) in H.
  eapply comp_written; [apply display_names|now apply display_fields|cbn [c_xprop c_iana display_to]; unfold display_tidy in *; tauto|cbn [c_xprop c_iana display_to]; unfold display_tidy in *; tauto|exact H].
Qed.
Lemma display_nodup : NoDup (map fst display_schema).
Proof. apply distinct_NoDup. vm_compute. reflexivity. Qed.
Lemma display_safe_back v : display_safe v -> fields_back display_schema (c_fields (display_to v)) (display_body v).
Proof.
  unfold display_safe, display_body, display_schema, display_to. cbn [c_fields]. intros. destruct_all.
  eapply back_cons; [reflexivity|cbn [fst]; eapply fb_req; [apply B_text|assumption]|cbn [snd]].
  eapply back_cons; [reflexivity|cbn [fst]; eapply fb_req; [apply B_trigger|assumption]|cbn [snd]].
  eapply back_cons; [reflexivity|cbn [fst]; eapply fb_req; [apply B_text|assumption]|cbn [snd]].
  eapply back_cons; [reflexivity|cbn [fst]; eapply fb_opt; [apply B_td|assumption]|cbn [snd]].
  eapply back_cons; [reflexivity|cbn [fst]; eapply fb_opt; [apply B_u32|assumption]|cbn [snd]].
  apply back_nil.
Qed.
Lemma display_safe_tidy v : display_safe v -> display_tidy v.
Proof.
  unfold display_safe, display_tidy. intros. destruct_all.
  split; [now apply S_text|].
  split; [now apply S_trigger|].
  split; [now apply S_text|].
  split; rewrite_nil; apply tidy_none.
Qed.
Lemma display_safe_lines v : display_safe v -> display_of_lines (display_written v) = Ok v.
Proof.
  intros H. unfold display_of_lines. rewrite (omap_iso display_of display_to) by (intros; rewrite ?display_to_of, ?display_of_to; auto).
  pose proof (display_safe_back v H) as B. unfold display_safe in H. destruct_all.
  rewrite <- display_body_eq. replace (ext_line (lit "X-PROP") (di_x_prop v) ++ ext_line (lit "IANA-PROP") (di_iana_prop v)) with (@nil content_line) by (rewrite_nil; reflexivity).
  rewrite app_nil_r. apply comp_back; [apply display_nodup|exact B|cbn [c_xprop display_to]; assumption|cbn [c_iana display_to]; assumption].
Qed.

(** email *)
Definition email_body (v : email) : list content_line :=
  (text_line (lit "ACTION") (em_action v)) ++
  (trigger_line (lit "TRIGGER") (em_trigger v)) ++
  (text_line (lit "DESCRIPTION") (em_description v)) ++
  (text_line (lit "SUMMARY") (em_summary v)) ++
  (list_lines uri_line uri_shown (lit "ATTENDEE") (em_attendee v)) ++
  (opt_lines (plain_line td_show) (lit "DURATION") (em_duration v)) ++
  (opt_lines (plain_line show_int) (lit "REPEAT") (em_repeat v)) ++
  (list_lines text_line text_shown (lit "ATTACH") (em_attach v)) ++ [].
Lemma email_body_eq v : email_body v ++ ext_line (lit "X-PROP") (em_x_prop v) ++ ext_line (lit "IANA-PROP") (em_iana_prop v) = email_written v.
Proof. unfold email_body, email_written. cbn [app]. now rewrite <- ?app_assoc, ?app_nil_r. Qed.
Lemma email_names : Forall (fun nf => name_ok (fst nf)) email_schema.
Proof. apply names_ok_iff. vm_compute. reflexivity. Qed.
Lemma email_upper : upper_text (lit "EMAIL").
Proof. apply upper_lit. reflexivity. Qed.
Lemma email_fields v : email_tidy v -> fields_lines email_schema (c_fields (email_to v)) (email_body v).
Proof.
  unfold email_tidy, email_body, email_schema, email_to. cbn [c_fields]. intros. destruct_all.
  eapply fields_cons; [reflexivity|cbn [fst]; eapply fl_req; [apply L_text|assumption]|cbn [snd]].
  eapply fields_cons; [reflexivity|cbn [fst]; eapply fl_req; [apply L_trigger|assumption]|cbn [snd]].
  eapply fields_cons; [reflexivity|cbn [fst]; eapply fl_req; [apply L_text|assumption]|cbn [snd]].
  eapply fields_cons; [reflexivity|cbn [fst]; eapply fl_req; [apply L_text|assumption]|cbn [snd]].
  eapply fields_cons; [reflexivity|cbn [fst]; eapply fl_vec; [apply L_uri|assumption]|cbn [snd]].
  eapply fields_cons; [reflexivity|cbn [fst]; eapply fl_opt'; [apply L_td|apply holds_any]|cbn [snd]].
  eapply fields_cons; [reflexivity|cbn [fst]; eapply fl_opt'; [apply L_u32|apply holds_any]|cbn [snd]].
  eapply fields_cons; [reflexivity|cbn [fst]; eapply fl_vec; [apply L_text|assumption]|cbn [snd]].
  apply fields_nil.
Qed.
Lemma email_block v out : email_tidy v -> s_ical ser_email v = Ok out -> block (lit "EMAIL") (email_written v) out.
Proof.
  intros T H. rewrite <- email_body_eq. change (em_x_prop v) with (c_xprop (email_to v)). change (em_iana_prop v) with (c_iana (email_to v)).
  apply comp_block; [apply email_upper|apply email_names|now apply email_fields|cbn [c_xprop c_iana email_to]; unfold email_tidy in *; tauto|cbn [c_xprop c_iana email_to]; unfold email_tidy in *; tauto|exact H].
Qed.
Lemma email_out v : email_tidy v -> Forall ascii_line (email_written v) -> exists out, s_ical ser_email v = Ok out.
Proof.
  intros T H. rewrite <- email_body_eq in H. change (em_x_prop v) with (c_xprop (email_to v)) in H. change (em_iana_prop v) with (c_iana (email_to v)) in H.
  eapply comp_written; [apply email_names|now apply email_fields|cbn [c_xprop c_iana email_to]; unfold email_tidy in *; tauto|cbn [c_xprop c_iana email_to]; unfold email_tidy in *; tauto|exact H].
Qed.
Lemma email_nodup : NoDup (map fst email_schema).
Proof. apply distinct_NoDup. vm_compute. reflexivity. Qed.
Lemma email_safe_back v : email_safe v -> fields_back email_schema (c_fields (email_to v)) (email_body v).
Proof.
  unfold email_safe, email_body, email_schema, email_to. cbn [c_fields]. intros. destruct_all.
  eapply back_cons; [reflexivity|cbn [fst]; eapply fb_req; [apply B_text|assumption]|cbn [snd]].
  eapply back_cons; [reflexivity|cbn [fst]; eapply fb_req; [apply B_trigger|assumption]|cbn [snd]].
  eapply back_cons; [reflexivity|cbn [fst]; eapply fb_req; [apply B_text|assumption]|cbn [snd]].
  eapply back_cons; [reflexivity|cbn [fst]; eapply fb_req; [apply B_text|assumption]|cbn [snd]].
  eapply back_cons; [reflexivity|cbn [fst]; eapply fb_vec; [apply B_uri|assumption]|cbn [snd]].
  eapply back_cons; [reflexivity|cbn [fst]; eapply fb_opt; [apply B_td|assumption]|cbn [snd]].
  eapply back_cons; [reflexivity|cbn [fst]; eapply fb_opt; [apply B_u32|assumption]|cbn [snd]].
  eapply back_cons; [reflexivity|cbn [fst]; eapply fb_vec; [apply B_text|assumption]|cbn [snd]].
  apply back_nil.
Qed.
Lemma email_safe_tidy v : email_safe v -> email_tidy v.
Proof.
  unfold email_safe, email_tidy. intros. destruct_all.
  split; [now apply S_text|].
  split; [now apply S_trigger|].
  split; [now apply S_text|].
  split; [now apply S_text|].
  split; [eapply one_all; [apply S_uri|assumption]|].
  split; [eapply one_all; [apply S_text|assumption]|].
  split; rewrite_nil; apply tidy_none.
Qed.
Lemma email_safe_lines v : email_safe v -> email_of_lines (email_written v) = Ok v.
Proof.
  intros H. unfold email_of_lines. rewrite (omap_iso email_of email_to) by (intros; rewrite ?email_to_of, ?email_of_to; auto).
  pose proof (email_safe_back v H) as B. unfold email_safe in H. destruct_all.
  rewrite <- email_body_eq. replace (ext_line (lit "X-PROP") (em_x_prop v) ++ ext_line (lit "IANA-PROP") (em_iana_prop v)) with (@nil content_line) by (rewrite_nil; reflexivity).
  rewrite app_nil_r. apply comp_back; [apply email_nodup|exact B|cbn [c_xprop email_to]; assumption|cbn [c_iana email_to]; assumption].
Qed.

(** vevent *)
Definition vevent_body (v : vevent) : list content_line :=
  (plain_line dt_show (lit "DTSTAMP") (ev_dtstamp v)) ++
  (text_line (lit "UID") (ev_uid v)) ++
  (date_line (lit "DTSTART") (ev_dtstart v)) ++
  (opt_lines (plain_line class_show) (lit "CLASS") (ev_class v)) ++
  (opt_lines (plain_line dt_show) (lit "CREATED") (ev_created v)) ++
  (opt_lines text_line (lit "DESCRIPTION") (ev_description v)) ++
  (opt_lines (plain_line geo_show) (lit "GEO") (ev_geo v)) ++
  (opt_lines (plain_line dt_show) (lit "LAST-MODIFIED") (ev_last_modified v)) ++
  (opt_lines text_line (lit "LOCATION") (ev_location v)) ++
  (opt_lines uri_line (lit "ORGANIZER") (ev_organizer v)) ++
  (opt_lines (plain_line show_int) (lit "PRIORITY") (ev_priority v)) ++
  (opt_lines (plain_line show_int) (lit "SEQUENCE") (ev_sequence v)) ++
  (opt_lines (plain_line status_show) (lit "STATUS") (ev_status v)) ++
  (opt_lines text_line (lit "SUMMARY") (ev_summary v)) ++
  (opt_lines (plain_line transp_show) (lit "TRANSP") (ev_transp v)) ++
  (opt_lines uri_line (lit "URL") (ev_url v)) ++
  (opt_lines date_line (lit "RECURID") (ev_recurid v)) ++
  (opt_lines (plain_line rule_shown) (lit "RRULE") (ev_rrule v)) ++
  (opt_lines date_line (lit "DTEND") (ev_dtend v)) ++
  (opt_lines (plain_line td_show) (lit "DURATION") (ev_duration v)) ++
  (list_lines text_line text_shown (lit "ATTACH") (ev_attach v)) ++
  (list_lines uri_line uri_shown (lit "ATTENDEE") (ev_attendee v)) ++
  (list_lines text_line text_shown (lit "CATEGORIES") (ev_categories v)) ++
  (list_lines text_line text_shown (lit "COMMENT") (ev_comment v)) ++
  (list_lines text_line text_shown (lit "CONTACT") (ev_contact v)) ++
  (list_lines date_line date_str (lit "EXDATE") (ev_exdate v)) ++
  (list_lines (plain_line rs_shown) rs_shown (lit "RSTATUS") (ev_rstatus v)) ++
  (list_lines text_line text_shown (lit "RELATED-TO") (ev_related_to v)) ++
  (list_lines text_line text_shown (lit "RESOURCES") (ev_resources v)) ++
  (list_lines (plain_line rdate_show) rdate_show (lit "RDATE") (ev_rdate v)) ++
  [] ++ [].
Lemma vevent_body_eq v : vevent_body v ++ ext_line (lit "X-PROP") (ev_x_prop v) ++ ext_line (lit "IANA-PROP") (ev_iana_prop v) = vevent_written v.
Proof. unfold vevent_body, vevent_written. cbn [app]. now rewrite <- ?app_assoc, ?app_nil_r. Qed.
Lemma vevent_names : Forall (fun nf => name_ok (fst nf)) vevent_schema.
Proof. apply names_ok_iff. vm_compute. reflexivity. Qed.
Lemma vevent_upper : upper_text (lit "VEVENT").
Proof. apply upper_lit. reflexivity. Qed.
Lemma vevent_fields v : vevent_tidy v -> fields_lines vevent_schema (c_fields (vevent_to v)) (vevent_body v).
Proof.
  unfold vevent_tidy, vevent_body, vevent_schema, vevent_to. cbn [c_fields]. intros. destruct_all.
  eapply fields_cons; [reflexivity|cbn [fst]; eapply fl_req; [apply L_datetime|assumption]|cbn [snd]].
  eapply fields_cons; [reflexivity|cbn [fst]; eapply fl_req; [apply L_text|assumption]|cbn [snd]].
  eapply fields_cons; [reflexivity|cbn [fst]; eapply fl_req; [apply L_date|assumption]|cbn [snd]].
  eapply fields_cons; [reflexivity|cbn [fst]; eapply fl_opt'; [apply L_class|assumption]|cbn [snd]].
  eapply fields_cons; [reflexivity|cbn [fst]; eapply fl_opt'; [apply L_datetime|assumption]|cbn [snd]].
  eapply fields_cons; [reflexivity|cbn [fst]; eapply fl_opt'; [apply L_text|assumption]|cbn [snd]].
  eapply fields_cons; [reflexivity|cbn [fst]; eapply fl_opt'; [apply L_geo|assumption]|cbn [snd]].
  eapply fields_cons; [reflexivity|cbn [fst]; eapply fl_opt'; [apply L_datetime|assumption]|cbn [snd]].
  eapply fields_cons; [reflexivity|cbn [fst]; eapply fl_opt'; [apply L_text|assumption]|cbn [snd]].
  eapply fields_cons; [reflexivity|cbn [fst]; eapply fl_opt'; [apply L_uri|assumption]|cbn [snd]].
  eapply fields_cons; [reflexivity|cbn [fst]; eapply fl_opt'; [apply L_u8|apply holds_any]|cbn [snd]].
  eapply fields_cons; [reflexivity|cbn [fst]; eapply fl_opt'; [apply L_u32|apply holds_any]|cbn [snd]].
  eapply fields_cons; [reflexivity|cbn [fst]; eapply fl_opt'; [apply L_status|apply holds_any]|cbn [snd]].
  eapply fields_cons; [reflexivity|cbn [fst]; eapply fl_opt'; [apply L_text|assumption]|cbn [snd]].
  eapply fields_cons; [reflexivity|cbn [fst]; eapply fl_opt'; [apply L_transp|apply holds_any]|cbn [snd]].
  eapply fields_cons; [reflexivity|cbn [fst]; eapply fl_opt'; [apply L_uri|assumption]|cbn [snd]].
  eapply fields_cons; [reflexivity|cbn [fst]; eapply fl_opt'; [apply L_date|assumption]|cbn [snd]].
  eapply fields_cons; [reflexivity|cbn [fst]; eapply fl_opt'; [apply L_recur|assumption]|cbn [snd]].
  eapply fields_cons; [reflexivity|cbn [fst]; eapply fl_opt'; [apply L_date|assumption]|cbn [snd]].
  eapply fields_cons; [reflexivity|cbn [fst]; eapply fl_opt'; [apply L_td|apply holds_any]|cbn [snd]].
  eapply fields_cons; [reflexivity|cbn [fst]; eapply fl_vec; [apply L_text|assumption]|cbn [snd]].
  eapply fields_cons; [reflexivity|cbn [fst]; eapply fl_vec; [apply L_uri|assumption]|cbn [snd]].
  eapply fields_cons; [reflexivity|cbn [fst]; eapply fl_app; [apply L_text|assumption]|cbn [snd]].
  eapply fields_cons; [reflexivity|cbn [fst]; eapply fl_vec; [apply L_text|assumption]|cbn [snd]].
  eapply fields_cons; [reflexivity|cbn [fst]; eapply fl_vec; [apply L_text|assumption]|cbn [snd]].
  eapply fields_cons; [reflexivity|cbn [fst]; eapply fl_app; [apply L_date|assumption]|cbn [snd]].
  eapply fields_cons; [reflexivity|cbn [fst]; eapply fl_vec; [apply L_rs|assumption]|cbn [snd]].
  eapply fields_cons; [reflexivity|cbn [fst]; eapply fl_vec; [apply L_text|assumption]|cbn [snd]].
  eapply fields_cons; [reflexivity|cbn [fst]; eapply fl_app; [apply L_text|assumption]|cbn [snd]].
  eapply fields_cons; [reflexivity|cbn [fst]; eapply fl_vec; [apply L_rdate|assumption]|cbn [snd]].
  eapply fields_cons; [reflexivity|cbn [fst]; rewrite_nil; apply fl_none|cbn [snd]].
  apply fields_nil.
Qed.
Lemma vevent_block v out : vevent_tidy v -> s_ical ser_vevent v = Ok out -> block (lit "VEVENT") (vevent_written v) out.
Proof.
  intros T H. rewrite <- vevent_body_eq. change (ev_x_prop v) with (c_xprop (vevent_to v)). change (ev_iana_prop v) with (c_iana (vevent_to v)).
  apply comp_block; [apply vevent_upper|apply vevent_names|now apply vevent_fields|cbn [c_xprop c_iana vevent_to]; unfold vevent_tidy in *; tauto|cbn [c_xprop c_iana vevent_to]; unfold vevent_tidy in *; tauto|exact H].
Qed.
Lemma vevent_out v : vevent_tidy v -> Forall ascii_line (vevent_written v) -> exists out, s_ical ser_vevent v = Ok out.
Proof.
  intros T H. rewrite <- vevent_body_eq in H. change (ev_x_prop v) with (c_xprop (vevent_to v)) in H. change (ev_iana_prop v) with (c_iana (vevent_to v)) in H.
  eapply comp_written; [apply vevent_names|now apply vevent_fields|cbn [c_xprop c_iana vevent_to]; unfold vevent_tidy in *; tauto|cbn [c_xprop c_iana vevent_to]; unfold vevent_tidy in *; tauto|exact H].
Qed.
Lemma vevent_nodup : NoDup (map fst vevent_schema).
Proof. apply distinct_NoDup. vm_compute. reflexivity. Qed.
Lemma vevent_safe_back v : vevent_safe v -> fields_back vevent_schema (c_fields (vevent_to v)) (vevent_body v).
Proof.
  unfold vevent_safe, vevent_body, vevent_schema, vevent_to. cbn [c_fields]. intros. destruct_all.
  eapply back_cons; [reflexivity|cbn [fst]; eapply fb_req; [apply B_datetime|assumption]|cbn [snd]].
  eapply back_cons; [reflexivity|cbn [fst]; eapply fb_req; [apply B_text|assumption]|cbn [snd]].
  eapply back_cons; [reflexivity|cbn [fst]; eapply fb_req; [apply B_date|assumption]|cbn [snd]].
  eapply back_cons; [reflexivity|cbn [fst]; eapply fb_opt; [apply B_class|assumption]|cbn [snd]].
  eapply back_cons; [reflexivity|cbn [fst]; eapply fb_opt; [apply B_datetime|assumption]|cbn [snd]].
  eapply back_cons; [reflexivity|cbn [fst]; eapply fb_opt; [apply B_text|assumption]|cbn [snd]].
  eapply back_cons; [reflexivity|cbn [fst]; eapply fb_opt; [apply B_geo|assumption]|cbn [snd]].
  eapply back_cons; [reflexivity|cbn [fst]; eapply fb_opt; [apply B_datetime|assumption]|cbn [snd]].
  eapply back_cons; [reflexivity|cbn [fst]; eapply fb_opt; [apply B_text|assumption]|cbn [snd]].
  eapply back_cons; [reflexivity|cbn [fst]; eapply fb_opt; [apply B_uri|assumption]|cbn [snd]].
  eapply back_cons; [reflexivity|cbn [fst]; eapply fb_opt; [apply B_priority|assumption]|cbn [snd]].
  eapply back_cons; [reflexivity|cbn [fst]; eapply fb_opt; [apply B_u32|assumption]|cbn [snd]].
  eapply back_cons; [reflexivity|cbn [fst]; eapply fb_opt; [apply B_status|apply holds_any]|cbn [snd]].
  eapply back_cons; [reflexivity|cbn [fst]; eapply fb_opt; [apply B_text|assumption]|cbn [snd]].
  eapply back_cons; [reflexivity|cbn [fst]; eapply fb_opt; [apply B_transp|apply holds_any]|cbn [snd]].
  eapply back_cons; [reflexivity|cbn [fst]; eapply fb_opt; [apply B_uri|assumption]|cbn [snd]].
  eapply back_cons; [reflexivity|cbn [fst]; eapply fb_opt; [apply B_date|assumption]|cbn [snd]].
  eapply back_cons; [reflexivity|cbn [fst]; eapply fb_opt; [apply B_recur|assumption]|cbn [snd]].
  eapply back_cons; [reflexivity|cbn [fst]; eapply fb_opt; [apply B_date|assumption]|cbn [snd]].
  eapply back_cons; [reflexivity|cbn [fst]; eapply fb_opt; [apply B_td|assumption]|cbn [snd]].
  eapply back_cons; [reflexivity|cbn [fst]; eapply fb_vec; [apply B_text|assumption]|cbn [snd]].
  eapply back_cons; [reflexivity|cbn [fst]; eapply fb_vec; [apply B_uri|assumption]|cbn [snd]].
  eapply back_cons; [reflexivity|cbn [fst]; eapply fb_app; [apply BL_texts|assumption]|cbn [snd]].
  eapply back_cons; [reflexivity|cbn [fst]; eapply fb_vec; [apply B_text|assumption]|cbn [snd]].
  eapply back_cons; [reflexivity|cbn [fst]; eapply fb_vec; [apply B_text|assumption]|cbn [snd]].
  eapply back_cons; [reflexivity|cbn [fst]; eapply fb_app; [apply BL_exdate|assumption]|cbn [snd]].
  eapply back_cons; [reflexivity|cbn [fst]; eapply fb_vec; [apply B_rs|assumption]|cbn [snd]].
  eapply back_cons; [reflexivity|cbn [fst]; eapply fb_vec; [apply B_text|assumption]|cbn [snd]].
  eapply back_cons; [reflexivity|cbn [fst]; eapply fb_app; [apply BL_texts|assumption]|cbn [snd]].
  eapply back_cons; [reflexivity|cbn [fst]; rewrite_nil; apply fb_empty|cbn [snd]].
  eapply back_cons; [reflexivity|cbn [fst]; rewrite_nil; apply fb_none|cbn [snd]].
  apply back_nil.
Qed.
Lemma vevent_safe_tidy v : vevent_safe v -> vevent_tidy v.
Proof.
  unfold vevent_safe, vevent_tidy. intros. destruct_all.
  split; [now apply S_datetime|].
  split; [now apply S_text|].
  split; [now apply S_date|].
  split; [eapply holds_mono; [apply S_class|assumption]|].
  split; [eapply holds_mono; [apply S_datetime|assumption]|].
  split; [eapply holds_mono; [apply S_text|assumption]|].
  split; [eapply holds_mono; [apply S_geo|assumption]|].
  split; [eapply holds_mono; [apply S_datetime|assumption]|].
  split; [eapply holds_mono; [apply S_text|assumption]|].
  split; [eapply holds_mono; [apply S_uri|assumption]|].
  split; [eapply holds_mono; [apply S_text|assumption]|].
  split; [eapply holds_mono; [apply S_uri|assumption]|].
  split; [eapply holds_mono; [apply S_date|assumption]|].
  split; [eapply holds_mono; [apply S_rule|assumption]|].
  split; [eapply holds_mono; [apply S_date|assumption]|].
  split; [eapply one_all; [apply S_text|assumption]|].
  split; [eapply one_all; [apply S_uri|assumption]|].
  split; [eapply all_mono; [apply S_entry|assumption]|].
  split; [eapply one_all; [apply S_text|assumption]|].
  split; [eapply one_all; [apply S_text|assumption]|].
  split; [eapply all_mono; [apply S_date|assumption]|].
  split; [eapply one_all; [apply S_rs|assumption]|].
  split; [eapply one_all; [apply S_text|assumption]|].
  split; [eapply all_mono; [apply S_entry|assumption]|].
  split; [rewrite_nil; constructor|].
  split; [assumption|].
  split; rewrite_nil; apply tidy_none.
Qed.
Lemma vevent_safe_lines v : vevent_safe v -> vevent_of_lines (vevent_written v) = Ok v.
Proof.
  intros H. unfold vevent_of_lines. rewrite (omap_iso vevent_of vevent_to) by (intros; rewrite ?vevent_to_of, ?vevent_of_to; auto).
  pose proof (vevent_safe_back v H) as B. unfold vevent_safe in H. destruct_all.
  rewrite <- vevent_body_eq. replace (ext_line (lit "X-PROP") (ev_x_prop v) ++ ext_line (lit "IANA-PROP") (ev_iana_prop v)) with (@nil content_line) by (rewrite_nil; reflexivity).
  rewrite app_nil_r. apply comp_back; [apply vevent_nodup|exact B|cbn [c_xprop vevent_to]; assumption|cbn [c_iana vevent_to]; assumption].
Qed.

(** vfreebusy *)
Definition vfreebusy_body (v : vfreebusy) : list content_line :=
  (plain_line dt_show (lit "DTSTAMP") (fb_dtstamp v)) ++
  (text_line (lit "UID") (fb_uid v)) ++
  (opt_lines text_line (lit "CONTACT") (fb_contact v)) ++
  (opt_lines date_line (lit "DTSTART") (fb_dtstart v)) ++
  (opt_lines date_line (lit "DTEND") (fb_dtend v)) ++
  (opt_lines uri_line (lit "ORGANIZER") (fb_organizer v)) ++
  (opt_lines uri_line (lit "URL") (fb_url v)) ++
  (list_lines uri_line uri_shown (lit "ATTENDEE") (fb_attendee v)) ++
  (list_lines text_line text_shown (lit "COMMENT") (fb_comment v)) ++
  (list_lines (plain_line period_show) period_show (lit "FREEBUSY") (fb_freebusy v)) ++
  (list_lines (plain_line rs_shown) rs_shown (lit "RSTATUS") (fb_rstatus v)) ++ [].
Lemma vfreebusy_body_eq v : vfreebusy_body v ++ ext_line (lit "X-PROP") (fb_x_prop v) ++ ext_line (lit "IANA-PROP") (fb_iana_prop v) = vfreebusy_written v.
Proof. unfold vfreebusy_body, vfreebusy_written. cbn [app]. now rewrite <- ?app_assoc, ?app_nil_r. Qed.
Lemma vfreebusy_names : Forall (fun nf => name_ok (fst nf)) vfreebusy_schema.
Proof. apply names_ok_iff. vm_compute. reflexivity. Qed.
Lemma vfreebusy_upper : upper_text (lit "VFREEBUSY").
Proof. apply upper_lit. reflexivity. Qed.
Lemma vfreebusy_fields v : vfreebusy_tidy v -> fields_lines vfreebusy_schema (c_fields (vfreebusy_to v)) (vfreebusy_body v).
Proof.
  unfold vfreebusy_tidy, vfreebusy_body, vfreebusy_schema, vfreebusy_to. cbn [c_fields]. intros. destruct_all.
  eapply fields_cons; [reflexivity|cbn [fst]; eapply fl_req; [apply L_datetime|assumption]|cbn [snd]].
  eapply fields_cons; [reflexivity|cbn [fst]; eapply fl_req; [apply L_text|assumption]|cbn [snd]].
  eapply fields_cons; [reflexivity|cbn [fst]; eapply fl_opt'; [apply L_text|assumption]|cbn [snd]].
  eapply fields_cons; [reflexivity|cbn [fst]; eapply fl_opt'; [apply L_date|assumption]|cbn [snd]].
  eapply fields_cons; [reflexivity|cbn [fst]; eapply fl_opt'; [apply L_date|assumption]|cbn [snd]].
  eapply fields_cons; [reflexivity|cbn [fst]; eapply fl_opt'; [apply L_uri|assumption]|cbn [snd]].
  eapply fields_cons; [reflexivity|cbn [fst]; eapply fl_opt'; [apply L_uri|assumption]|cbn [snd]].
  eapply fields_cons; [reflexivity|cbn [fst]; eapply fl_vec; [apply L_uri|assumption]|cbn [snd]].
  eapply fields_cons; [reflexivity|cbn [fst]; eapply fl_vec; [apply L_text|assumption]|cbn [snd]].
  eapply fields_cons; [reflexivity|cbn [fst]; eapply fl_app; [apply L_period|assumption]|cbn [snd]].
  eapply fields_cons; [reflexivity|cbn [fst]; eapply fl_vec; [apply L_rs|assumption]|cbn [snd]].
  apply fields_nil.
Qed.
Lemma vfreebusy_block v out : vfreebusy_tidy v -> s_ical ser_vfreebusy v = Ok out -> block (lit "VFREEBUSY") (vfreebusy_written v) out.
Proof.
  intros T H. rewrite <- vfreebusy_body_eq. change (fb_x_prop v) with (c_xprop (vfreebusy_to v)). change (fb_iana_prop v) with (c_iana (vfreebusy_to v)).
  apply comp_block; [apply vfreebusy_upper|apply vfreebusy_names|now apply vfreebusy_fields|cbn [c_xprop c_iana vfreebusy_to]; unfold vfreebusy_tidy in *; tauto|cbn [c_xprop c_iana vfreebusy_to]; unfold vfreebusy_tidy in *; tauto|exact H].
Qed.
Lemma vfreebusy_out v : vfreebusy_tidy v -> Forall ascii_line (vfreebusy_written v) -> exists out, s_ical ser_vfreebusy v = Ok out.
Proof.
  intros T H. rewrite <- vfreebusy_body_eq in H. change (fb_x_prop v) with (c_xprop (vfreebusy_to v)) in H. change (fb_iana_prop v) with (c_iana (vfreebusy_to v)) in H.
  eapply comp_written; [apply vfreebusy_names|now apply vfreebusy_fields|cbn [c_xprop c_iana vfreebusy_to]; unfold vfreebusy_tidy in *; tauto|cbn [c_xprop c_iana vfreebusy_to]; unfold vfreebusy_tidy in *; tauto|exact H].
Qed.
Lemma vfreebusy_nodup : NoDup (map fst vfreebusy_schema).
Proof. apply distinct_NoDup. vm_compute. reflexivity. Qed.
Lemma vfreebusy_safe_back v : vfreebusy_safe v -> fields_back vfreebusy_schema (c_fields (vfreebusy_to v)) (vfreebusy_body v).
Proof.
  unfold vfreebusy_safe, vfreebusy_body, vfreebusy_schema, vfreebusy_to. cbn [c_fields]. intros. destruct_all.
  eapply back_cons; [reflexivity|cbn [fst]; eapply fb_req; [apply B_datetime|assumption]|cbn [snd]].
  eapply back_cons; [reflexivity|cbn [fst]; eapply fb_req; [apply B_text|assumption]|cbn [snd]].
  eapply back_cons; [reflexivity|cbn [fst]; eapply fb_opt; [apply B_text|assumption]|cbn [snd]].
  eapply back_cons; [reflexivity|cbn [fst]; eapply fb_opt; [apply B_date|assumption]|cbn [snd]].
  eapply back_cons; [reflexivity|cbn [fst]; eapply fb_opt; [apply B_date|assumption]|cbn [snd]].
  eapply back_cons; [reflexivity|cbn [fst]; eapply fb_opt; [apply B_uri|assumption]|cbn [snd]].
  eapply back_cons; [reflexivity|cbn [fst]; eapply fb_opt; [apply B_uri|assumption]|cbn [snd]].
  eapply back_cons; [reflexivity|cbn [fst]; eapply fb_vec; [apply B_uri|assumption]|cbn [snd]].
  eapply back_cons; [reflexivity|cbn [fst]; eapply fb_vec; [apply B_text|assumption]|cbn [snd]].
  eapply back_cons; [reflexivity|cbn [fst]; eapply fb_app; [apply BL_freebusy|assumption]|cbn [snd]].
  eapply back_cons; [reflexivity|cbn [fst]; eapply fb_vec; [apply B_rs|assumption]|cbn [snd]].
  apply back_nil.
Qed.
Lemma vfreebusy_safe_tidy v : vfreebusy_safe v -> vfreebusy_tidy v.
Proof.
  unfold vfreebusy_safe, vfreebusy_tidy. intros. destruct_all.
  split; [now apply S_datetime|].
  split; [now apply S_text|].
  split; [eapply holds_mono; [apply S_text|assumption]|].
  split; [eapply holds_mono; [apply S_date|assumption]|].
  split; [eapply holds_mono; [apply S_date|assumption]|].
  split; [eapply holds_mono; [apply S_uri|assumption]|].
  split; [eapply holds_mono; [apply S_uri|assumption]|].
  split; [eapply one_all; [apply S_uri|assumption]|].
  split; [eapply one_all; [apply S_text|assumption]|].
  split; [eapply all_mono; [apply S_period|assumption]|].
  split; [eapply one_all; [apply S_rs|assumption]|].
  split; rewrite_nil; apply tidy_none.
Qed.
Lemma vfreebusy_safe_lines v : vfreebusy_safe v -> vfreebusy_of_lines (vfreebusy_written v) = Ok v.
Proof.
  intros H. unfold vfreebusy_of_lines. rewrite (omap_iso vfreebusy_of vfreebusy_to) by (intros; rewrite ?vfreebusy_to_of, ?vfreebusy_of_to; auto).
  pose proof (vfreebusy_safe_back v H) as B. unfold vfreebusy_safe in H. destruct_all.
  rewrite <- vfreebusy_body_eq. replace (ext_line (lit "X-PROP") (fb_x_prop v) ++ ext_line (lit "IANA-PROP") (fb_iana_prop v)) with (@nil content_line) by (rewrite_nil; reflexivity).
  rewrite app_nil_r. apply comp_back; [apply vfreebusy_nodup|exact B|cbn [c_xprop vfreebusy_to]; assumption|cbn [c_iana vfreebusy_to]; assumption].
Qed.

(** vjournal *)
Definition vjournal_body (v : vjournal) : list content_line :=
  (plain_line dt_show (lit "DTSTAMP") (jo_dtstamp v)) ++
  (text_line (lit "UID") (jo_uid v)) ++
  (opt_lines (plain_line class_show) (lit "CLASS") (jo_class v)) ++
  (opt_lines (plain_line dt_show) (lit "CREATED") (jo_created v)) ++
  (date_line (lit "DTSTART") (jo_dtstart v)) ++
  (opt_lines (plain_line dt_show) (lit "LAST-MODIFIED") (jo_last_modified v)) ++
  (opt_lines uri_line (lit "ORGANIZER") (jo_organizer v)) ++
  (opt_lines date_line (lit "RECURID") (jo_recurid v)) ++
  (opt_lines (plain_line show_int) (lit "SEQUENCE") (jo_sequence v)) ++
  (opt_lines (plain_line status_show) (lit "STATUS") (jo_status v)) ++
  (opt_lines text_line (lit "SUMMARY") (jo_summary v)) ++
  (opt_lines uri_line (lit "URL") (jo_url v)) ++
  (opt_lines (plain_line rule_shown) (lit "RRULE") (jo_rrule v)) ++
  (list_lines text_line text_shown (lit "ATTACH") (jo_attach v)) ++
  (list_lines uri_line uri_shown (lit "ATTENDEE") (jo_attendee v)) ++
  (list_lines text_line text_shown (lit "CATEGORIES") (jo_categories v)) ++
  (list_lines text_line text_shown (lit "COMMENT") (jo_comment v)) ++
  (list_lines text_line text_shown (lit "CONTACT") (jo_contact v)) ++
  (list_lines text_line text_shown (lit "DESCRIPTION") (jo_description v)) ++
  (list_lines date_line date_str (lit "EXDATE") (jo_exdate v)) ++
  (list_lines text_line text_shown (lit "RELATED-TO") (jo_related_to v)) ++
  (list_lines (plain_line rdate_show) rdate_show (lit "RDATE") (jo_rdate v)) ++
  (list_lines (plain_line rs_shown) rs_shown (lit "RSTATUS") (jo_rstatus v)) ++ [].
Lemma vjournal_body_eq v : vjournal_body v ++ ext_line (lit "X-PROP") (jo_x_prop v) ++ ext_line (lit "IANA-PROP") (jo_iana_prop v) = vjournal_written v.
Proof. unfold vjournal_body, vjournal_written. cbn [app]. now rewrite <- ?app_assoc, ?app_nil_r. Qed.
Lemma vjournal_names : Forall (fun nf => name_ok (fst nf)) vjournal_schema.
Proof. apply names_ok_iff. vm_compute. reflexivity. Qed.
Lemma vjournal_upper : upper_text (lit "VJOURNAL").
Proof. apply upper_lit. reflexivity. Qed.
Lemma vjournal_fields v : vjournal_tidy v -> fields_lines vjournal_schema (c_fields (vjournal_to v)) (vjournal_body v).
Proof.
  unfold vjournal_tidy, vjournal_body, vjournal_schema, vjournal_to. cbn [c_fields]. intros. destruct_all.
  eapply fields_cons; [reflexivity|cbn [fst]; eapply fl_req; [apply L_datetime|assumption]|cbn [snd]].
  eapply fields_cons; [reflexivity|cbn [fst]; eapply fl_req; [apply L_text|assumption]|cbn [snd]].
  eapply fields_cons; [reflexivity|cbn [fst]; eapply fl_opt'; [apply L_class|assumption]|cbn [snd]].
  eapply fields_cons; [reflexivity|cbn [fst]; eapply fl_opt'; [apply L_datetime|assumption]|cbn [snd]].
  eapply fields_cons; [reflexivity|cbn [fst]; eapply fl_req; [apply L_date|assumption]|cbn [snd]].
  eapply fields_cons; [reflexivity|cbn [fst]; eapply fl_opt'; [apply L_datetime|assumption]|cbn [snd]].
  eapply fields_cons; [reflexivity|cbn [fst]; eapply fl_opt'; [apply L_uri|assumption]|cbn [snd]].
  eapply fields_cons; [reflexivity|cbn [fst]; eapply fl_opt'; [apply L_date|assumption]|cbn [snd]].
  eapply fields_cons; [reflexivity|cbn [fst]; eapply fl_opt'; [apply L_u32|apply holds_any]|cbn [snd]].
  eapply fields_cons; [reflexivity|cbn [fst]; eapply fl_opt'; [apply L_status|apply holds_any]|cbn [snd]].
  eapply fields_cons; [reflexivity|cbn [fst]; eapply fl_opt'; [apply L_text|assumption]|cbn [snd]].
  eapply fields_cons; [reflexivity|cbn [fst]; eapply fl_opt'; [apply L_uri|assumption]|cbn [snd]].
  eapply fields_cons; [reflexivity|cbn [fst]; eapply fl_opt'; [apply L_recur|assumption]|cbn [snd]].
  eapply fields_cons; [reflexivity|cbn [fst]; eapply fl_vec; [apply L_text|assumption]|cbn [snd]].
  eapply fields_cons; [reflexivity|cbn [fst]; eapply fl_vec; [apply L_uri|assumption]|cbn [snd]].
  eapply fields_cons; [reflexivity|cbn [fst]; eapply fl_app; [apply L_text|assumption]|cbn [snd]].
  eapply fields_cons; [reflexivity|cbn [fst]; eapply fl_vec; [apply L_text|assumption]|cbn [snd]].
  eapply fields_cons; [reflexivity|cbn [fst]; eapply fl_vec; [apply L_text|assumption]|cbn [snd]].
  eapply fields_cons; [reflexivity|cbn [fst]; eapply fl_vec; [apply L_text|assumption]|cbn [snd]].
  eapply fields_cons; [reflexivity|cbn [fst]; eapply fl_app; [apply L_date|assumption]|cbn [snd]].
  eapply fields_cons; [reflexivity|cbn [fst]; eapply fl_vec; [apply L_text|assumption]|cbn [snd]].
  eapply fields_cons; [reflexivity|cbn [fst]; eapply fl_vec; [apply L_rdate|assumption]|cbn [snd]].
  eapply fields_cons; [reflexivity|cbn [fst]; eapply fl_vec; [apply L_rs|assumption]|cbn [snd]].
  apply fields_nil.
Qed.
Lemma vjournal_block v out : vjournal_tidy v -> s_ical ser_vjournal v = Ok out -> block (lit "VJOURNAL") (vjournal_written v) out.
Proof.
  intros T H. rewrite <- vjournal_body_eq. change (jo_x_prop v) with (c_xprop (vjournal_to v)). change (jo_iana_prop v) with (c_iana (vjournal_to v)).
  apply comp_block; [apply vjournal_upper|apply vjournal_names|now apply vjournal_fields|cbn [c_xprop c_iana vjournal_to]; unfold vjournal_tidy in *; tauto|cbn [c_xprop c_iana vjournal_to]; unfold vjournal_tidy in *; tauto|exact H].
Qed.
Lemma vjournal_out v : vjournal_tidy v -> Forall ascii_line (vjournal_written v) -> exists out, s_ical ser_vjournal v = Ok out.
Proof.
  intros T H. rewrite <- vjournal_body_eq in H. change (jo_x_prop v) with (c_xprop (vjournal_to v)) in H. change (jo_iana_prop v) with (c_iana (vjournal_to v)) in H.
  eapply comp_written; [apply vjournal_names|now apply vjournal_fields|cbn [c_xprop c_iana vjournal_to]; unfold vjournal_tidy in *; tauto|cbn [c_xprop c_iana vjournal_to]; unfold vjournal_tidy in *; tauto|exact H].
Qed.
Lemma vjournal_nodup : NoDup (map fst vjournal_schema).
Proof. apply distinct_NoDup. vm_compute. reflexivity. Qed.
Lemma vjournal_safe_back v : vjournal_safe v -> fields_back vjournal_schema (c_fields (vjournal_to v)) (vjournal_body v).
Proof.
  unfold vjournal_safe, vjournal_body, vjournal_schema, vjournal_to. cbn [c_fields]. intros. destruct_all.
  eapply back_cons; [reflexivity|cbn [fst]; eapply fb_req; [apply B_datetime|assumption]|cbn [snd]].
  eapply back_cons; [reflexivity|cbn [fst]; eapply fb_req; [apply B_text|assumption]|cbn [snd]].
  eapply back_cons; [reflexivity|cbn [fst]; eapply fb_opt; [apply B_class|assumption]|cbn [snd]].
  eapply back_cons; [reflexivity|cbn [fst]; eapply fb_opt; [apply B_datetime|assumption]|cbn [snd]].
  eapply back_cons; [reflexivity|cbn [fst]; eapply fb_req; [apply B_date|assumption]|cbn [snd]].
  eapply back_cons; [reflexivity|cbn [fst]; eapply fb_opt; [apply B_datetime|assumption]|cbn [snd]].
  eapply back_cons; [reflexivity|cbn [fst]; eapply fb_opt; [apply B_uri|assumption]|cbn [snd]].
  eapply back_cons; [reflexivity|cbn [fst]; eapply fb_opt; [apply B_date|assumption]|cbn [snd]].
  eapply back_cons; [reflexivity|cbn [fst]; eapply fb_opt; [apply B_u32|assumption]|cbn [snd]].
  eapply back_cons; [reflexivity|cbn [fst]; eapply fb_opt; [apply B_status|apply holds_any]|cbn [snd]].
  eapply back_cons; [reflexivity|cbn [fst]; eapply fb_opt; [apply B_text|assumption]|cbn [snd]].
  eapply back_cons; [reflexivity|cbn [fst]; eapply fb_opt; [apply B_uri|assumption]|cbn [snd]].
  eapply back_cons; [reflexivity|cbn [fst]; eapply fb_opt; [apply B_recur|assumption]|cbn [snd]].
  eapply back_cons; [reflexivity|cbn [fst]; eapply fb_vec; [apply B_text|assumption]|cbn [snd]].
  eapply back_cons; [reflexivity|cbn [fst]; eapply fb_vec; [apply B_uri|assumption]|cbn [snd]].
  eapply back_cons; [reflexivity|cbn [fst]; eapply fb_app; [apply BL_texts|assumption]|cbn [snd]].
  eapply back_cons; [reflexivity|cbn [fst]; eapply fb_vec; [apply B_text|assumption]|cbn [snd]].
  eapply back_cons; [reflexivity|cbn [fst]; eapply fb_vec; [apply B_text|assumption]|cbn [snd]].
  eapply back_cons; [reflexivity|cbn [fst]; eapply fb_vec; [apply B_text|assumption]|cbn [snd]].
  eapply back_cons; [reflexivity|cbn [fst]; eapply fb_app; [apply BL_exdate|assumption]|cbn [snd]].
  eapply back_cons; [reflexivity|cbn [fst]; eapply fb_vec; [apply B_text|assumption]|cbn [snd]].
  eapply back_cons; [reflexivity|cbn [fst]; rewrite_nil; apply fb_empty|cbn [snd]].
  eapply back_cons; [reflexivity|cbn [fst]; eapply fb_vec; [apply B_rs|assumption]|cbn [snd]].
  apply back_nil.
Qed.
Lemma vjournal_safe_tidy v : vjournal_safe v -> vjournal_tidy v.
Proof.
  unfold vjournal_safe, vjournal_tidy. intros. destruct_all.
  split; [now apply S_datetime|].
  split; [now apply S_text|].
  split; [eapply holds_mono; [apply S_class|assumption]|].
  split; [eapply holds_mono; [apply S_datetime|assumption]|].
  split; [now apply S_date|].
  split; [eapply holds_mono; [apply S_datetime|assumption]|].
  split; [eapply holds_mono; [apply S_uri|assumption]|].
  split; [eapply holds_mono; [apply S_date|assumption]|].
  split; [eapply holds_mono; [apply S_text|assumption]|].
  split; [eapply holds_mono; [apply S_uri|assumption]|].
  split; [eapply holds_mono; [apply S_rule|assumption]|].
  split; [eapply one_all; [apply S_text|assumption]|].
  split; [eapply one_all; [apply S_uri|assumption]|].
  split; [eapply all_mono; [apply S_entry|assumption]|].
  split; [eapply one_all; [apply S_text|assumption]|].
  split; [eapply one_all; [apply S_text|assumption]|].
  split; [eapply one_all; [apply S_text|assumption]|].
  split; [eapply all_mono; [apply S_date|assumption]|].
  split; [eapply one_all; [apply S_text|assumption]|].
  split; [rewrite_nil; constructor|].
  split; [eapply one_all; [apply S_rs|assumption]|].
  split; rewrite_nil; apply tidy_none.
Qed.
Lemma vjournal_safe_lines v : vjournal_safe v -> vjournal_of_lines (vjournal_written v) = Ok v.
Proof.
  intros H. unfold vjournal_of_lines. rewrite (omap_iso vjournal_of vjournal_to) by (intros; rewrite ?vjournal_to_of, ?vjournal_of_to; auto).
  pose proof (vjournal_safe_back v H) as B. unfold vjournal_safe in H. destruct_all.
  rewrite <- vjournal_body_eq. replace (ext_line (lit "X-PROP") (jo_x_prop v) ++ ext_line (lit "IANA-PROP") (jo_iana_prop v)) with (@nil content_line) by (rewrite_nil; reflexivity).
  rewrite app_nil_r. apply comp_back; [apply vjournal_nodup|exact B|cbn [c_xprop vjournal_to]; assumption|cbn [c_iana vjournal_to]; assumption].
Qed.

(** vtodo *)
Definition vtodo_body (v : vtodo) : list content_line :=
  (plain_line dt_show (lit "DTSTAMP") (to_dtstamp v)) ++
  (text_line (lit "UID") (to_uid v)) ++
  (opt_lines (plain_line class_show) (lit "CLASS") (to_class v)) ++
  (opt_lines (plain_line dt_show) (lit "COMPLETED") (to_completed v)) ++
  (opt_lines (plain_line dt_show) (lit "CREATED") (to_created v)) ++
  (opt_lines date_line (lit "DTSTART") (to_dtstart v)) ++
  (opt_lines (plain_line geo_show) (lit "GEO") (to_geo v)) ++
  (opt_lines (plain_line dt_show) (lit "LAST-MODIFIED") (to_last_modified v)) ++
  (opt_lines text_line (lit "LOCATION") (to_location v)) ++
  (opt_lines uri_line (lit "ORGANIZER") (to_organizer v)) ++
  (opt_lines (plain_line show_int) (lit "PERCENT-COMPLETE") (to_percent_complete v)) ++
  (opt_lines (plain_line show_int) (lit "PRIORITY") (to_priority v)) ++
  (opt_lines date_line (lit "RECURID") (to_recurid v)) ++
  (opt_lines (plain_line show_int) (lit "SEQUENCE") (to_sequence v)) ++
  (opt_lines (plain_line status_show) (lit "STATUS") (to_status v)) ++
  (opt_lines text_line (lit "SUMMARY") (to_summary v)) ++
  (opt_lines uri_line (lit "URL") (to_url v)) ++
  (opt_lines (plain_line rule_shown) (lit "RRULE") (to_rrule v)) ++
  (opt_lines date_line (lit "DUE") (to_due v)) ++
  (opt_lines (plain_line td_show) (lit "DURATION") (to_duration v)) ++
  (list_lines text_line text_shown (lit "ATTACH") (to_attach v)) ++
  (list_lines uri_line uri_shown (lit "ATTENDEE") (to_attendee v)) ++
  (list_lines text_line text_shown (lit "CATEGORIES") (to_categories v)) ++
  (list_lines text_line text_shown (lit "COMMENT") (to_comment v)) ++
  (list_lines text_line text_shown (lit "CONTACT") (to_contact v)) ++
  (list_lines date_line date_str (lit "EXDATE") (to_exdate v)) ++
  (list_lines (plain_line rs_shown) rs_shown (lit "RSTATUS") (to_rstatus v)) ++
  (list_lines text_line text_shown (lit "RELATED-TO") (to_related_to v)) ++
  (list_lines text_line text_shown (lit "RESOURCES") (to_resources v)) ++
  (list_lines (plain_line rdate_show) rdate_show (lit "RDATE") (to_rdate v)) ++ [].
Lemma vtodo_body_eq v : vtodo_body v ++ ext_line (lit "X-PROP") (to_x_prop v) ++ ext_line (lit "IANA-PROP") (to_iana_prop v) = vtodo_written v.
Proof. unfold vtodo_body, vtodo_written. cbn [app]. now rewrite <- ?app_assoc, ?app_nil_r. Qed.
Lemma vtodo_names : Forall (fun nf => name_ok (fst nf)) vtodo_schema.
Proof. apply names_ok_iff. vm_compute. reflexivity. Qed.
Lemma vtodo_upper : upper_text (lit "VTODO").
Proof. apply upper_lit. reflexivity. Qed.
Lemma vtodo_fields v : vtodo_tidy v -> fields_lines vtodo_schema (c_fields (vtodo_to v)) (vtodo_body v).
Proof.
  unfold vtodo_tidy, vtodo_body, vtodo_schema, vtodo_to. cbn [c_fields]. intros. destruct_all.
  eapply fields_cons; [reflexivity|cbn [fst]; eapply fl_req; [apply L_datetime|assumption]|cbn [snd]].
  eapply fields_cons; [reflexivity|cbn [fst]; eapply fl_req; [apply L_text|assumption]|cbn [snd]].
  eapply fields_cons; [reflexivity|cbn [fst]; eapply fl_opt'; [apply L_class|assumption]|cbn [snd]].
  eapply fields_cons; [reflexivity|cbn [fst]; eapply fl_opt'; [apply L_datetime|assumption]|cbn [snd]].
  eapply fields_cons; [reflexivity|cbn [fst]; eapply fl_opt'; [apply L_datetime|assumption]|cbn [snd]].
  eapply fields_cons; [reflexivity|cbn [fst]; eapply fl_opt'; [apply L_date|assumption]|cbn [snd]].
  eapply fields_cons; [reflexivity|cbn [fst]; eapply fl_opt'; [apply L_geo|assumption]|cbn [snd]].
  eapply fields_cons; [reflexivity|cbn [fst]; eapply fl_opt'; [apply L_datetime|assumption]|cbn [snd]].
  eapply fields_cons; [reflexivity|cbn [fst]; eapply fl_opt'; [apply L_text|assumption]|cbn [snd]].
  eapply fields_cons; [reflexivity|cbn [fst]; eapply fl_opt'; [apply L_uri|assumption]|cbn [snd]].
  eapply fields_cons; [reflexivity|cbn [fst]; eapply fl_opt'; [apply L_u8|apply holds_any]|cbn [snd]].
  eapply fields_cons; [reflexivity|cbn [fst]; eapply fl_opt'; [apply L_u8|apply holds_any]|cbn [snd]].
  eapply fields_cons; [reflexivity|cbn [fst]; eapply fl_opt'; [apply L_date|assumption]|cbn [snd]].
  eapply fields_cons; [reflexivity|cbn [fst]; eapply fl_opt'; [apply L_u32|apply holds_any]|cbn [snd]].
  eapply fields_cons; [reflexivity|cbn [fst]; eapply fl_opt'; [apply L_status|apply holds_any]|cbn [snd]].
  eapply fields_cons; [reflexivity|cbn [fst]; eapply fl_opt'; [apply L_text|assumption]|cbn [snd]].
  eapply fields_cons; [reflexivity|cbn [fst]; eapply fl_opt'; [apply L_uri|assumption]|cbn [snd]].
  eapply fields_cons; [reflexivity|cbn [fst]; eapply fl_opt'; [apply L_recur|assumption]|cbn [snd]].
  eapply fields_cons; [reflexivity|cbn [fst]; eapply fl_opt'; [apply L_date|assumption]|cbn [snd]].
  eapply fields_cons; [reflexivity|cbn [fst]; eapply fl_opt'; [apply L_td|apply holds_any]|cbn [snd]].
  eapply fields_cons; [reflexivity|cbn [fst]; eapply fl_vec; [apply L_text|assumption]|cbn [snd]].
  eapply fields_cons; [reflexivity|cbn [fst]; eapply fl_vec; [apply L_uri|assumption]|cbn [snd]].
  eapply fields_cons; [reflexivity|cbn [fst]; eapply fl_app; [apply L_text|assumption]|cbn [snd]].
  eapply fields_cons; [reflexivity|cbn [fst]; eapply fl_vec; [apply L_text|assumption]|cbn [snd]].
  eapply fields_cons; [reflexivity|cbn [fst]; eapply fl_vec; [apply L_text|assumption]|cbn [snd]].
  eapply fields_cons; [reflexivity|cbn [fst]; eapply fl_app; [apply L_date|assumption]|cbn [snd]].
  eapply fields_cons; [reflexivity|cbn [fst]; eapply fl_vec; [apply L_rs|assumption]|cbn [snd]].
  eapply fields_cons; [reflexivity|cbn [fst]; eapply fl_vec; [apply L_text|assumption]|cbn [snd]].
  eapply fields_cons; [reflexivity|cbn [fst]; eapply fl_app; [apply L_text|assumption]|cbn [snd]].
  eapply fields_cons; [reflexivity|cbn [fst]; eapply fl_vec; [apply L_rdate|assumption]|cbn [snd]].
  apply fields_nil.
Qed.
Lemma vtodo_block v out : vtodo_tidy v -> s_ical ser_vtodo v = Ok out -> block (lit "VTODO") (vtodo_written v) out.
Proof.
  intros T H. rewrite <- vtodo_body_eq. change (to_x_prop v) with (c_xprop (vtodo_to v)). change (to_iana_prop v) with (c_iana (vtodo_to v)).
  apply comp_block; [apply vtodo_upper|apply vtodo_names|now apply vtodo_fields|cbn [c_xprop c_iana vtodo_to]; unfold vtodo_tidy in *; tauto|cbn [c_xprop c_iana vtodo_to]; unfold vtodo_tidy in *; tauto|exact H].
Qed.
Lemma vtodo_out v : vtodo_tidy v -> Forall ascii_line (vtodo_written v) -> exists out, s_ical ser_vtodo v = Ok out.
Proof.
  intros T H. rewrite <- vtodo_body_eq in H. change (to_x_prop v) with (c_xprop (vtodo_to v)) in H. change (to_iana_prop v) with (c_iana (vtodo_to v)) in H.
  eapply comp_written; [apply vtodo_names|now apply vtodo_fields|cbn [c_xprop c_iana vtodo_to]; unfold vtodo_tidy in *; tauto|cbn [c_xprop c_iana vtodo_to]; unfold vtodo_tidy in *; tauto|exact H].
Qed.
Lemma vtodo_nodup : NoDup (map fst vtodo_schema).
Proof. apply distinct_NoDup. vm_compute. reflexivity. Qed.
Lemma vtodo_safe_back v : vtodo_safe v -> fields_back vtodo_schema (c_fields (vtodo_to v)) (vtodo_body v).
Proof.
  unfold vtodo_safe, vtodo_body, vtodo_schema, vtodo_to. cbn [c_fields]. intros. destruct_all.
  eapply back_cons; [reflexivity|cbn [fst]; eapply fb_req; [apply B_datetime|assumption]|cbn [snd]].
  eapply back_cons; [reflexivity|cbn [fst]; eapply fb_req; [apply B_text|assumption]|cbn [snd]].
  eapply back_cons; [reflexivity|cbn [fst]; eapply fb_opt; [apply B_class|assumption]|cbn [snd]].
  eapply back_cons; [reflexivity|cbn [fst]; eapply fb_opt; [apply B_datetime|assumption]|cbn [snd]].
  eapply back_cons; [reflexivity|cbn [fst]; eapply fb_opt; [apply B_datetime|assumption]|cbn [snd]].
  eapply back_cons; [reflexivity|cbn [fst]; eapply fb_opt; [apply B_date|assumption]|cbn [snd]].
  eapply back_cons; [reflexivity|cbn [fst]; eapply fb_opt; [apply B_geo|assumption]|cbn [snd]].
  eapply back_cons; [reflexivity|cbn [fst]; eapply fb_opt; [apply B_datetime|assumption]|cbn [snd]].
  eapply back_cons; [reflexivity|cbn [fst]; eapply fb_opt; [apply B_text|assumption]|cbn [snd]].
  eapply back_cons; [reflexivity|cbn [fst]; eapply fb_opt; [apply B_uri|assumption]|cbn [snd]].
  eapply back_cons; [reflexivity|cbn [fst]; eapply fb_opt; [apply B_percent|assumption]|cbn [snd]].
  eapply back_cons; [reflexivity|cbn [fst]; eapply fb_opt; [apply B_priority|assumption]|cbn [snd]].
  eapply back_cons; [reflexivity|cbn [fst]; eapply fb_opt; [apply B_date|assumption]|cbn [snd]].
  eapply back_cons; [reflexivity|cbn [fst]; eapply fb_opt; [apply B_u32|assumption]|cbn [snd]].
  eapply back_cons; [reflexivity|cbn [fst]; eapply fb_opt; [apply B_status|apply holds_any]|cbn [snd]].
  eapply back_cons; [reflexivity|cbn [fst]; eapply fb_opt; [apply B_text|assumption]|cbn [snd]].
  eapply back_cons; [reflexivity|cbn [fst]; eapply fb_opt; [apply B_uri|assumption]|cbn [snd]].
  eapply back_cons; [reflexivity|cbn [fst]; eapply fb_opt; [apply B_recur|assumption]|cbn [snd]].
  eapply back_cons; [reflexivity|cbn [fst]; eapply fb_opt; [apply B_date|assumption]|cbn [snd]].
  eapply back_cons; [reflexivity|cbn [fst]; eapply fb_opt; [apply B_td|assumption]|cbn [snd]].
  eapply back_cons; [reflexivity|cbn [fst]; eapply fb_vec; [apply B_text|assumption]|cbn [snd]].
  eapply back_cons; [reflexivity|cbn [fst]; eapply fb_vec; [apply B_uri|assumption]|cbn [snd]].
  eapply back_cons; [reflexivity|cbn [fst]; eapply fb_app; [apply BL_texts|assumption]|cbn [snd]].
  eapply back_cons; [reflexivity|cbn [fst]; eapply fb_vec; [apply B_text|assumption]|cbn [snd]].
  eapply back_cons; [reflexivity|cbn [fst]; eapply fb_vec; [apply B_text|assumption]|cbn [snd]].
  eapply back_cons; [reflexivity|cbn [fst]; eapply fb_app; [apply BL_exdate|assumption]|cbn [snd]].
  eapply back_cons; [reflexivity|cbn [fst]; eapply fb_vec; [apply B_rs|assumption]|cbn [snd]].
  eapply back_cons; [reflexivity|cbn [fst]; eapply fb_vec; [apply B_text|assumption]|cbn [snd]].
  eapply back_cons; [reflexivity|cbn [fst]; eapply fb_app; [apply BL_texts|assumption]|cbn [snd]].
  eapply back_cons; [reflexivity|cbn [fst]; rewrite_nil; apply fb_empty|cbn [snd]].
  apply back_nil.
Qed.
Lemma vtodo_safe_tidy v : vtodo_safe v -> vtodo_tidy v.
Proof.
  unfold vtodo_safe, vtodo_tidy. intros. destruct_all.
  split; [now apply S_datetime|].
  split; [now apply S_text|].
  split; [eapply holds_mono; [apply S_class|assumption]|].
  split; [eapply holds_mono; [apply S_datetime|assumption]|].
  split; [eapply holds_mono; [apply S_datetime|assumption]|].
  split; [eapply holds_mono; [apply S_date|assumption]|].
  split; [eapply holds_mono; [apply S_geo|assumption]|].
  split; [eapply holds_mono; [apply S_datetime|assumption]|].
  split; [eapply holds_mono; [apply S_text|assumption]|].
  split; [eapply holds_mono; [apply S_uri|assumption]|].
  split; [eapply holds_mono; [apply S_date|assumption]|].
  split; [eapply holds_mono; [apply S_text|assumption]|].
  split; [eapply holds_mono; [apply S_uri|assumption]|].
  split; [eapply holds_mono; [apply S_rule|assumption]|].
  split; [eapply holds_mono; [apply S_date|assumption]|].
  split; [eapply one_all; [apply S_text|assumption]|].
  split; [eapply one_all; [apply S_uri|assumption]|].
  split; [eapply all_mono; [apply S_entry|assumption]|].
  split; [eapply one_all; [apply S_text|assumption]|].
  split; [eapply one_all; [apply S_text|assumption]|].
  split; [eapply all_mono; [apply S_date|assumption]|].
  split; [eapply one_all; [apply S_rs|assumption]|].
  split; [eapply one_all; [apply S_text|assumption]|].
  split; [eapply all_mono; [apply S_entry|assumption]|].
  split; [rewrite_nil; constructor|].
  split; rewrite_nil; apply tidy_none.
Qed.
Lemma vtodo_safe_lines v : vtodo_safe v -> vtodo_of_lines (vtodo_written v) = Ok v.
Proof.
  intros H. unfold vtodo_of_lines. rewrite (omap_iso vtodo_of vtodo_to) by (intros; rewrite ?vtodo_to_of, ?vtodo_of_to; auto).
  pose proof (vtodo_safe_back v H) as B. unfold vtodo_safe in H. destruct_all.
  rewrite <- vtodo_body_eq. replace (ext_line (lit "X-PROP") (to_x_prop v) ++ ext_line (lit "IANA-PROP") (to_iana_prop v)) with (@nil content_line) by (rewrite_nil; reflexivity).
  rewrite app_nil_r. apply comp_back; [apply vtodo_nodup|exact B|cbn [c_xprop vtodo_to]; assumption|cbn [c_iana vtodo_to]; assumption].
Qed.

(** standard *)
Definition standard_body (v : standard) : list content_line :=
  (date_line (lit "DTSTART") (st_dtstart v)) ++
  (plain_line offset_show (lit "TZOFFSETTO") (st_tzoffsetto v)) ++
  (plain_line offset_show (lit "TZOFFSETFROM") (st_tzoffsetfrom v)) ++
  (opt_lines (plain_line rule_shown) (lit "RRULE") (st_rrule v)) ++
  (list_lines text_line text_shown (lit "COMMENT") (st_comment v)) ++
  (list_lines (plain_line rdate_show) rdate_show (lit "RDATE") (st_rdate v)) ++
  (list_lines text_line text_shown (lit "TZNAME") (st_tzname v)) ++ [].
Lemma standard_body_eq v : standard_body v ++ ext_line (lit "X-PROP") (st_x_prop v) ++ ext_line (lit "IANA-PROP") (st_iana_prop v) = standard_written v.
Proof. unfold standard_body, standard_written. cbn [app]. now rewrite <- ?app_assoc, ?app_nil_r. Qed.
Lemma standard_names : Forall (fun nf => name_ok (fst nf)) standard_schema.
Proof. apply names_ok_iff. vm_compute. reflexivity. Qed.
Lemma standard_upper : upper_text (lit "STANDARD").
Proof. apply upper_lit. reflexivity. Qed.
Lemma standard_fields v : standard_tidy v -> fields_lines standard_schema (c_fields (standard_to v)) (standard_body v).
Proof.
  unfold standard_tidy, standard_body, standard_schema, standard_to. cbn [c_fields]. intros. destruct_all.
  eapply fields_cons; [reflexivity|cbn [fst]; eapply fl_req; [apply L_date|assumption]|cbn [snd]].
  eapply fields_cons; [reflexivity|cbn [fst]; eapply fl_req; [apply L_offset|assumption]|cbn [snd]].
  eapply fields_cons; [reflexivity|cbn [fst]; eapply fl_req; [apply L_offset|assumption]|cbn [snd]].
  eapply fields_cons; [reflexivity|cbn [fst]; eapply fl_opt'; [apply L_recur|assumption]|cbn [snd]].
  eapply fields_cons; [reflexivity|cbn [fst]; eapply fl_vec; [apply L_text|assumption]|cbn [snd]].
  eapply fields_cons; [reflexivity|cbn [fst]; eapply fl_vec; [apply L_rdate|assumption]|cbn [snd]].
  eapply fields_cons; [reflexivity|cbn [fst]; eapply fl_vec; [apply L_text|assumption]|cbn [snd]].
  apply fields_nil.
Qed.
Lemma standard_block v out : standard_tidy v -> s_ical ser_standard v = Ok out -> block (lit "STANDARD") (standard_written v) out.
Proof.
  intros T H. rewrite <- standard_body_eq. change (st_x_prop v) with (c_xprop (standard_to v)). change (st_iana_prop v) with (c_iana (standard_to v)).
  apply comp_block; [apply standard_upper|apply standard_names|now apply standard_fields|cbn [c_xprop c_iana standard_to]; unfold standard_tidy in *; tauto|cbn [c_xprop c_iana standard_to]; unfold standard_tidy in *; tauto|exact H].
Qed.
Lemma standard_out v : standard_tidy v -> Forall ascii_line (standard_written v) -> exists out, s_ical ser_standard v = Ok out.
Proof.
  intros T H. rewrite <- standard_body_eq in H. change (st_x_prop v) with (c_xprop (standard_to v)) in H. change (st_iana_prop v) with (c_iana (standard_to v)) in H.
  eapply comp_written; [apply standard_names|now apply standard_fields|cbn [c_xprop c_iana standard_to]; unfold standard_tidy in *; tauto|cbn [c_xprop c_iana standard_to]; unfold standard_tidy in *; tauto|exact H].
Qed.
Lemma standard_nodup : NoDup (map fst standard_schema).
Proof. apply distinct_NoDup. vm_compute. reflexivity. Qed.
Lemma standard_safe_back v : standard_safe v -> fields_back standard_schema (c_fields (standard_to v)) (standard_body v).
Proof.
  unfold standard_safe, standard_body, standard_schema, standard_to. cbn [c_fields]. intros. destruct_all.
  eapply back_cons; [reflexivity|cbn [fst]; eapply fb_req; [apply B_date|assumption]|cbn [snd]].
  eapply back_cons; [reflexivity|cbn [fst]; eapply fb_req; [apply B_offset|assumption]|cbn [snd]].
  eapply back_cons; [reflexivity|cbn [fst]; eapply fb_req; [apply B_offset|assumption]|cbn [snd]].
  eapply back_cons; [reflexivity|cbn [fst]; eapply fb_opt; [apply B_recur|assumption]|cbn [snd]].
  eapply back_cons; [reflexivity|cbn [fst]; eapply fb_vec; [apply B_text|assumption]|cbn [snd]].
  eapply back_cons; [reflexivity|cbn [fst]; rewrite_nil; apply fb_empty|cbn [snd]].
  eapply back_cons; [reflexivity|cbn [fst]; eapply fb_vec; [apply B_text|assumption]|cbn [snd]].
  apply back_nil.
Qed.
Lemma standard_safe_tidy v : standard_safe v -> standard_tidy v.
Proof.
  unfold standard_safe, standard_tidy. intros. destruct_all.
  split; [now apply S_date|].
  split; [now apply S_offset|].
  split; [now apply S_offset|].
  split; [eapply holds_mono; [apply S_rule|assumption]|].
  split; [eapply one_all; [apply S_text|assumption]|].
  split; [rewrite_nil; constructor|].
  split; [eapply one_all; [apply S_text|assumption]|].
  split; rewrite_nil; apply tidy_none.
Qed.
Lemma standard_safe_lines v : standard_safe v -> standard_of_lines (standard_written v) = Ok v.
Proof.
  intros H. unfold standard_of_lines. rewrite (omap_iso standard_of standard_to) by (intros; rewrite ?standard_to_of, ?standard_of_to; auto).
  pose proof (standard_safe_back v H) as B. unfold standard_safe in H. destruct_all.
  rewrite <- standard_body_eq. replace (ext_line (lit "X-PROP") (st_x_prop v) ++ ext_line (lit "IANA-PROP") (st_iana_prop v)) with (@nil content_line) by (rewrite_nil; reflexivity).
  rewrite app_nil_r. apply comp_back; [apply standard_nodup|exact B|cbn [c_xprop standard_to]; assumption|cbn [c_iana standard_to]; assumption].
Qed.

(** daylight *)
Definition daylight_body (v : daylight) : list content_line :=
  (date_line (lit "DTSTART") (dl_dtstart v)) ++
  (plain_line offset_show (lit "TZOFFSETTO") (dl_tzoffsetto v)) ++
  (plain_line offset_show (lit "TZOFFSETFROM") (dl_tzoffsetfrom v)) ++
  (opt_lines (plain_line rule_shown) (lit "RRULE") (dl_rrule v)) ++
  (list_lines text_line text_shown (lit "COMMENT") (dl_comment v)) ++
  (list_lines (plain_line rdate_show) rdate_show (lit "RDATE") (dl_rdate v)) ++
  (list_lines text_line text_shown (lit "TZNAME") (dl_tzname v)) ++ [].
Lemma daylight_body_eq v : daylight_body v ++ ext_line (lit "X-PROP") (dl_x_prop v) ++ ext_line (lit "IANA-PROP") (dl_iana_prop v) = daylight_written v.
Proof. unfold daylight_body, daylight_written. cbn [app]. now rewrite <- ?app_assoc, ?app_nil_r. Qed.
Lemma daylight_names : Forall (fun nf => name_ok (fst nf)) daylight_schema.
Proof. apply names_ok_iff. vm_compute. reflexivity. Qed.
Lemma daylight_upper : upper_text (lit "DAYLIGHT").
Proof. apply upper_lit. reflexivity. Qed.
Lemma daylight_fields v : daylight_tidy v -> fields_lines daylight_schema (c_fields (daylight_to v)) (daylight_body v).
Proof.
  unfold daylight_tidy, daylight_body, daylight_schema, daylight_to. cbn [c_fields]. intros. destruct_all.
  eapply fields_cons; [reflexivity|cbn [fst]; eapply fl_req; [apply L_date|assumption]|cbn [snd]].
  eapply fields_cons; [reflexivity|cbn [fst]; eapply fl_req; [apply L_offset|assumption]|cbn [snd]].
  eapply fields_cons; [reflexivity|cbn [fst]; eapply fl_req; [apply L_offset|assumption]|cbn [snd]].
  eapply fields_cons; [reflexivity|cbn [fst]; eapply fl_opt'; [apply L_recur|assumption]|cbn [snd]].
  eapply fields_cons; [reflexivity|cbn [fst]; eapply fl_vec; [apply L_text|assumption]|cbn [snd]].
  eapply fields_cons; [reflexivity|cbn [fst]; eapply fl_vec; [apply L_rdate|assumption]|cbn [snd]].
  eapply fields_cons; [reflexivity|cbn [fst]; eapply fl_vec; [apply L_text|assumption]|cbn [snd]].
  apply fields_nil.
Qed.
Lemma daylight_block v out : daylight_tidy v -> s_ical ser_daylight v = Ok out -> block (lit "DAYLIGHT") (daylight_written v) out.
Proof.
  intros T H. rewrite <- daylight_body_eq. change (dl_x_prop v) with (c_xprop (daylight_to v)). change (dl_iana_prop v) with (c_iana (daylight_to v)).
  apply comp_block; [apply daylight_upper|apply daylight_names|now apply daylight_fields|cbn [c_xprop c_iana daylight_to]; unfold daylight_tidy in *; tauto|cbn [c_xprop c_iana daylight_to]; unfold daylight_tidy in *; tauto|exact H].
Qed.
Lemma daylight_out v : daylight_tidy v -> Forall ascii_line (daylight_written v) -> exists out, s_ical ser_daylight v = Ok out.
Proof.
  intros T H. rewrite <- daylight_body_eq in H. change (dl_x_prop v) with (c_xprop (daylight_to v)) in H. change (dl_iana_prop v) with (c_iana (daylight_to v)) in H.
  eapply comp_written; [apply daylight_names|now apply daylight_fields|cbn [c_xprop c_iana daylight_to]; unfold daylight_tidy in *; tauto|cbn [c_xprop c_iana daylight_to]; unfold daylight_tidy in *; tauto|exact H].
Qed.
Lemma daylight_nodup : NoDup (map fst daylight_schema).
Proof. apply distinct_NoDup. vm_compute. reflexivity. Qed.
Lemma daylight_safe_back v : daylight_safe v -> fields_back daylight_schema (c_fields (daylight_to v)) (daylight_body v).
Proof.
  unfold daylight_safe, daylight_body, daylight_schema, daylight_to. cbn [c_fields]. intros. destruct_all.
  eapply back_cons; [reflexivity|cbn [fst]; eapply fb_req; [apply B_date|assumption]|cbn [snd]].
  eapply back_cons; [reflexivity|cbn [fst]; eapply fb_req; [apply B_offset|assumption]|cbn [snd]].
  eapply back_cons; [reflexivity|cbn [fst]; eapply fb_req; [apply B_offset|assumption]|cbn [snd]].
  eapply back_cons; [reflexivity|cbn [fst]; eapply fb_opt; [apply B_recur|assumption]|cbn [snd]].
  eapply back_cons; [reflexivity|cbn [fst]; eapply fb_vec; [apply B_text|assumption]|cbn [snd]].
  eapply back_cons; [reflexivity|cbn [fst]; rewrite_nil; apply fb_empty|cbn [snd]].
  eapply back_cons; [reflexivity|cbn [fst]; eapply fb_vec; [apply B_text|assumption]|cbn [snd]].
  apply back_nil.
Qed.
Lemma daylight_safe_tidy v : daylight_safe v -> daylight_tidy v.
Proof.
  unfold daylight_safe, daylight_tidy. intros. destruct_all.
  split; [now apply S_date|].
  split; [now apply S_offset|].
  split; [now apply S_offset|].
  split; [eapply holds_mono; [apply S_rule|assumption]|].
  split; [eapply one_all; [apply S_text|assumption]|].
  split; [rewrite_nil; constructor|].
  split; [eapply one_all; [apply S_text|assumption]|].
  split; rewrite_nil; apply tidy_none.
Qed.
Lemma daylight_safe_lines v : daylight_safe v -> daylight_of_lines (daylight_written v) = Ok v.
Proof.
  intros H. unfold daylight_of_lines. rewrite (omap_iso daylight_of daylight_to) by (intros; rewrite ?daylight_to_of, ?daylight_of_to; auto).
  pose proof (daylight_safe_back v H) as B. unfold daylight_safe in H. destruct_all.
  rewrite <- daylight_body_eq. replace (ext_line (lit "X-PROP") (dl_x_prop v) ++ ext_line (lit "IANA-PROP") (dl_iana_prop v)) with (@nil content_line) by (rewrite_nil; reflexivity).
  rewrite app_nil_r. apply comp_back; [apply daylight_nodup|exact B|cbn [c_xprop daylight_to]; assumption|cbn [c_iana daylight_to]; assumption].
Qed.

(** vtimezone *)
Definition vtimezone_body (v : vtimezone) : list content_line :=
  (text_line (lit "TZID") (tz_tzid v)) ++
  (opt_lines (plain_line dt_show) (lit "LAST-MODIFIED") (tz_last_modified v)) ++
  (opt_lines uri_line (lit "TZURL") (tz_tzurl v)) ++
  [] ++
  [] ++ [].
Lemma vtimezone_body_eq v : vtimezone_body v ++ ext_line (lit "X-PROP") (tz_x_prop v) ++ ext_line (lit "IANA-PROP") (tz_iana_prop v) = vtimezone_written v.
Proof. unfold vtimezone_body, vtimezone_written. cbn [app]. now rewrite <- ?app_assoc, ?app_nil_r. Qed.
Lemma vtimezone_names : Forall (fun nf => name_ok (fst nf)) vtimezone_schema.
Proof. apply names_ok_iff. vm_compute. reflexivity. Qed.
Lemma vtimezone_upper : upper_text (lit "VTIMEZONE").
Proof. apply upper_lit. reflexivity. Qed.
Lemma vtimezone_fields v : childless_tz v -> vtimezone_tidy v -> fields_lines vtimezone_schema (c_fields (vtimezone_to v)) (vtimezone_body v).
Proof.
  unfold vtimezone_tidy, vtimezone_body, vtimezone_schema, vtimezone_to. cbn [c_fields]. unfold childless_tz, childless. intros. destruct_all.
  eapply fields_cons; [reflexivity|cbn [fst]; eapply fl_req; [apply L_text|assumption]|cbn [snd]].
  eapply fields_cons; [reflexivity|cbn [fst]; eapply fl_opt'; [apply L_datetime|assumption]|cbn [snd]].
  eapply fields_cons; [reflexivity|cbn [fst]; eapply fl_opt'; [apply L_uri|assumption]|cbn [snd]].
  eapply fields_cons; [reflexivity|cbn [fst]; rewrite_nil; apply fl_none|cbn [snd]].
  eapply fields_cons; [reflexivity|cbn [fst]; rewrite_nil; apply fl_none|cbn [snd]].
  apply fields_nil.
Qed.
Lemma vtimezone_block v out : childless_tz v -> vtimezone_tidy v -> s_ical ser_vtimezone v = Ok out -> block (lit "VTIMEZONE") (vtimezone_written v) out.
Proof.
  intros C T H. rewrite <- vtimezone_body_eq. change (tz_x_prop v) with (c_xprop (vtimezone_to v)). change (tz_iana_prop v) with (c_iana (vtimezone_to v)).
  apply comp_block; [apply vtimezone_upper|apply vtimezone_names|now apply vtimezone_fields|cbn [c_xprop c_iana vtimezone_to]; unfold vtimezone_tidy in *; tauto|cbn [c_xprop c_iana vtimezone_to]; unfold vtimezone_tidy in *; tauto|exact H].
Qed.
Lemma vtimezone_out v : childless_tz v -> vtimezone_tidy v -> Forall ascii_line (vtimezone_written v) -> exists out, s_ical ser_vtimezone v = Ok out.
Proof.
  intros C T H. rewrite <- vtimezone_body_eq in H. change (tz_x_prop v) with (c_xprop (vtimezone_to v)) in H. change (tz_iana_prop v) with (c_iana (vtimezone_to v)) in H.
  eapply comp_written; [apply vtimezone_names|now apply vtimezone_fields|cbn [c_xprop c_iana vtimezone_to]; unfold vtimezone_tidy in *; tauto|cbn [c_xprop c_iana vtimezone_to]; unfold vtimezone_tidy in *; tauto|exact H].
Qed.
Lemma vtimezone_nodup : NoDup (map fst vtimezone_schema).
Proof. apply distinct_NoDup. vm_compute. reflexivity. Qed.

(** vcalendar *)
Definition vcalendar_body (v : vcalendar) : list content_line :=
  (text_line (lit "PRODID") (ca_prodid v)) ++
  (text_line (lit "VERSION") (ca_version v)) ++
  (opt_lines text_line (lit "CALSCALE") (ca_calscale v)) ++
  (opt_lines text_line (lit "METHOD") (ca_method v)) ++
  [] ++
  [] ++
  [] ++
  [] ++
  [] ++
  [] ++ [].
Lemma vcalendar_body_eq v : vcalendar_body v ++ ext_line (lit "X-PROP") (ca_x_prop v) ++ ext_line (lit "IANA-PROP") (ca_iana_prop v) = vcalendar_written v.
Proof. unfold vcalendar_body, vcalendar_written. cbn [app]. now rewrite <- ?app_assoc, ?app_nil_r. Qed.
Lemma vcalendar_names : Forall (fun nf => name_ok (fst nf)) vcalendar_schema.
Proof. apply names_ok_iff. vm_compute. reflexivity. Qed.
Lemma vcalendar_upper : upper_text (lit "VCALENDAR").
Proof. apply upper_lit. reflexivity. Qed.
Lemma vcalendar_fields v : childless v -> vcalendar_tidy v -> fields_lines vcalendar_schema (c_fields (vcalendar_to v)) (vcalendar_body v).
Proof.
  unfold vcalendar_tidy, vcalendar_body, vcalendar_schema, vcalendar_to. cbn [c_fields]. unfold childless_tz, childless. intros. destruct_all.
  eapply fields_cons; [reflexivity|cbn [fst]; eapply fl_req; [apply L_text|assumption]|cbn [snd]].
  eapply fields_cons; [reflexivity|cbn [fst]; eapply fl_req; [apply L_text|assumption]|cbn [snd]].
  eapply fields_cons; [reflexivity|cbn [fst]; eapply fl_opt'; [apply L_text|assumption]|cbn [snd]].
  eapply fields_cons; [reflexivity|cbn [fst]; eapply fl_opt'; [apply L_text|assumption]|cbn [snd]].
  eapply fields_cons; [reflexivity|cbn [fst]; rewrite_nil; apply fl_none|cbn [snd]].
  eapply fields_cons; [reflexivity|cbn [fst]; rewrite_nil; apply fl_none|cbn [snd]].
  eapply fields_cons; [reflexivity|cbn [fst]; rewrite_nil; apply fl_none|cbn [snd]].
  eapply fields_cons; [reflexivity|cbn [fst]; rewrite_nil; apply fl_none|cbn [snd]].
  eapply fields_cons; [reflexivity|cbn [fst]; rewrite_nil; apply fl_none|cbn [snd]].
  eapply fields_cons; [reflexivity|cbn [fst]; rewrite_nil; apply fl_none|cbn [snd]].
  apply fields_nil.
Qed.
Lemma vcalendar_block v out : childless v -> vcalendar_tidy v -> s_ical ser_vcalendar v = Ok out -> block (lit "VCALENDAR") (vcalendar_written v) out.
Proof.
  intros C T H. rewrite <- vcalendar_body_eq. change (ca_x_prop v) with (c_xprop (vcalendar_to v)). change (ca_iana_prop v) with (c_iana (vcalendar_to v)).
  apply comp_block; [apply vcalendar_upper|apply vcalendar_names|now apply vcalendar_fields|cbn [c_xprop c_iana vcalendar_to]; unfold vcalendar_tidy in *; tauto|cbn [c_xprop c_iana vcalendar_to]; unfold vcalendar_tidy in *; tauto|exact H].
Qed.
Lemma vcalendar_out v : childless v -> vcalendar_tidy v -> Forall ascii_line (vcalendar_written v) -> exists out, s_ical ser_vcalendar v = Ok out.
Proof.
  intros C T H. rewrite <- vcalendar_body_eq in H. change (ca_x_prop v) with (c_xprop (vcalendar_to v)) in H. change (ca_iana_prop v) with (c_iana (vcalendar_to v)) in H.
  eapply comp_written; [apply vcalendar_names|now apply vcalendar_fields|cbn [c_xprop c_iana vcalendar_to]; unfold vcalendar_tidy in *; tauto|cbn [c_xprop c_iana vcalendar_to]; unfold vcalendar_tidy in *; tauto|exact H].
Qed.
Lemma vcalendar_nodup : NoDup (map fst vcalendar_schema).
Proof. apply distinct_NoDup. vm_compute. reflexivity. Qed.

End Env.
