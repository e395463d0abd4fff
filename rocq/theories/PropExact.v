(** * C74, C79: the exact text of a component, and line breaks inside values. *)
From Verif Require Import Base Env Chrono Nom Types Ser Parser Derive BaseFacts NomFacts SpecLine LineFacts SpecText SerFacts PropText PropLine PropDate
  SpecCal SpecDur PropVocab PropRule PropPeriod PropList Components SpecComp DeriveFacts SpecFields PropComp SpecFile PropFile SpecRound RoundFacts FrameFacts BackFacts FieldFacts ChildFacts CalFacts AlarmFacts PropRoundEx
  SpecExact ExactFacts UnreadFacts ExactFields.

Lemma count_app x a b : count x (a ++ b) = (count x a + count x b)%nat.
Proof. apply count_occ_app. Qed.
Lemma count_none x s : ~ In x s -> count x s = 0%nat.
Proof. intros H. apply count_occ_not_In. exact H. Qed.
Lemma count_line c : name_ok (cl_key c) -> unbroken c -> count LF (raw_line c) = 1%nat.
Proof.
  intros (K & _) [A B]. unfold raw_line. rewrite !count_app, (count_none LF (cl_key c)) by (now apply key_no_LF).
  rewrite (count_none LF (raw_params _)) by (now apply params_no_LF). rewrite (count_none LF (cl_value c)) by exact A. reflexivity.
Qed.
Lemma count_lines ls : Forall (fun c => name_ok (cl_key c)) ls -> Forall unbroken ls -> count LF (raw_lines ls) = length ls.
Proof.
  intros N U. induction ls as [|c ls IH]; [reflexivity|]. inversion N; inversion U; subst. unfold raw_lines in *. cbn [map concat length]. rewrite count_app, count_line, IH by assumption. reflexivity.
Qed.
Lemma count_framed name body : upper_text name -> count LF (framed name body) = (2 + count LF body)%nat.
Proof.
  intros H. unfold framed. rewrite !count_app. rewrite (count_none LF name).
  - change (count LF (lit "BEGIN:")) with 0%nat. change (count LF (lit "END:")) with 0%nat. change (count LF [CR; LF]) with 1%nat. lia.
  - intros X. unfold upper_text in H. rewrite Forall_forall in H. apply H in X. unfold LF in X. lia.
Qed.
Lemma not_clean ls : Exists (fun c => In CR (cl_value c)) ls -> ~ Forall clean ls.
Proof. intros H F. rewrite Exists_exists in H. destruct H as (c & I & X). rewrite Forall_forall in F. now apply (F c I). Qed.

Section Env.
Context {E : Env}.
(** ** C74: the text *)
(** What is written, unfolded, is the BEGIN line, the content lines of the value
    and the END line, and nothing else. Texts and URIs are arbitrary. *)
Lemma proj_alarms v : vevent_no_break v -> ev_alarms v = [].
Proof. unfold vevent_no_break. tauto. Qed.
Theorem C74_audio : forall v out, audio_no_break v -> s_ical ser_audio v = Ok out -> unfold_lines out = audio_text v.
Proof. intros v out H W. apply exact_out. apply (audio_exact v out (audio_unbroken v H) W). Qed.
Theorem C74_display : forall v out, display_no_break v -> s_ical ser_display_alarm v = Ok out -> unfold_lines out = display_text v.
Proof. intros v out H W. apply exact_out. apply (display_exact v out (display_unbroken v H) W). Qed.
Theorem C74_email : forall v out, email_no_break v -> s_ical ser_email v = Ok out -> unfold_lines out = email_text v.
Proof. intros v out H W. apply exact_out. apply (email_exact v out (email_unbroken v H) W). Qed.
Theorem C74_vevent : forall v out, vevent_no_break v -> s_ical ser_vevent v = Ok out -> unfold_lines out = vevent_text v.
Proof. intros v out H W. apply exact_out. apply (vevent_exact v out (proj_alarms v H) (vevent_unbroken v H) W). Qed.
Theorem C74_vfreebusy : forall v out, vfreebusy_no_break v -> s_ical ser_vfreebusy v = Ok out -> unfold_lines out = vfreebusy_text v.
Proof. intros v out H W. apply exact_out. apply (vfreebusy_exact v out (vfreebusy_unbroken v H) W). Qed.
Theorem C74_vjournal : forall v out, vjournal_no_break v -> s_ical ser_vjournal v = Ok out -> unfold_lines out = vjournal_text v.
Proof. intros v out H W. apply exact_out. apply (vjournal_exact v out (vjournal_unbroken v H) W). Qed.
Theorem C74_vtodo : forall v out, vtodo_no_break v -> s_ical ser_vtodo v = Ok out -> unfold_lines out = vtodo_text v.
Proof. intros v out H W. apply exact_out. apply (vtodo_exact v out (vtodo_unbroken v H) W). Qed.
Theorem C74_standard : forall v out, standard_no_break v -> s_ical ser_standard v = Ok out -> unfold_lines out = standard_text v.
Proof. intros v out H W. apply exact_out. apply (standard_exact v out (standard_unbroken v H) W). Qed.
Theorem C74_daylight : forall v out, daylight_no_break v -> s_ical ser_daylight v = Ok out -> unfold_lines out = daylight_text v.
Proof. intros v out H W. apply exact_out. apply (daylight_exact v out (daylight_unbroken v H) W). Qed.

(** An alarm is framed as VALARM. *)
Lemma alarm_unbroken a : valarm_no_break a -> Forall unbroken (valarm_written a).
Proof. destruct a; cbn [valarm_no_break valarm_written]; [apply audio_unbroken|apply display_unbroken|apply email_unbroken]. Qed.
Lemma alarm_keys a : Forall (fun c => name_ok (cl_key c)) (valarm_written a).
Proof. destruct a; cbn [valarm_written]; [apply audio_keys|apply display_keys|apply email_keys]. Qed.
Lemma alarm_exact a out : valarm_no_break a -> s_ical ser_valarm a = Ok out -> exact out (valarm_text a).
Proof.
  intros N H. pose proof (alarm_unbroken a N) as U. apply alarm_frame in H as (body & C & _ & ->). unfold valarm_text. apply exact_frame; [apply upper_lit; reflexivity|].
  assert (X : exists b, lit "BEGIN:" ++ alarm_name a ++ CRLF ++ body ++ lit "END:" ++ alarm_name a ++ CRLF = lit "BEGIN:" ++ alarm_name a ++ CRLF ++ b ++ lit "END:" ++ alarm_name a ++ CRLF /\ exact b (raw_lines (valarm_written a))).
  { destruct a as [x|x|x]; cbn [alarm_content alarm_name valarm_written] in *; [eapply audio_exact_body|eapply display_exact_body|eapply email_exact_body]; eauto. }
  destruct X as (b & Eq & X). apply app_inv_head in Eq. apply app_inv_head in Eq. apply app_inv_head in Eq. apply app_inv_tail in Eq. now subst.
Qed.
Theorem C74_valarm : forall a out, valarm_no_break a -> s_ical ser_valarm a = Ok out -> unfold_lines out = valarm_text a.
Proof. intros a out N H. now apply exact_out, alarm_exact. Qed.

(** A timezone and a calendar: the texts of the children, inside. *)
Lemma kids_exact {T} (S : serialize T) (text : T -> str) nm n l out : s_component S = Some nm -> (length l <= 1)%nat ->
  (forall x o, In x l -> s_ical S x = Ok o -> exact o (text x)) -> vec_field S n l = Ok out -> exact out (concat (map text l)).
Proof.
  intros Hc Hl He H. destruct (vec_child S nm n l out Hc Hl H) as (outs & F & ->). apply exact_concat.
  clear H Hl. induction F as [|x o l outs W F IH]; cbn [map]; constructor; [apply He; cbn; auto|]. apply IH. intros; apply He; cbn; auto.
Qed.
Definition tz_own (v : vtimezone) := text_line (lit "TZID") (tz_tzid v) ++ opt_lines (plain_line dt_show) (lit "LAST-MODIFIED") (tz_last_modified v) ++ opt_lines uri_line (lit "TZURL") (tz_tzurl v).
Definition tz_ext (v : vtimezone) := ext_line (lit "X-PROP") (tz_x_prop v) ++ ext_line (lit "IANA-PROP") (tz_iana_prop v).
Definition ca_own (v : vcalendar) := text_line (lit "PRODID") (ca_prodid v) ++ text_line (lit "VERSION") (ca_version v) ++
  opt_lines text_line (lit "CALSCALE") (ca_calscale v) ++ opt_lines text_line (lit "METHOD") (ca_method v).
Definition ca_ext (v : vcalendar) := ext_line (lit "X-PROP") (ca_x_prop v) ++ ext_line (lit "IANA-PROP") (ca_iana_prop v).
Lemma tz_written_eq v : vtimezone_written v = tz_own v ++ tz_ext v.
Proof. unfold vtimezone_written, tz_own, tz_ext. now rewrite <- !app_assoc. Qed.
Lemma ca_written_eq v : vcalendar_written v = ca_own v ++ ca_ext v.
Proof. unfold vcalendar_written, ca_own, ca_ext. now rewrite <- !app_assoc. Qed.
Lemma tz_own_items v : fields_items tz_line_fields (tz_tzid v, (tz_last_modified v, (tz_tzurl v, tt))) (tz_own v).
Proof.
  unfold tz_own, tz_line_fields.
  eapply fi_cons; [reflexivity|cbn [fst]; eapply fi_req; apply I_text|cbn [snd]].
  eapply fi_cons; [reflexivity|cbn [fst]; eapply fi_opt; apply I_datetime|cbn [snd]].
  eapply fi_cons; [symmetry; apply app_nil_r|cbn [fst]; eapply fi_opt; apply I_uri|cbn [snd]]. apply fi_nil.
Qed.
Lemma ca_own_items v : fields_items ca_line_fields (ca_prodid v, (ca_version v, (ca_calscale v, (ca_method v, tt)))) (ca_own v).
Proof.
  unfold ca_own, ca_line_fields.
  eapply fi_cons; [reflexivity|cbn [fst]; eapply fi_req; apply I_text|cbn [snd]].
  eapply fi_cons; [reflexivity|cbn [fst]; eapply fi_req; apply I_text|cbn [snd]].
  eapply fi_cons; [reflexivity|cbn [fst]; eapply fi_opt; apply I_text|cbn [snd]].
  eapply fi_cons; [symmetry; apply app_nil_r|cbn [fst]; eapply fi_opt; apply I_text|cbn [snd]]. apply fi_nil.
Qed.
Lemma tz_own_unbroken v : vtimezone_no_break v -> Forall unbroken (tz_own v) /\ Forall unbroken (tz_ext v).
Proof.
  unfold vtimezone_no_break, tz_own, tz_ext. intros (H1 & H2 & H3 & H4 & H5). rewrite !Forall_app.
  repeat split; [eapply u_req; [apply U_text|exact H1]|eapply u_opt; [apply U_datetime|exact H2]|eapply u_opt; [apply U_uri|exact H3]|now apply u_ext|now apply u_ext].
Qed.
Lemma ca_own_unbroken v : vcalendar_no_break v -> Forall unbroken (ca_own v) /\ Forall unbroken (ca_ext v).
Proof.
  unfold vcalendar_no_break, ca_own, ca_ext. intros (H1 & H2 & H3 & H4 & H5 & H6). rewrite !Forall_app.
  repeat split; [eapply u_req; [apply U_text|exact H1]|eapply u_req; [apply U_text|exact H2]|eapply u_opt; [apply U_text|exact H3]|eapply u_opt; [apply U_text|exact H4]|now apply u_ext|now apply u_ext].
Qed.
Lemma ext_keys m m' : Forall (fun c => name_ok (cl_key c)) (ext_line (lit "X-PROP") m ++ ext_line (lit "IANA-PROP") m').
Proof. apply Forall_app. split; apply ext_names; [apply name_ok_x|apply name_ok_i]. Qed.
Lemma tz_own_keys v : Forall (fun c => name_ok (cl_key c)) (tz_own v).
Proof. eapply fields_items_names; [apply tz_line_names|apply tz_own_items]. Qed.
Lemma ca_own_keys v : Forall (fun c => name_ok (cl_key c)) (ca_own v).
Proof. eapply fields_items_names; [apply ca_line_names|apply ca_own_items]. Qed.
Lemma timezone_exact v out : vtimezone_no_break_all v -> s_ical ser_vtimezone v = Ok out -> exact out (vtimezone_text v).
Proof.
  intros (T & [L1 L2] & F1 & F2) H. cbn [s_ical ser_vtimezone ser_iso] in H. apply comp_parts in H as (b & x & i & B & Hx & Hi & ->).
  apply tz_ser in B as (h & s & d & B & Hs & Hd & ->). cbn [c_xprop c_iana vtimezone_to] in *. destruct (tz_own_unbroken v T) as [U1 U2].
  pose proof (exact_frame (lit "VTIMEZONE") ((h ++ s ++ d) ++ x ++ i) ((raw_lines (tz_own v) ++ concat (map standard_text (tz_standard v)) ++ concat (map daylight_text (tz_daylight v))) ++ raw_lines (tz_ext v)) vtimezone_upper) as G.
  unfold vtimezone_text. fold (tz_own v) (tz_ext v). rewrite <- !app_assoc in *. apply G. clear G. rewrite Forall_forall in F1, F2.
  apply exact_app; [eapply fields_items_exact; [apply tz_line_names|apply tz_own_items|exact U1|exact B]|].
  apply exact_app; [eapply (kids_exact ser_standard standard_text); [reflexivity|exact L1| |exact Hs]; intros y o Hy; apply standard_exact, standard_unbroken, F1, Hy|].
  apply exact_app; [eapply (kids_exact ser_daylight daylight_text); [reflexivity|exact L2| |exact Hd]; intros y o Hy; apply daylight_exact, daylight_unbroken, F2, Hy|].
  now apply ext_exact.
Qed.
Theorem C74_vtimezone : forall v out, vtimezone_no_break_all v -> s_ical ser_vtimezone v = Ok out -> unfold_lines out = vtimezone_text v.
Proof. intros v out N H. now apply exact_out, timezone_exact. Qed.
Lemma calendar_exact v out : vcalendar_no_break_all v -> s_ical ser_vcalendar v = Ok out -> exact out (vcalendar_text v).
Proof.
  intros (T & (L0 & L1 & L2 & L3 & L4 & L5) & F1 & F2 & F3 & F4 & F5) H. cbn [s_ical ser_vcalendar ser_iso] in H. apply comp_parts in H as (b & x & i & B & Hx & Hi & ->).
  apply ca_ser in B as (h & xa & xe & xf & xj & xt & xz & B & Ha & He & Hf & Hj & Ht & Hz & ->). cbn [c_xprop c_iana vcalendar_to] in *. destruct (ca_own_unbroken v T) as [U1 U2].
  rewrite L0 in Ha. cbn [vec_field] in Ha. rewrite (C01_empty_value _ (ser_vec ser_valarm) (lit "ALARMS") []) in Ha by reflexivity. injection Ha as <-.
  pose proof (exact_frame (lit "VCALENDAR") ((h ++ [] ++ xe ++ xf ++ xj ++ xt ++ xz) ++ x ++ i) ((raw_lines (ca_own v) ++ concat (map vevent_text (ca_events v)) ++ concat (map vfreebusy_text (ca_freebusy v)) ++ concat (map vjournal_text (ca_journals v)) ++
    concat (map vtodo_text (ca_todo v)) ++ concat (map vtimezone_text (ca_timezones v))) ++ raw_lines (ca_ext v)) vcalendar_upper) as G.
  unfold vcalendar_text. fold (ca_own v) (ca_ext v). rewrite <- !app_assoc in *. apply G. clear G. rewrite Forall_forall in F1, F2, F3, F4, F5. cbn [app].
  apply exact_app; [eapply fields_items_exact; [apply ca_line_names|apply ca_own_items|exact U1|exact B]|].
  apply exact_app; [eapply (kids_exact ser_vevent vevent_text); [reflexivity|exact L1| |exact He]; intros y o Hy; apply vevent_exact; [apply proj_alarms, F1, Hy|apply vevent_unbroken, F1, Hy]|].
  apply exact_app; [eapply (kids_exact ser_vfreebusy vfreebusy_text); [reflexivity|exact L2| |exact Hf]; intros y o Hy; apply vfreebusy_exact, vfreebusy_unbroken, F2, Hy|].
  apply exact_app; [eapply (kids_exact ser_vjournal vjournal_text); [reflexivity|exact L3| |exact Hj]; intros y o Hy; apply vjournal_exact, vjournal_unbroken, F3, Hy|].
  apply exact_app; [eapply (kids_exact ser_vtodo vtodo_text); [reflexivity|exact L4| |exact Ht]; intros y o Hy; apply vtodo_exact, vtodo_unbroken, F4, Hy|].
  apply exact_app; [eapply (kids_exact ser_vtimezone vtimezone_text); [reflexivity|exact L5| |exact Hz]; intros y o Hy; apply timezone_exact, F5, Hy|].
  now apply ext_exact.
Qed.
Theorem C74_vcalendar : forall v out, vcalendar_no_break_all v -> s_ical ser_vcalendar v = Ok out -> unfold_lines out = vcalendar_text v.
Proof. intros v out N H. now apply exact_out, calendar_exact. Qed.

(** ** C79: line breaks *)
(** No text or URI adds a line: there are as many lines as content lines, and the
    BEGIN and END lines. *)
Theorem C79_audio_lines : forall v out, audio_no_break v -> s_ical ser_audio v = Ok out -> count LF (unfold_lines out) = (2 + length (audio_written v))%nat.
Proof.
  intros v out H W. rewrite (C74_audio v out H W). unfold audio_text. rewrite count_framed by apply audio_upper. rewrite count_lines; [reflexivity|apply audio_keys|now apply audio_unbroken].
Qed.
Theorem C79_display_lines : forall v out, display_no_break v -> s_ical ser_display_alarm v = Ok out -> count LF (unfold_lines out) = (2 + length (display_written v))%nat.
Proof.
  intros v out H W. rewrite (C74_display v out H W). unfold display_text. rewrite count_framed by apply display_upper. rewrite count_lines; [reflexivity|apply display_keys|now apply display_unbroken].
Qed.
Theorem C79_email_lines : forall v out, email_no_break v -> s_ical ser_email v = Ok out -> count LF (unfold_lines out) = (2 + length (email_written v))%nat.
Proof.
  intros v out H W. rewrite (C74_email v out H W). unfold email_text. rewrite count_framed by apply email_upper. rewrite count_lines; [reflexivity|apply email_keys|now apply email_unbroken].
Qed.
Theorem C79_vevent_lines : forall v out, vevent_no_break v -> s_ical ser_vevent v = Ok out -> count LF (unfold_lines out) = (2 + length (vevent_written v))%nat.
Proof.
  intros v out H W. rewrite (C74_vevent v out H W). unfold vevent_text. rewrite count_framed by apply vevent_upper. rewrite count_lines; [reflexivity|apply vevent_keys, proj_alarms, H|now apply vevent_unbroken].
Qed.
Theorem C79_vfreebusy_lines : forall v out, vfreebusy_no_break v -> s_ical ser_vfreebusy v = Ok out -> count LF (unfold_lines out) = (2 + length (vfreebusy_written v))%nat.
Proof.
  intros v out H W. rewrite (C74_vfreebusy v out H W). unfold vfreebusy_text. rewrite count_framed by apply vfreebusy_upper. rewrite count_lines; [reflexivity|apply vfreebusy_keys|now apply vfreebusy_unbroken].
Qed.
Theorem C79_vjournal_lines : forall v out, vjournal_no_break v -> s_ical ser_vjournal v = Ok out -> count LF (unfold_lines out) = (2 + length (vjournal_written v))%nat.
Proof.
  intros v out H W. rewrite (C74_vjournal v out H W). unfold vjournal_text. rewrite count_framed by apply vjournal_upper. rewrite count_lines; [reflexivity|apply vjournal_keys|now apply vjournal_unbroken].
Qed.
Theorem C79_vtodo_lines : forall v out, vtodo_no_break v -> s_ical ser_vtodo v = Ok out -> count LF (unfold_lines out) = (2 + length (vtodo_written v))%nat.
Proof.
  intros v out H W. rewrite (C74_vtodo v out H W). unfold vtodo_text. rewrite count_framed by apply vtodo_upper. rewrite count_lines; [reflexivity|apply vtodo_keys|now apply vtodo_unbroken].
Qed.
Theorem C79_standard_lines : forall v out, standard_no_break v -> s_ical ser_standard v = Ok out -> count LF (unfold_lines out) = (2 + length (standard_written v))%nat.
Proof.
  intros v out H W. rewrite (C74_standard v out H W). unfold standard_text. rewrite count_framed by apply standard_upper. rewrite count_lines; [reflexivity|apply standard_keys|now apply standard_unbroken].
Qed.
Theorem C79_daylight_lines : forall v out, daylight_no_break v -> s_ical ser_daylight v = Ok out -> count LF (unfold_lines out) = (2 + length (daylight_written v))%nat.
Proof.
  intros v out H W. rewrite (C74_daylight v out H W). unfold daylight_text. rewrite count_framed by apply daylight_upper. rewrite count_lines; [reflexivity|apply daylight_keys|now apply daylight_unbroken].
Qed.
Theorem C79_valarm_lines : forall a out, valarm_no_break a -> s_ical ser_valarm a = Ok out -> count LF (unfold_lines out) = (2 + length (valarm_written a))%nat.
Proof.
  intros a out H W. rewrite (C74_valarm a out H W). unfold valarm_text. rewrite count_framed by (apply upper_lit; reflexivity). rewrite count_lines; [reflexivity|apply alarm_keys|now apply alarm_unbroken].
Qed.
Lemma count_kids {T} (text : T -> str) (f : T -> list content_line) (g : T -> nat) l : (forall x, In x l -> count LF (text x) = (length (f x) + 2 * g x)%nat) ->
  count LF (concat (map text l)) = (length (flat_map f l) + 2 * list_sum (map g l))%nat.
Proof.
  intros H. induction l as [|x l IH]; [reflexivity|]. cbn [map concat flat_map list_sum fold_right]. unfold list_sum in *. cbn [fold_right]. rewrite count_app, app_length, H, IH; [lia|intros; apply H; cbn; auto|cbn; auto].
Qed.
Lemma sum_ones {T} (l : list T) : list_sum (map (fun _ => 1%nat) l) = length l.
Proof. induction l as [|x l IH]; cbn; [reflexivity|]. unfold list_sum in IH. now rewrite IH. Qed.
Lemma standard_count v : standard_no_break v -> count LF (standard_text v) = (length (standard_written v) + 2 * 1)%nat.
Proof. intros H. unfold standard_text. rewrite count_framed by apply standard_upper. rewrite count_lines; [lia|apply standard_keys|now apply standard_unbroken]. Qed.
Lemma daylight_count v : daylight_no_break v -> count LF (daylight_text v) = (length (daylight_written v) + 2 * 1)%nat.
Proof. intros H. unfold daylight_text. rewrite count_framed by apply daylight_upper. rewrite count_lines; [lia|apply daylight_keys|now apply daylight_unbroken]. Qed.
Lemma vevent_count v : vevent_no_break v -> count LF (vevent_text v) = (length (vevent_written v) + 2 * 1)%nat.
Proof. intros H. unfold vevent_text. rewrite count_framed by apply vevent_upper. rewrite count_lines; [lia|apply vevent_keys, proj_alarms, H|now apply vevent_unbroken]. Qed.
Lemma vfreebusy_count v : vfreebusy_no_break v -> count LF (vfreebusy_text v) = (length (vfreebusy_written v) + 2 * 1)%nat.
Proof. intros H. unfold vfreebusy_text. rewrite count_framed by apply vfreebusy_upper. rewrite count_lines; [lia|apply vfreebusy_keys|now apply vfreebusy_unbroken]. Qed.
Lemma vjournal_count v : vjournal_no_break v -> count LF (vjournal_text v) = (length (vjournal_written v) + 2 * 1)%nat.
Proof. intros H. unfold vjournal_text. rewrite count_framed by apply vjournal_upper. rewrite count_lines; [lia|apply vjournal_keys|now apply vjournal_unbroken]. Qed.
Lemma vtodo_count v : vtodo_no_break v -> count LF (vtodo_text v) = (length (vtodo_written v) + 2 * 1)%nat.
Proof. intros H. unfold vtodo_text. rewrite count_framed by apply vtodo_upper. rewrite count_lines; [lia|apply vtodo_keys|now apply vtodo_unbroken]. Qed.
Lemma timezone_count v : vtimezone_no_break_all v -> count LF (vtimezone_text v) = (length (vtimezone_lines v) + 2 * vtimezone_frames v)%nat.
Proof.
  intros (T & _ & F1 & F2). destruct (tz_own_unbroken v T) as [U1 U2]. rewrite Forall_forall in F1, F2.
  unfold vtimezone_text. fold (tz_own v) (tz_ext v). rewrite count_framed by apply vtimezone_upper. rewrite !count_app.
  rewrite !count_lines; [|apply ext_keys|exact U2|apply tz_own_keys|exact U1].
  rewrite (count_kids standard_text standard_written (fun _ => 1%nat)) by (intros x Hx; now apply standard_count, F1).
  rewrite (count_kids daylight_text daylight_written (fun _ => 1%nat)) by (intros x Hx; now apply daylight_count, F2).
  rewrite !sum_ones. unfold vtimezone_lines, vtimezone_frames. rewrite tz_written_eq, !app_length. lia.
Qed.
Theorem C79_vtimezone_lines : forall v out, vtimezone_no_break_all v -> s_ical ser_vtimezone v = Ok out ->
  count LF (unfold_lines out) = (length (vtimezone_lines v) + 2 * vtimezone_frames v)%nat.
Proof. intros v out H W. rewrite (C74_vtimezone v out H W). now apply timezone_count. Qed.
Theorem C79_vcalendar_lines : forall v out, vcalendar_no_break_all v -> s_ical ser_vcalendar v = Ok out ->
  count LF (unfold_lines out) = (length (vcalendar_lines v) + 2 * vcalendar_frames v)%nat.
Proof.
  intros v out H W. rewrite (C74_vcalendar v out H W). destruct H as (T & _ & F1 & F2 & F3 & F4 & F5). destruct (ca_own_unbroken v T) as [U1 U2]. rewrite Forall_forall in F1, F2, F3, F4, F5.
  unfold vcalendar_text. fold (ca_own v) (ca_ext v). rewrite count_framed by apply vcalendar_upper. rewrite !count_app.
  rewrite !count_lines; [|apply ext_keys|exact U2|apply ca_own_keys|exact U1].
  rewrite (count_kids vevent_text vevent_written (fun _ => 1%nat)) by (intros x Hx; now apply vevent_count, F1).
  rewrite (count_kids vfreebusy_text vfreebusy_written (fun _ => 1%nat)) by (intros x Hx; now apply vfreebusy_count, F2).
  rewrite (count_kids vjournal_text vjournal_written (fun _ => 1%nat)) by (intros x Hx; now apply vjournal_count, F3).
  rewrite (count_kids vtodo_text vtodo_written (fun _ => 1%nat)) by (intros x Hx; now apply vtodo_count, F4).
  rewrite (count_kids vtimezone_text vtimezone_lines vtimezone_frames) by (intros x Hx; now apply timezone_count, F5).
  rewrite !sum_ones. unfold vcalendar_lines, vcalendar_frames. rewrite ca_written_eq, !app_length. lia.
Qed.

(** A CR in a value is written as it is, and then the crate does not read the
    component back. *)
Definition plain_attributes (ls : list content_line) : Prop := Forall (fun c => good_params (cl_params c)) ls.
Definition has_cr (ls : list content_line) : Prop := Exists (fun c => In CR (cl_value c)) ls.
Theorem C79_vfreebusy_cr : forall v out, vfreebusy_no_break v -> plain_attributes (vfreebusy_written v) -> has_cr (vfreebusy_written v) -> s_ical ser_vfreebusy v = Ok out ->
  vfreebusy_of_str out = Err EParser.
Proof.
  intros v out H P C W. apply (component_unread (lit "VFREEBUSY") vfreebusy_of_lines (vfreebusy_written v)); [apply nice_lines; [apply vfreebusy_keys|now apply vfreebusy_unbroken|exact P]|now apply not_clean|now apply C74_vfreebusy].
Qed.
Theorem C79_vjournal_cr : forall v out, vjournal_no_break v -> plain_attributes (vjournal_written v) -> has_cr (vjournal_written v) -> s_ical ser_vjournal v = Ok out ->
  vjournal_of_str out = Err EParser.
Proof.
  intros v out H P C W. apply (component_unread (lit "VJOURNAL") vjournal_of_lines (vjournal_written v)); [apply nice_lines; [apply vjournal_keys|now apply vjournal_unbroken|exact P]|now apply not_clean|now apply C74_vjournal].
Qed.
Theorem C79_vtodo_cr : forall v out, vtodo_no_break v -> plain_attributes (vtodo_written v) -> has_cr (vtodo_written v) -> s_ical ser_vtodo v = Ok out ->
  vtodo_of_str out = Err EParser.
Proof.
  intros v out H P C W. apply (component_unread (lit "VTODO") vtodo_of_lines (vtodo_written v)); [apply nice_lines; [apply vtodo_keys|now apply vtodo_unbroken|exact P]|now apply not_clean|now apply C74_vtodo].
Qed.
Theorem C79_standard_cr : forall v out, standard_no_break v -> plain_attributes (standard_written v) -> has_cr (standard_written v) -> s_ical ser_standard v = Ok out ->
  standard_of_str out = Err EParser.
Proof.
  intros v out H P C W. apply (component_unread (lit "STANDARD") standard_of_lines (standard_written v)); [apply nice_lines; [apply standard_keys|now apply standard_unbroken|exact P]|now apply not_clean|now apply C74_standard].
Qed.
Theorem C79_daylight_cr : forall v out, daylight_no_break v -> plain_attributes (daylight_written v) -> has_cr (daylight_written v) -> s_ical ser_daylight v = Ok out ->
  daylight_of_str out = Err EParser.
Proof.
  intros v out H P C W. apply (component_unread (lit "DAYLIGHT") daylight_of_lines (daylight_written v)); [apply nice_lines; [apply daylight_keys|now apply daylight_unbroken|exact P]|now apply not_clean|now apply C74_daylight].
Qed.
Theorem C79_valarm_cr : forall a out, valarm_no_break a -> plain_attributes (valarm_written a) -> has_cr (valarm_written a) -> s_ical ser_valarm a = Ok out ->
  valarm_of_str out = Err EParser.
Proof.
  intros v out H P C W. apply (component_unread (lit "VALARM") valarm_of_lines (valarm_written v)); [apply nice_lines; [apply alarm_keys|now apply alarm_unbroken|exact P]|now apply not_clean|now apply C74_valarm].
Qed.
Theorem C79_vevent_cr : forall v out, vevent_no_break v -> plain_attributes (vevent_written v) -> has_cr (vevent_written v) -> s_ical ser_vevent v = Ok out ->
  vevent_of_str out = Err EParser.
Proof.
  intros v out H P C W. apply (event_unread (vevent_written v)); [apply nice_lines; [apply vevent_keys, proj_alarms, H|now apply vevent_unbroken|exact P]|now apply not_clean|now apply C74_vevent].
Qed.
(** For a timezone or a calendar, wherever the value is. *)
Lemma simple_kid {A B} (one : str -> B -> str -> Prop) (mk : A -> B) name read ls : Forall nice ls ->
  (forall s a r, one s a r -> begins (lit "BEGIN:" ++ name ++ [CR; LF]) s -> exists y, a = mk y /\ simple_text name read s y r) ->
  kid one (Forall clean ls) (framed name (raw_lines ls)).
Proof.
  intros N H. split; [intros rest; rewrite framed_app; apply begins_app|]. intros rest a r O. apply H in O as (y & -> & O); [|rewrite framed_app; exists (raw_lines ls ++ lit "END:" ++ name ++ [CR; LF] ++ rest); now rewrite <- !app_assoc].
  eapply simple_read; eauto.
Qed.
Lemma kids_of {T A} (one : str -> A -> str -> Prop) (good : T -> Prop) (text : T -> str) l : (forall x, In x l -> kid one (good x) (text x)) ->
  Forall (fun p => kid one (fst p) (snd p)) (map (fun x => (good x, text x)) l).
Proof. intros H. apply Forall_map, Forall_forall. intros x Hx. now apply H. Qed.
Lemma snd_kids {T} (good : T -> Prop) (text : T -> str) l : map snd (map (fun x => (good x, text x)) l) = map text l.
Proof. rewrite map_map. reflexivity. Qed.
Lemma fst_kids {T} (good : T -> Prop) (text : T -> str) l : Forall (fun p => fst p) (map (fun x => (good x, text x)) l) -> Forall good l.
Proof. intros H. induction l as [|x l IH]; [constructor|]. cbn [map] in H. inversion H as [|? ? A B]; subst. cbn [fst] in A. constructor; auto. Qed.
Lemma clean_flat {T} (f : T -> list content_line) l : Forall (fun x => Forall clean (f x)) l -> Forall clean (flat_map f l).
Proof. induction 1; cbn [flat_map]; [constructor|]. apply Forall_app. auto. Qed.
Lemma attrs_flat {T} (f : T -> list content_line) l : plain_attributes (flat_map f l) -> forall x, In x l -> plain_attributes (f x).
Proof. unfold plain_attributes. rewrite Forall_forall. intros H x Hx. apply Forall_forall. intros c Hc. apply H, in_flat_map. eauto. Qed.
Lemma standard_kid v : standard_no_break v -> plain_attributes (standard_written v) -> kid tz_part_text (Forall clean (standard_written v)) (standard_text v).
Proof.
  intros H P. apply (simple_kid _ TStandard (lit "STANDARD") standard_read); [apply nice_lines; [apply standard_keys|now apply standard_unbroken|exact P]|].
  intros s [y|y] r X B; [eauto|]. exfalso. destruct X as (t & l & -> & _). eapply (heads (lit "BEGIN:" ++ lit "STANDARD" ++ CRLF) (lit "BEGIN:DAYLIGHT")); [reflexivity|exact B|]. eexists. reflexivity.
Qed.
Lemma daylight_kid v : daylight_no_break v -> plain_attributes (daylight_written v) -> kid tz_part_text (Forall clean (daylight_written v)) (daylight_text v).
Proof.
  intros H P. apply (simple_kid _ TDaylight (lit "DAYLIGHT") daylight_read); [apply nice_lines; [apply daylight_keys|now apply daylight_unbroken|exact P]|].
  intros s [y|y] r X B; [|eauto]. exfalso. destruct X as (t & l & -> & _). eapply (heads (lit "BEGIN:" ++ lit "DAYLIGHT" ++ CRLF) (lit "BEGIN:STANDARD")); [reflexivity|exact B|]. eexists. reflexivity.
Qed.
Lemma vfreebusy_kid v : vfreebusy_no_break v -> plain_attributes (vfreebusy_written v) -> kid child_text (Forall clean (vfreebusy_written v)) (vfreebusy_text v).
Proof.
  intros H P. apply (simple_kid _ CFreebusy (lit "VFREEBUSY") vfreebusy_read); [apply nice_lines; [apply vfreebusy_keys|now apply vfreebusy_unbroken|exact P]|].
  intros s c r X B. pose proof (child_head _ _ _ X) as Hh. destruct c; try (exfalso; eapply heads; [|exact Hh|exact B]; reflexivity). eauto.
Qed.
Lemma vjournal_kid v : vjournal_no_break v -> plain_attributes (vjournal_written v) -> kid child_text (Forall clean (vjournal_written v)) (vjournal_text v).
Proof.
  intros H P. apply (simple_kid _ CJournal (lit "VJOURNAL") vjournal_read); [apply nice_lines; [apply vjournal_keys|now apply vjournal_unbroken|exact P]|].
  intros s c r X B. pose proof (child_head _ _ _ X) as Hh. destruct c; try (exfalso; eapply heads; [|exact Hh|exact B]; reflexivity). eauto.
Qed.
Lemma vtodo_kid v : vtodo_no_break v -> plain_attributes (vtodo_written v) -> kid child_text (Forall clean (vtodo_written v)) (vtodo_text v).
Proof.
  intros H P. apply (simple_kid _ CTodo (lit "VTODO") vtodo_read); [apply nice_lines; [apply vtodo_keys|now apply vtodo_unbroken|exact P]|].
  intros s c r X B. pose proof (child_head _ _ _ X) as Hh. destruct c; try (exfalso; eapply heads; [|exact Hh|exact B]; reflexivity). eauto.
Qed.
Lemma vevent_kid v : vevent_no_break v -> plain_attributes (vevent_written v) -> kid child_text (Forall clean (vevent_written v)) (vevent_text v).
Proof.
  intros H P. split; [intros rest; unfold vevent_text; rewrite framed_app; apply begins_app|]. intros rest c r X. pose proof (child_head _ _ _ X) as Hh.
  assert (B : begins (lit "BEGIN:" ++ lit "VEVENT" ++ [CR; LF]) (vevent_text v ++ rest)).
  { unfold vevent_text. rewrite framed_app. exists (raw_lines (vevent_written v) ++ lit "END:" ++ lit "VEVENT" ++ [CR; LF] ++ rest). now rewrite <- !app_assoc. }
  destruct c; try (exfalso; eapply heads; [|exact Hh|exact B]; reflexivity). cbn [child_text] in X. eapply event_read; [|exact X].
  apply nice_lines; [apply vevent_keys, proj_alarms, H|now apply vevent_unbroken|exact P].
Qed.
Lemma timezone_read_clean v rest w r : vtimezone_no_break_all v -> plain_attributes (vtimezone_lines v) -> timezone_text (vtimezone_text v ++ rest) w r -> Forall clean (vtimezone_lines v) /\ r = rest.
Proof.
  intros (T & _ & F1 & F2) P (t & ls & t2 & cs & v0 & Eq & L & S & _). destruct (tz_own_unbroken v T) as [U1 U2]. rewrite Forall_forall in F1, F2.
  unfold vtimezone_lines in *. rewrite tz_written_eq in *. unfold plain_attributes in P. rewrite !Forall_app in P. destruct P as ((P1 & P2) & P3 & P4).
  unfold vtimezone_text in Eq. fold (tz_own v) (tz_ext v) in Eq. unfold framed in Eq. rewrite <- !app_assoc in Eq.
  change (lit "BEGIN:VTIMEZONE" ++ [CR; LF] ++ t) with (lit "BEGIN:" ++ lit "VTIMEZONE" ++ [CR; LF] ++ t) in Eq. do 3 apply app_inv_head in Eq. subst t.
  set (ps := map (fun x => (Forall clean (standard_written x), standard_text x)) (tz_standard v) ++ map (fun x => (Forall clean (daylight_written x), daylight_text x)) (tz_daylight v)).
  assert (Es : concat (map snd ps) = concat (map standard_text (tz_standard v)) ++ concat (map daylight_text (tz_daylight v))) by (subst ps; now rewrite map_app, !snd_kids, concat_app).
  rewrite (app_assoc (concat (map standard_text _))), <- Es in L.
  destruct (frame_kids tz_part_text (tz_own v) ps (tz_ext v) (lit "END:" ++ lit "VTIMEZONE" ++ [CR; LF] ++ rest) cs t2 ls (lit "END:VTIMEZONE" ++ [CR; LF] ++ r)) as (C & F & Er); auto.
  - apply tz_part_head.
  - apply nice_lines; [apply tz_own_keys|exact U1|exact P1].
  - apply nice_lines; [apply ext_keys|exact U2|exact P2].
  - subst ps. apply Forall_app. split; apply kids_of; intros x Hx; [apply standard_kid; [now apply F1|now apply (attrs_flat _ _ P3)]|apply daylight_kid; [now apply F2|now apply (attrs_flat _ _ P4)]].
  - apply begins_app.
  - apply (begins_app (lit "END:")).
  - subst ps. apply Forall_app in F as [G1 G2]. apply fst_kids in G1, G2. split; [apply Forall_app; split; [exact C|]; apply Forall_app; split; now apply clean_flat|].
    change (lit "END:VTIMEZONE" ++ [CR; LF] ++ r) with (lit "END:" ++ lit "VTIMEZONE" ++ [CR; LF] ++ r) in Er. now repeat apply app_inv_head in Er.
Qed.
Theorem C79_vtimezone_cr : forall v out, vtimezone_no_break_all v -> plain_attributes (vtimezone_lines v) -> has_cr (vtimezone_lines v) -> s_ical ser_vtimezone v = Ok out ->
  forall w, vtimezone_of_str out <> Ok w.
Proof.
  intros v out H P C W w R. unfold vtimezone_of_str, from_str in R. rewrite (C74_vtimezone v out H W) in R. apply not_clean in C. apply C.
  destruct (p_vtimezone (vtimezone_text v)) as [r x| |] eqn:X; try discriminate. apply timezone_POk in X. rewrite <- (app_nil_r (vtimezone_text v)) in X. eapply timezone_read_clean; eauto.
Qed.
Lemma vtimezone_kid v : vtimezone_no_break_all v -> plain_attributes (vtimezone_lines v) -> kid child_text (Forall clean (vtimezone_lines v)) (vtimezone_text v).
Proof.
  intros H P. assert (B : forall rest, begins (lit "BEGIN:" ++ lit "VTIMEZONE" ++ [CR; LF]) (vtimezone_text v ++ rest)).
  { intros rest. unfold vtimezone_text, framed. eexists. rewrite <- !app_assoc. reflexivity. }
  split; [intros rest; destruct (B rest) as [z ->]; rewrite <- app_assoc; apply begins_app|]. intros rest c r X. pose proof (child_head _ _ _ X) as Hh.
  destruct c; try (exfalso; eapply heads; [|exact Hh|apply B]; reflexivity). cbn [child_text] in X. eapply timezone_read_clean; eauto.
Qed.
Theorem C79_vcalendar_cr : forall v out, vcalendar_no_break_all v -> plain_attributes (vcalendar_lines v) -> has_cr (vcalendar_lines v) -> s_ical ser_vcalendar v = Ok out ->
  forall w, vcalendar_of_str out <> Ok w.
Proof.
  intros v out H P C W w R. apply C14_children in R as (ls & cs & r & (t & t2 & Eq & L & S) & _). rewrite (C74_vcalendar v out H W) in Eq. apply not_clean in C. apply C. clear C W out w.
  destruct H as (T & _ & F1 & F2 & F3 & F4 & F5). destruct (ca_own_unbroken v T) as [U1 U2]. rewrite Forall_forall in F1, F2, F3, F4, F5.
  unfold vcalendar_lines in *. rewrite ca_written_eq in *. unfold plain_attributes in P. rewrite !Forall_app in P. destruct P as ((P1 & P2) & Pe & Pf & Pj & Pt & Pz).
  unfold vcalendar_text in Eq. fold (ca_own v) (ca_ext v) in Eq. unfold framed in Eq. rewrite <- !app_assoc in Eq.
  change (lit "BEGIN:VCALENDAR" ++ [CR; LF] ++ t) with (lit "BEGIN:" ++ lit "VCALENDAR" ++ [CR; LF] ++ t) in Eq. do 3 apply app_inv_head in Eq. subst t.
  set (ps := map (fun x => (Forall clean (vevent_written x), vevent_text x)) (ca_events v) ++ map (fun x => (Forall clean (vfreebusy_written x), vfreebusy_text x)) (ca_freebusy v) ++
    map (fun x => (Forall clean (vjournal_written x), vjournal_text x)) (ca_journals v) ++ map (fun x => (Forall clean (vtodo_written x), vtodo_text x)) (ca_todo v) ++
    map (fun x => (Forall clean (vtimezone_lines x), vtimezone_text x)) (ca_timezones v)).
  assert (Es : concat (map snd ps) = concat (map vevent_text (ca_events v)) ++ concat (map vfreebusy_text (ca_freebusy v)) ++ concat (map vjournal_text (ca_journals v)) ++
    concat (map vtodo_text (ca_todo v)) ++ concat (map vtimezone_text (ca_timezones v))) by (subst ps; now rewrite !map_app, !snd_kids, !concat_app).
  assert (L' : lines_text (raw_lines (ca_own v) ++ concat (map snd ps) ++ raw_lines (ca_ext v) ++ lit "END:" ++ lit "VCALENDAR" ++ [CR; LF]) ls t2) by (rewrite Es, <- !app_assoc; exact L).
  destruct (frame_kids child_text (ca_own v) ps (ca_ext v) (lit "END:" ++ lit "VCALENDAR" ++ [CR; LF]) cs t2 ls (lit "END:VCALENDAR" ++ r)) as (C & F & _); auto.
  - intros s c r0. apply child_begin.
  - apply nice_lines; [apply ca_own_keys|exact U1|exact P1].
  - apply nice_lines; [apply ext_keys|exact U2|exact P2].
  - subst ps. rewrite !Forall_app. repeat split; apply kids_of; intros x Hx.
    + apply vevent_kid; [now apply F1|now apply (attrs_flat _ _ Pe)].
    + apply vfreebusy_kid; [now apply F2|now apply (attrs_flat _ _ Pf)].
    + apply vjournal_kid; [now apply F3|now apply (attrs_flat _ _ Pj)].
    + apply vtodo_kid; [now apply F4|now apply (attrs_flat _ _ Pt)].
    + apply vtimezone_kid; [now apply F5|now apply (attrs_flat _ _ Pz)].
  - apply begins_app.
  - apply (begins_app (lit "END:")).
  - subst ps. rewrite !Forall_app in F. destruct F as (Ge & Gf & Gj & Gt & Gz). apply fst_kids in Ge, Gf, Gj, Gt, Gz.
    rewrite Forall_app in C. rewrite !Forall_app. repeat split; try apply C; now apply clean_flat.
Qed.
End Env.

(** ** Concrete components *)
Section Ex.
Context {E : Env}.
Lemma event_no_break uid comments x : flat_text uid -> Forall flat_text comments -> flat_ext x -> vevent_no_break (event_of uid [] comments x).
Proof.
  intros H1 H2 H3. pose proof (vevent_safe_tidy _ plain_event_safe) as T. unfold vevent_tidy in T. unfold vevent_no_break. unfold plain_event, event_of in T. unfold event_of.
  cbn [ev_dtstamp ev_uid ev_dtstart ev_class ev_created ev_description ev_geo ev_last_modified ev_location ev_organizer ev_priority ev_sequence ev_summary ev_url ev_recurid ev_rrule ev_dtend ev_duration ev_attach ev_attendee ev_categories ev_comment ev_contact ev_exdate ev_rstatus ev_related_to ev_resources ev_rdate ev_alarms ev_x_prop ev_iana_prop] in *.
  assert (N : forall s, flat_text (tx s)) by (intros s k v []). assert (N' : forall s, flat_uri (uri_of_str s)) by (intros s k v []).
  destruct_all. repeat match goal with |- _ /\ _ => split end; auto; try (intros ? Hx; first [discriminate|injection Hx as <-; try exact I; auto]); try (repeat constructor; auto; fail). intros k v [].
Qed.
(** A UID with a line break, a comment that ends the component: written on one line each. *)
Definition sly_event : vevent := event_of (text_of_str (lit "u" ++ [LF] ++ lit "END:VEVENT")) [] [tx "BEGIN:VALARM,"; mk_text [(lit "X", [LF])] [LF]] [].
Example C74_nonvacuous : vevent_no_break sly_event /\ exists out, s_ical ser_vevent sly_event = Ok out /\ unfold_lines out = vevent_text sly_event /\
  count LF (unfold_lines out) = 20%nat.
Proof.
  assert (N : vevent_no_break sly_event).
  { apply event_no_break; [intros k v []| |intros k v []]. constructor; [intros k v []|]. constructor; [|constructor]. intros k v [X|[]]. injection X as <- <-. intros X. vm_compute in X. intuition discriminate. }
  assert (W : exists out, s_ical ser_vevent sly_event = Ok out) by (eexists; vm_compute; reflexivity). destruct W as [out W].
  split; [exact N|]. exists out. split; [exact W|]. split; [now apply C74_vevent|]. rewrite (C79_vevent_lines _ _ N W). vm_compute. reflexivity.
Qed.
(** A Windows line break: written, and then not read. *)
Definition windows_event : vevent := event_of (tx "u") [] [text_of_str (lit "one" ++ [CR; LF] ++ lit "two")] [].
Example C79_nonvacuous : vevent_no_break windows_event /\ plain_attributes (vevent_written windows_event) /\ has_cr (vevent_written windows_event) /\
  exists out, s_ical ser_vevent windows_event = Ok out /\ vevent_of_str out = Err EParser.
Proof.
  assert (N : vevent_no_break windows_event) by (apply event_no_break; [intros k v []|constructor; [intros k v []|constructor]|intros k v []]).
  assert (P : plain_attributes (vevent_written windows_event)).
  { unfold plain_attributes. apply Forall_forall. intros c Hc.
    assert (X : forallb (fun c => match cl_params c with [] => true | [(k, v)] => str_eqb k (lit "VALUE") && (str_eqb v (lit "DATE") || str_eqb v (lit "DATE-TIME")) | _ => false end) (vevent_written windows_event) = true) by (vm_compute; reflexivity).
    rewrite forallb_forall in X. specialize (X c Hc). destruct (cl_params c) as [|[k v] [|kv m]]; [apply good_nil| |discriminate].
    apply andb_true_iff in X as [Xk Xv]. apply str_eqb_eq in Xk as ->. apply orb_true_iff in Xv as [Xv|Xv]; apply str_eqb_eq in Xv as ->; now apply good_lit_param. }
  assert (C : has_cr (vevent_written windows_event)).
  { unfold has_cr. apply Exists_exists. exists (mk_cl (lit "COMMENT") [] (lit "one" ++ [CR] ++ lit "\ntwo")). split; [|vm_compute; auto 10]. vm_compute. repeat (first [left; reflexivity|right]). }
  assert (W : exists out, s_ical ser_vevent windows_event = Ok out) by (eexists; vm_compute; reflexivity). destruct W as [out W].
  split; [exact N|]. split; [exact P|]. split; [exact C|]. exists out. split; [exact W|]. now apply C79_vevent_cr with windows_event.
Qed.
(** A custom class is written as it is: here it brings a URL the event does not have. *)
Definition class_event : vevent :=
  mk_vevent stamp (tx "u") (DDate (days_of_ymd 2024 2 29)) (Some (Custom (lit "A" ++ [CR; LF] ++ lit "URL:EVIL"))) None None None None None None None None None None None None None None None None
    [] [] [] [] [] [] [] [] [] [] [] [] [].
Example C79_class_adds_a_line : exists out v, s_ical ser_vevent class_event = Ok out /\ vevent_of_str out = Ok v /\ ev_url class_event = None /\ ev_url v = Some (uri_of_str (lit "EVIL")) /\
  count LF (unfold_lines out) = (3 + length (vevent_written class_event))%nat.
Proof. do 2 eexists. split; [vm_compute; reflexivity|]. split; [vm_compute; reflexivity|]. split; [reflexivity|]. split; vm_compute; reflexivity. Qed.
End Ex.
