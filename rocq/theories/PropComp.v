(** * C10-C13: reading a component from its lines. *)
From Verif Require Import Base Env Chrono Nom Types Ser Parser Derive Components BaseFacts NomFacts SpecLine LineFacts SpecComp SpecFields DeriveFacts SpecText SerFacts PropText PropList.

Section PropComp.
Context {E : Env}.
Lemma omap_iso {A B} (f : A -> B) (g : B -> A) (o : outcome A) v : (forall a, g (f a) = a) -> (forall b, f (g b) = b) -> omap f o = Ok v <-> o = Ok (g v).
Proof. intros Hgf Hfg. destruct o; cbn; split; try discriminate; intros H; inv H; rewrite ?Hgf, ?Hfg; reflexivity. Qed.
Fixpoint distinct (l : list str) : bool :=
  match l with [] => true | x :: r => negb (existsb (str_eqb x) r) && distinct r end.
Lemma distinct_NoDup l : distinct l = true -> NoDup l.
Proof.
  induction l as [|x r IH]; cbn; [constructor|]. rewrite andb_true_iff, negb_true_iff. intros [H G]. constructor; auto.
  intros X. assert (existsb (str_eqb x) r = true) by (apply existsb_exists; exists x; split; auto; apply str_eqb_refl). congruence.
Qed.
(** ** Generic lemmas *)
Definition is_req (f : field) : bool := match f with FReq _ _ => true | _ => false end.
Definition req_names (s : schema) : list str := map fst (filter (fun nf => is_req (snd nf)) s).
Definition f_calm (f : field) : Prop := match f with FReq _ p => forall l, p l <> Panic | _ => True end.
Lemma req_names_cons n f r : req_names ((n, f) :: r) = if is_req f then n :: req_names r else req_names r.
Proof. unfold req_names. cbn. destruct (is_req f); reflexivity. Qed.
Lemma new_fields_missing s ls n : Forall (fun nf => f_calm (snd nf)) s -> In n (req_names s) -> absent n ls -> exists e, new_fields s ls = Err e.
Proof.
  intros Hc Hn Ha. apply absent_lines in Ha. unfold lines_named in Ha. induction s as [|[m f] r IH]; [destruct Hn|].
  rewrite req_names_cons in Hn. inversion Hc as [|? ? C Cr]; subst. cbn [snd] in C. cbn [new_fields].
  assert (T : (exists v, f_new m f ls = Ok v) \/ exists e, f_new m f ls = Err e).
  { destruct f; cbn [f_new]; eauto. cbn [f_calm] in C. destruct (last_opt _) as [l|]; eauto. specialize (C l). destruct (p l); eauto. congruence. }
  destruct T as [[v T]|[e T]]; rewrite T; cbn [obind]; eauto.
  assert (In n (req_names r)) as Hr.
  { destruct (is_req f) eqn:R; auto. destruct Hn as [->|Hn]; auto. exfalso. destruct f; try discriminate. cbn [f_new] in T. rewrite Ha in T. discriminate. }
  destruct (IH Cr Hr) as [e ->]. cbn. eauto.
Qed.
Lemma comp_missing s ls n : Forall (fun nf => f_calm (snd nf)) s -> In n (req_names s) -> absent n ls -> exists e, comp_of_lines s ls = Err e.
Proof. intros Hc Hn Ha. unfold comp_of_lines. destruct (new_fields_missing s ls n Hc Hn Ha) as [e ->]. cbn. eauto. Qed.

Lemma step_lines_app s (c : comp s) a b : step_lines c (a ++ b) = let* c' := step_lines c a in step_lines c' b.
Proof. revert c; induction a as [|l a IH]; intros c; cbn [app step_lines obind]; auto. destruct (step_line c l); cbn [obind]; auto. Qed.
Lemma filter_last_skip n l (a b : list content_line) : ~ absent n b ->
  last_opt (filter (fun l => str_eqb (cl_key l) n) (a ++ l :: b)) = last_opt (filter (fun l => str_eqb (cl_key l) n) (a ++ b)).
Proof.
  rewrite absent_lines. unfold lines_named. intros H. rewrite !filter_app. cbn [filter].
  destruct (exists_last H) as (u & z & Hu). rewrite Hu. destruct (str_eqb (cl_key l) n).
  - change (l :: u ++ [z]) with ((l :: u) ++ [z]). now rewrite !app_assoc, !last_opt_app.
  - reflexivity.
Qed.
Lemma filter_last_other n l (a b : list content_line) : cl_key l <> n ->
  last_opt (filter (fun l => str_eqb (cl_key l) n) (a ++ l :: b)) = last_opt (filter (fun l => str_eqb (cl_key l) n) (a ++ b)).
Proof. intros H. rewrite !filter_app. cbn [filter]. apply str_eqb_neq in H. now rewrite H. Qed.
Lemma req_arm s n : In n (req_names s) -> In n (arm_names s).
Proof.
  induction s as [|[m g] r IH]; [intros []|]. rewrite req_names_cons, arm_names_cons.
  destruct g; cbn [is_req has_arm In]; intuition.
Qed.
Lemma step_line_req s (c : comp s) l : NoDup (arm_names s) -> In (cl_key l) (req_names s) -> step_line c l = Ok c.
Proof.
  intros Hd Hn. apply step_line_iff; auto. destruct c as [vs x i]. cbn [c_fields c_xprop c_iana]. split.
  - clear x i. induction s as [|[m f] r IH]; [exact I|]. rewrite arm_names_cons in Hd. rewrite req_names_cons in Hn. cbn [fields_move]. split.
    + unfold f_move. destruct (has_arm f && str_eqb (cl_key l) m) eqn:E1; auto. apply andb_prop in E1 as [A K]. apply str_eqb_eq in K.
      destruct (is_req f) eqn:R; [destruct f; try discriminate; reflexivity|]. exfalso. rewrite A in Hd. inversion Hd as [|? ? Hm]; subst. apply Hm.
      now apply req_arm.
    + destruct (is_req f) eqn:R; [|apply IH; auto; destruct (has_arm f); [now inv Hd|auto]].
      assert (A : has_arm f = true) by (destruct f; try discriminate; auto). rewrite A in Hd. inversion Hd as [|? ? Hm Hd']; subst.
      destruct Hn as [K|Hn]; [|apply IH; auto]. apply fields_move_none; auto. now rewrite <- K.
  - left. split; auto. now apply req_arm.
Qed.
Lemma new_fields_skip s l a b : (In (cl_key l) (req_names s) -> ~ absent (cl_key l) b) -> new_fields s (a ++ l :: b) = new_fields s (a ++ b).
Proof.
  induction s as [|[m f] r IH]; intros H; cbn [new_fields]; auto. rewrite req_names_cons in H.
  assert (N : f_new m f (a ++ l :: b) = f_new m f (a ++ b)).
  { destruct f; cbn [f_new]; auto. cbn [is_req] in H. destruct (str_eqb (cl_key l) m) eqn:K.
    - apply str_eqb_eq in K. rewrite filter_last_skip; auto. rewrite <- K. apply H. left. auto.
    - apply str_eqb_neq in K. now rewrite filter_last_other. }
  rewrite N. destruct (f_new m f (a ++ b)); cbn [obind]; auto. rewrite IH; auto. intros X. apply H. destruct (is_req f); [right|]; auto.
Qed.
Lemma comp_earlier s l a b : NoDup (arm_names s) -> In (cl_key l) (req_names s) -> ~ absent (cl_key l) b ->
  comp_of_lines s (a ++ l :: b) = comp_of_lines s (a ++ b).
Proof.
  intros Hd Hn Hb. unfold comp_of_lines. rewrite new_fields_skip by auto. destruct (new_fields s (a ++ b)); cbn [obind]; auto.
  rewrite !step_lines_app. destruct (step_lines _ a); cbn [obind]; auto. cbn [step_lines]. rewrite step_line_req; auto.
Qed.
(** A line that is no field changes the two maps only. *)
Lemma comp_unknown s l a b c : NoDup (arm_names s) -> ~ In (cl_key l) (arm_names s) -> comp_of_lines s (a ++ l :: b) = Ok c ->
  exists c', comp_of_lines s (a ++ b) = Ok c' /\ c_fields c' = c_fields c.
Proof.
  intros Hd Hn. unfold comp_of_lines. rewrite new_fields_skip by (intros X; apply req_arm in X; tauto).
  destruct (new_fields s (a ++ b)) as [vs|e|]; cbn [obind]; try discriminate. rewrite !step_lines_app.
  destruct (step_lines (mk_comp vs [] []) a) as [[ws x i]|e|]; cbn [obind]; try discriminate. cbn [step_lines].
  unfold step_line at 1. apply (step_fields_none s l ws) in Hn. cbn [c_fields c_xprop c_iana]. rewrite Hn.
  assert (G : forall x1 i1 x2 i2 c, step_lines (mk_comp ws x1 i1) b = Ok c -> exists c', step_lines (mk_comp ws x2 i2) b = Ok c' /\ c_fields c' = c_fields c).
  { clear. revert ws. induction b as [|l b IH]; intros ws x1 i1 x2 i2 c; cbn [step_lines].
    - intros H. inv H. eauto.
    - unfold step_line. cbn [c_fields c_xprop c_iana]. destruct (step_fields s l ws) as [o|].
      + destruct o as [vs|e|]; cbn [obind]; try discriminate. apply IH.
      + destruct (starts_with _ _); cbn [obind]; apply IH. }
  destruct (starts_with _ _); cbn [obind]; intros H; eapply G in H; eauto.
Qed.
(** ** Value readers that never panic *)
Lemma pfinish_calm {A} (r : pres A) : r <> PPanic -> pfinish r <> Panic.
Proof. destruct r; cbn; congruence. Qed.
Lemma calm_date_time : calm p_date_time.
Proof. intros s. unfold p_date_time. destruct (ndt_parse _ _); congruence. Qed.
Lemma calm_date_or_dt : calm p_date_or_dt.
Proof. unfold p_date_or_dt. apply calm_alt; apply calm_map; [|apply calm_date_time]. intros s. unfold p_date. destruct (date_parse s); congruence. Qed.
Lemma calm_text l : parse_text l <> Panic. Proof. discriminate. Qed.
Lemma calm_uri l : parse_uri l <> Panic. Proof. discriminate. Qed.
Lemma calm_datetime l : parse_datetime l <> Panic. Proof. apply pfinish_calm, calm_date_time. Qed.
Lemma calm_date l : parse_date l <> Panic. Proof. apply pfinish_calm, calm_date_or_dt. Qed.
Lemma calm_offset l : parse_offset l <> Panic. Proof. unfold parse_offset. destruct (offset_parse _); discriminate. Qed.

(** ** Each component.
    [C11_X_read]: what is read, field by field (SpecFields.v).
    [C10_X_last]: the field of a required property is the value of the last line with its name.
    [C10_X_earlier]: a line of a required property that is not the last one has no effect at all.
    [C10_X_missing]: without a required property there is an error.
    [C12_X_others]: where the lines that are no field go. *)


Lemma audio_distinct : NoDup (arm_names audio_schema).
Proof. apply distinct_NoDup. vm_compute. reflexivity. Qed.
Theorem C11_audio_read : forall ls v, audio_of_lines ls = Ok v <-> audio_read ls v.
Proof.
  intros ls v. unfold audio_of_lines. rewrite (omap_iso audio_of audio_to) by (intros; rewrite ?audio_to_of, ?audio_of_to; auto).
  rewrite comp_spec by apply audio_distinct. unfold audio_read, audio_to, audio_schema. cbn [fields_spec field_spec fst snd c_fields c_xprop c_iana].
  change (arm_names _) with audio_names. tauto.
Qed.
Theorem C10_audio_last : forall ls v, audio_of_lines ls = Ok v ->
  required parse_text (lit "ACTION") ls (au_action v) /\
  required parse_trigger (lit "TRIGGER") ls (au_trigger v).
Proof. intros ls v H. apply C11_audio_read in H. unfold audio_read in H. tauto. Qed.
Theorem C10_audio_earlier : forall a l b, In (cl_key l) audio_required -> ~ absent (cl_key l) b ->
  audio_of_lines (a ++ l :: b) = audio_of_lines (a ++ b).
Proof. intros a l b Hn Hb. unfold audio_of_lines. rewrite comp_earlier; auto. apply audio_distinct. Qed.
Theorem C10_audio_missing : forall ls n v, In n audio_required -> absent n ls -> audio_of_lines ls <> Ok v.
Proof.
  intros ls n v Hn Ha H. apply C11_audio_read in H. unfold audio_read in H. apply absent_lines in Ha.
  repeat destruct Hn as [Hn|Hn]; subst; try destruct Hn;
    repeat match goal with K : required _ _ _ _ /\ _ |- _ => let L := fresh in destruct K as [(? & L & _) K]; apply last_line_iff in L; try (rewrite Ha in L; discriminate L) end.
Qed.
Theorem C12_audio_others : forall ls v, audio_of_lines ls = Ok v ->
  extensions audio_names ls (au_x_prop v) (au_iana_prop v).
Proof. intros ls v H. apply C11_audio_read in H. unfold audio_read in H. tauto. Qed.

Lemma display_distinct : NoDup (arm_names display_schema).
Proof. apply distinct_NoDup. vm_compute. reflexivity. Qed.
Theorem C11_display_read : forall ls v, display_of_lines ls = Ok v <-> display_read ls v.
Proof.
  intros ls v. unfold display_of_lines. rewrite (omap_iso display_of display_to) by (intros; rewrite ?display_to_of, ?display_of_to; auto).
  rewrite comp_spec by apply display_distinct. unfold display_read, display_to, display_schema. cbn [fields_spec field_spec fst snd c_fields c_xprop c_iana].
  change (arm_names _) with display_names. tauto.
Qed.
Theorem C10_display_last : forall ls v, display_of_lines ls = Ok v ->
  required parse_text (lit "ACTION") ls (di_action v) /\
  required parse_trigger (lit "TRIGGER") ls (di_trigger v) /\
  required parse_text (lit "DESCRIPTION") ls (di_description v).
Proof. intros ls v H. apply C11_display_read in H. unfold display_read in H. tauto. Qed.
Theorem C10_display_earlier : forall a l b, In (cl_key l) display_required -> ~ absent (cl_key l) b ->
  display_of_lines (a ++ l :: b) = display_of_lines (a ++ b).
Proof. intros a l b Hn Hb. unfold display_of_lines. rewrite comp_earlier; auto. apply display_distinct. Qed.
Theorem C10_display_missing : forall ls n v, In n display_required -> absent n ls -> display_of_lines ls <> Ok v.
Proof.
  intros ls n v Hn Ha H. apply C11_display_read in H. unfold display_read in H. apply absent_lines in Ha.
  repeat destruct Hn as [Hn|Hn]; subst; try destruct Hn;
    repeat match goal with K : required _ _ _ _ /\ _ |- _ => let L := fresh in destruct K as [(? & L & _) K]; apply last_line_iff in L; try (rewrite Ha in L; discriminate L) end.
Qed.
Theorem C12_display_others : forall ls v, display_of_lines ls = Ok v ->
  extensions display_names ls (di_x_prop v) (di_iana_prop v).
Proof. intros ls v H. apply C11_display_read in H. unfold display_read in H. tauto. Qed.

Lemma email_distinct : NoDup (arm_names email_schema).
Proof. apply distinct_NoDup. vm_compute. reflexivity. Qed.
Theorem C11_email_read : forall ls v, email_of_lines ls = Ok v <-> email_read ls v.
Proof.
  intros ls v. unfold email_of_lines. rewrite (omap_iso email_of email_to) by (intros; rewrite ?email_to_of, ?email_of_to; auto).
  rewrite comp_spec by apply email_distinct. unfold email_read, email_to, email_schema. cbn [fields_spec field_spec fst snd c_fields c_xprop c_iana].
  change (arm_names _) with email_names. tauto.
Qed.
Theorem C10_email_last : forall ls v, email_of_lines ls = Ok v ->
  required parse_text (lit "ACTION") ls (em_action v) /\
  required parse_trigger (lit "TRIGGER") ls (em_trigger v) /\
  required parse_text (lit "DESCRIPTION") ls (em_description v) /\
  required parse_text (lit "SUMMARY") ls (em_summary v).
Proof. intros ls v H. apply C11_email_read in H. unfold email_read in H. tauto. Qed.
Theorem C10_email_earlier : forall a l b, In (cl_key l) email_required -> ~ absent (cl_key l) b ->
  email_of_lines (a ++ l :: b) = email_of_lines (a ++ b).
Proof. intros a l b Hn Hb. unfold email_of_lines. rewrite comp_earlier; auto. apply email_distinct. Qed.
Theorem C10_email_missing : forall ls n v, In n email_required -> absent n ls -> email_of_lines ls <> Ok v.
Proof.
  intros ls n v Hn Ha H. apply C11_email_read in H. unfold email_read in H. apply absent_lines in Ha.
  repeat destruct Hn as [Hn|Hn]; subst; try destruct Hn;
    repeat match goal with K : required _ _ _ _ /\ _ |- _ => let L := fresh in destruct K as [(? & L & _) K]; apply last_line_iff in L; try (rewrite Ha in L; discriminate L) end.
Qed.
Theorem C12_email_others : forall ls v, email_of_lines ls = Ok v ->
  extensions email_names ls (em_x_prop v) (em_iana_prop v).
Proof. intros ls v H. apply C11_email_read in H. unfold email_read in H. tauto. Qed.

Lemma vevent_distinct : NoDup (arm_names vevent_schema).
Proof. apply distinct_NoDup. vm_compute. reflexivity. Qed.
Theorem C11_vevent_read : forall ls v, vevent_of_lines ls = Ok v <-> vevent_read ls v.
Proof.
  intros ls v. unfold vevent_of_lines. rewrite (omap_iso vevent_of vevent_to) by (intros; rewrite ?vevent_to_of, ?vevent_of_to; auto).
  rewrite comp_spec by apply vevent_distinct. unfold vevent_read, vevent_to, vevent_schema. cbn [fields_spec field_spec fst snd c_fields c_xprop c_iana].
  change (arm_names _) with vevent_names. tauto.
Qed.
Theorem C10_vevent_last : forall ls v, vevent_of_lines ls = Ok v ->
  required parse_datetime (lit "DTSTAMP") ls (ev_dtstamp v) /\
  required parse_text (lit "UID") ls (ev_uid v) /\
  required parse_date (lit "DTSTART") ls (ev_dtstart v).
Proof. intros ls v H. apply C11_vevent_read in H. unfold vevent_read in H. tauto. Qed.
Theorem C10_vevent_earlier : forall a l b, In (cl_key l) vevent_required -> ~ absent (cl_key l) b ->
  vevent_of_lines (a ++ l :: b) = vevent_of_lines (a ++ b).
Proof. intros a l b Hn Hb. unfold vevent_of_lines. rewrite comp_earlier; auto. apply vevent_distinct. Qed.
Theorem C10_vevent_missing : forall ls n, In n vevent_required -> absent n ls -> exists e, vevent_of_lines ls = Err e.
Proof.
  intros ls n Hn Ha. unfold vevent_of_lines. destruct (comp_missing vevent_schema ls n) as [e ->]; cbn; eauto.
  repeat (constructor; [cbn [snd f_calm]; auto using calm_text, calm_uri, calm_datetime, calm_date, calm_offset|]); constructor.
Qed.
Theorem C12_vevent_others : forall ls v, vevent_of_lines ls = Ok v ->
  extensions vevent_names ls (ev_x_prop v) (ev_iana_prop v).
Proof. intros ls v H. apply C11_vevent_read in H. unfold vevent_read in H. tauto. Qed.

Lemma vfreebusy_distinct : NoDup (arm_names vfreebusy_schema).
Proof. apply distinct_NoDup. vm_compute. reflexivity. Qed.
Theorem C11_vfreebusy_read : forall ls v, vfreebusy_of_lines ls = Ok v <-> vfreebusy_read ls v.
Proof.
  intros ls v. unfold vfreebusy_of_lines. rewrite (omap_iso vfreebusy_of vfreebusy_to) by (intros; rewrite ?vfreebusy_to_of, ?vfreebusy_of_to; auto).
  rewrite comp_spec by apply vfreebusy_distinct. unfold vfreebusy_read, vfreebusy_to, vfreebusy_schema. cbn [fields_spec field_spec fst snd c_fields c_xprop c_iana].
  change (arm_names _) with vfreebusy_names. tauto.
Qed.
Theorem C10_vfreebusy_last : forall ls v, vfreebusy_of_lines ls = Ok v ->
  required parse_datetime (lit "DTSTAMP") ls (fb_dtstamp v) /\
  required parse_text (lit "UID") ls (fb_uid v).
Proof. intros ls v H. apply C11_vfreebusy_read in H. unfold vfreebusy_read in H. tauto. Qed.
Theorem C10_vfreebusy_earlier : forall a l b, In (cl_key l) vfreebusy_required -> ~ absent (cl_key l) b ->
  vfreebusy_of_lines (a ++ l :: b) = vfreebusy_of_lines (a ++ b).
Proof. intros a l b Hn Hb. unfold vfreebusy_of_lines. rewrite comp_earlier; auto. apply vfreebusy_distinct. Qed.
Theorem C10_vfreebusy_missing : forall ls n, In n vfreebusy_required -> absent n ls -> exists e, vfreebusy_of_lines ls = Err e.
Proof.
  intros ls n Hn Ha. unfold vfreebusy_of_lines. destruct (comp_missing vfreebusy_schema ls n) as [e ->]; cbn; eauto.
  repeat (constructor; [cbn [snd f_calm]; auto using calm_text, calm_uri, calm_datetime, calm_date, calm_offset|]); constructor.
Qed.
Theorem C12_vfreebusy_others : forall ls v, vfreebusy_of_lines ls = Ok v ->
  extensions vfreebusy_names ls (fb_x_prop v) (fb_iana_prop v).
Proof. intros ls v H. apply C11_vfreebusy_read in H. unfold vfreebusy_read in H. tauto. Qed.

Lemma vjournal_distinct : NoDup (arm_names vjournal_schema).
Proof. apply distinct_NoDup. vm_compute. reflexivity. Qed.
Theorem C11_vjournal_read : forall ls v, vjournal_of_lines ls = Ok v <-> vjournal_read ls v.
Proof.
  intros ls v. unfold vjournal_of_lines. rewrite (omap_iso vjournal_of vjournal_to) by (intros; rewrite ?vjournal_to_of, ?vjournal_of_to; auto).
  rewrite comp_spec by apply vjournal_distinct. unfold vjournal_read, vjournal_to, vjournal_schema. cbn [fields_spec field_spec fst snd c_fields c_xprop c_iana].
  change (arm_names _) with vjournal_names. tauto.
Qed.
Theorem C10_vjournal_last : forall ls v, vjournal_of_lines ls = Ok v ->
  required parse_datetime (lit "DTSTAMP") ls (jo_dtstamp v) /\
  required parse_text (lit "UID") ls (jo_uid v) /\
  required parse_date (lit "DTSTART") ls (jo_dtstart v).
Proof. intros ls v H. apply C11_vjournal_read in H. unfold vjournal_read in H. tauto. Qed.
Theorem C10_vjournal_earlier : forall a l b, In (cl_key l) vjournal_required -> ~ absent (cl_key l) b ->
  vjournal_of_lines (a ++ l :: b) = vjournal_of_lines (a ++ b).
Proof. intros a l b Hn Hb. unfold vjournal_of_lines. rewrite comp_earlier; auto. apply vjournal_distinct. Qed.
Theorem C10_vjournal_missing : forall ls n, In n vjournal_required -> absent n ls -> exists e, vjournal_of_lines ls = Err e.
Proof.
  intros ls n Hn Ha. unfold vjournal_of_lines. destruct (comp_missing vjournal_schema ls n) as [e ->]; cbn; eauto.
  repeat (constructor; [cbn [snd f_calm]; auto using calm_text, calm_uri, calm_datetime, calm_date, calm_offset|]); constructor.
Qed.
Theorem C12_vjournal_others : forall ls v, vjournal_of_lines ls = Ok v ->
  extensions vjournal_names ls (jo_x_prop v) (jo_iana_prop v).
Proof. intros ls v H. apply C11_vjournal_read in H. unfold vjournal_read in H. tauto. Qed.

Lemma vtodo_distinct : NoDup (arm_names vtodo_schema).
Proof. apply distinct_NoDup. vm_compute. reflexivity. Qed.
Theorem C11_vtodo_read : forall ls v, vtodo_of_lines ls = Ok v <-> vtodo_read ls v.
Proof.
  intros ls v. unfold vtodo_of_lines. rewrite (omap_iso vtodo_of vtodo_to) by (intros; rewrite ?vtodo_to_of, ?vtodo_of_to; auto).
  rewrite comp_spec by apply vtodo_distinct. unfold vtodo_read, vtodo_to, vtodo_schema. cbn [fields_spec field_spec fst snd c_fields c_xprop c_iana].
  change (arm_names _) with vtodo_names. tauto.
Qed.
Theorem C10_vtodo_last : forall ls v, vtodo_of_lines ls = Ok v ->
  required parse_datetime (lit "DTSTAMP") ls (to_dtstamp v) /\
  required parse_text (lit "UID") ls (to_uid v).
Proof. intros ls v H. apply C11_vtodo_read in H. unfold vtodo_read in H. tauto. Qed.
Theorem C10_vtodo_earlier : forall a l b, In (cl_key l) vtodo_required -> ~ absent (cl_key l) b ->
  vtodo_of_lines (a ++ l :: b) = vtodo_of_lines (a ++ b).
Proof. intros a l b Hn Hb. unfold vtodo_of_lines. rewrite comp_earlier; auto. apply vtodo_distinct. Qed.
Theorem C10_vtodo_missing : forall ls n, In n vtodo_required -> absent n ls -> exists e, vtodo_of_lines ls = Err e.
Proof.
  intros ls n Hn Ha. unfold vtodo_of_lines. destruct (comp_missing vtodo_schema ls n) as [e ->]; cbn; eauto.
  repeat (constructor; [cbn [snd f_calm]; auto using calm_text, calm_uri, calm_datetime, calm_date, calm_offset|]); constructor.
Qed.
Theorem C12_vtodo_others : forall ls v, vtodo_of_lines ls = Ok v ->
  extensions vtodo_names ls (to_x_prop v) (to_iana_prop v).
Proof. intros ls v H. apply C11_vtodo_read in H. unfold vtodo_read in H. tauto. Qed.

Lemma standard_distinct : NoDup (arm_names standard_schema).
Proof. apply distinct_NoDup. vm_compute. reflexivity. Qed.
Theorem C11_standard_read : forall ls v, standard_of_lines ls = Ok v <-> standard_read ls v.
Proof.
  intros ls v. unfold standard_of_lines. rewrite (omap_iso standard_of standard_to) by (intros; rewrite ?standard_to_of, ?standard_of_to; auto).
  rewrite comp_spec by apply standard_distinct. unfold standard_read, standard_to, standard_schema. cbn [fields_spec field_spec fst snd c_fields c_xprop c_iana].
  change (arm_names _) with standard_names. tauto.
Qed.
Theorem C10_standard_last : forall ls v, standard_of_lines ls = Ok v ->
  required parse_date (lit "DTSTART") ls (st_dtstart v) /\
  required parse_offset (lit "TZOFFSETTO") ls (st_tzoffsetto v) /\
  required parse_offset (lit "TZOFFSETFROM") ls (st_tzoffsetfrom v).
Proof. intros ls v H. apply C11_standard_read in H. unfold standard_read in H. tauto. Qed.
Theorem C10_standard_earlier : forall a l b, In (cl_key l) standard_required -> ~ absent (cl_key l) b ->
  standard_of_lines (a ++ l :: b) = standard_of_lines (a ++ b).
Proof. intros a l b Hn Hb. unfold standard_of_lines. rewrite comp_earlier; auto. apply standard_distinct. Qed.
Theorem C10_standard_missing : forall ls n, In n standard_required -> absent n ls -> exists e, standard_of_lines ls = Err e.
Proof.
  intros ls n Hn Ha. unfold standard_of_lines. destruct (comp_missing standard_schema ls n) as [e ->]; cbn; eauto.
  repeat (constructor; [cbn [snd f_calm]; auto using calm_text, calm_uri, calm_datetime, calm_date, calm_offset|]); constructor.
Qed.
Theorem C12_standard_others : forall ls v, standard_of_lines ls = Ok v ->
  extensions standard_names ls (st_x_prop v) (st_iana_prop v).
Proof. intros ls v H. apply C11_standard_read in H. unfold standard_read in H. tauto. Qed.

Lemma daylight_distinct : NoDup (arm_names daylight_schema).
Proof. apply distinct_NoDup. vm_compute. reflexivity. Qed.
Theorem C11_daylight_read : forall ls v, daylight_of_lines ls = Ok v <-> daylight_read ls v.
Proof.
  intros ls v. unfold daylight_of_lines. rewrite (omap_iso daylight_of daylight_to) by (intros; rewrite ?daylight_to_of, ?daylight_of_to; auto).
  rewrite comp_spec by apply daylight_distinct. unfold daylight_read, daylight_to, daylight_schema. cbn [fields_spec field_spec fst snd c_fields c_xprop c_iana].
  change (arm_names _) with daylight_names. tauto.
Qed.
Theorem C10_daylight_last : forall ls v, daylight_of_lines ls = Ok v ->
  required parse_date (lit "DTSTART") ls (dl_dtstart v) /\
  required parse_offset (lit "TZOFFSETTO") ls (dl_tzoffsetto v) /\
  required parse_offset (lit "TZOFFSETFROM") ls (dl_tzoffsetfrom v).
Proof. intros ls v H. apply C11_daylight_read in H. unfold daylight_read in H. tauto. Qed.
Theorem C10_daylight_earlier : forall a l b, In (cl_key l) daylight_required -> ~ absent (cl_key l) b ->
  daylight_of_lines (a ++ l :: b) = daylight_of_lines (a ++ b).
Proof. intros a l b Hn Hb. unfold daylight_of_lines. rewrite comp_earlier; auto. apply daylight_distinct. Qed.
Theorem C10_daylight_missing : forall ls n, In n daylight_required -> absent n ls -> exists e, daylight_of_lines ls = Err e.
Proof.
  intros ls n Hn Ha. unfold daylight_of_lines. destruct (comp_missing daylight_schema ls n) as [e ->]; cbn; eauto.
  repeat (constructor; [cbn [snd f_calm]; auto using calm_text, calm_uri, calm_datetime, calm_date, calm_offset|]); constructor.
Qed.
Theorem C12_daylight_others : forall ls v, daylight_of_lines ls = Ok v ->
  extensions daylight_names ls (dl_x_prop v) (dl_iana_prop v).
Proof. intros ls v H. apply C11_daylight_read in H. unfold daylight_read in H. tauto. Qed.

Lemma vtimezone_distinct : NoDup (arm_names vtimezone_schema).
Proof. apply distinct_NoDup. vm_compute. reflexivity. Qed.
Theorem C11_vtimezone_read : forall ls v, vtimezone_of_lines ls = Ok v <-> vtimezone_read ls v.
Proof.
  intros ls v. unfold vtimezone_of_lines. rewrite (omap_iso vtimezone_of vtimezone_to) by (intros; rewrite ?vtimezone_to_of, ?vtimezone_of_to; auto).
  rewrite comp_spec by apply vtimezone_distinct. unfold vtimezone_read, vtimezone_to, vtimezone_schema. cbn [fields_spec field_spec fst snd c_fields c_xprop c_iana].
  change (arm_names _) with vtimezone_names. tauto.
Qed.
Theorem C10_vtimezone_last : forall ls v, vtimezone_of_lines ls = Ok v ->
  required parse_text (lit "TZID") ls (tz_tzid v).
Proof. intros ls v H. apply C11_vtimezone_read in H. unfold vtimezone_read in H. tauto. Qed.
Theorem C10_vtimezone_earlier : forall a l b, In (cl_key l) vtimezone_required -> ~ absent (cl_key l) b ->
  vtimezone_of_lines (a ++ l :: b) = vtimezone_of_lines (a ++ b).
Proof. intros a l b Hn Hb. unfold vtimezone_of_lines. rewrite comp_earlier; auto. apply vtimezone_distinct. Qed.
Theorem C10_vtimezone_missing : forall ls n, In n vtimezone_required -> absent n ls -> exists e, vtimezone_of_lines ls = Err e.
Proof.
  intros ls n Hn Ha. unfold vtimezone_of_lines. destruct (comp_missing vtimezone_schema ls n) as [e ->]; cbn; eauto.
  repeat (constructor; [cbn [snd f_calm]; auto using calm_text, calm_uri, calm_datetime, calm_date, calm_offset|]); constructor.
Qed.
Theorem C12_vtimezone_others : forall ls v, vtimezone_of_lines ls = Ok v ->
  extensions vtimezone_names ls (tz_x_prop v) (tz_iana_prop v).
Proof. intros ls v H. apply C11_vtimezone_read in H. unfold vtimezone_read in H. tauto. Qed.

Lemma vcalendar_distinct : NoDup (arm_names vcalendar_schema).
Proof. apply distinct_NoDup. vm_compute. reflexivity. Qed.
Theorem C11_vcalendar_read : forall ls v, vcalendar_of_lines ls = Ok v <-> vcalendar_read ls v.
Proof.
  intros ls v. unfold vcalendar_of_lines. rewrite (omap_iso vcalendar_of vcalendar_to) by (intros; rewrite ?vcalendar_to_of, ?vcalendar_of_to; auto).
  rewrite comp_spec by apply vcalendar_distinct. unfold vcalendar_read, vcalendar_to, vcalendar_schema. cbn [fields_spec field_spec fst snd c_fields c_xprop c_iana].
  change (arm_names _) with vcalendar_names. tauto.
Qed.
Theorem C10_vcalendar_last : forall ls v, vcalendar_of_lines ls = Ok v ->
  required parse_text (lit "PRODID") ls (ca_prodid v) /\
  required parse_text (lit "VERSION") ls (ca_version v).
Proof. intros ls v H. apply C11_vcalendar_read in H. unfold vcalendar_read in H. tauto. Qed.
Theorem C10_vcalendar_earlier : forall a l b, In (cl_key l) vcalendar_required -> ~ absent (cl_key l) b ->
  vcalendar_of_lines (a ++ l :: b) = vcalendar_of_lines (a ++ b).
Proof. intros a l b Hn Hb. unfold vcalendar_of_lines. rewrite comp_earlier; auto. apply vcalendar_distinct. Qed.
Theorem C10_vcalendar_missing : forall ls n, In n vcalendar_required -> absent n ls -> exists e, vcalendar_of_lines ls = Err e.
Proof.
  intros ls n Hn Ha. unfold vcalendar_of_lines. destruct (comp_missing vcalendar_schema ls n) as [e ->]; cbn; eauto.
  repeat (constructor; [cbn [snd f_calm]; auto using calm_text, calm_uri, calm_datetime, calm_date, calm_offset|]); constructor.
Qed.
Theorem C12_vcalendar_others : forall ls v, vcalendar_of_lines ls = Ok v ->
  extensions vcalendar_names ls (ca_x_prop v) (ca_iana_prop v).
Proof. intros ls v H. apply C11_vcalendar_read in H. unfold vcalendar_read in H. tauto. Qed.

(** ** C13 *)
(** The names RECURRENCE-ID and REQUEST-STATUS of RFC 5545 are not recognised: such a
    line goes to [iana_prop] and has no other effect on the fields. *)
Lemma unknown_names (names : list str) n : existsb (str_eqb n) names = false -> ~ In n names.
Proof. intros H X. assert (existsb (str_eqb n) names = true) by (apply existsb_exists; exists n; split; auto; apply str_eqb_refl). congruence. Qed.
Lemma last_line_exists ls l : In l ls -> exists l', last_line (cl_key l) ls l'.
Proof.
  intros H. assert (lines_named (cl_key l) ls <> []).
  { intros X. assert (In l (lines_named (cl_key l) ls)) by (apply filter_In; split; auto; apply str_eqb_refl). rewrite X in *. auto. }
  destruct (exists_last H0) as (u & z & Hu). exists z. apply last_line_iff. rewrite Hu. apply last_opt_app.
Qed.
(** The [i]-th field. *)
Fixpoint nth_field (s : schema) (i : nat) : fields s -> option {f : field & (str * fty f)%type} :=
  match s with
  | [] => fun _ => None
  | (n, f) :: r => fun vs => match i with O => Some (existT _ f (n, fst vs)) | S j => nth_field r j (snd vs) end
  end.
Lemma ser_fields_nth s i vs body f n v : ser_fields s vs = Ok body -> nth_field s i vs = Some (existT _ f (n, v)) ->
  exists pre line post, body = pre ++ line ++ post /\ f_ser n f v = Ok line.
Proof.
  revert i body. induction s as [|[m g] r IH]; intros i body; cbn [ser_fields nth_field]; [discriminate|].
  destruct (f_ser m g (fst vs)) as [a|e|] eqn:A; cbn [obind]; try discriminate. destruct (ser_fields r (snd vs)) as [b|e|] eqn:B; cbn [obind]; try discriminate.
  intros H. inv H. destruct i as [|i].
  - intros H. apply (f_equal (fun o => match o with Some (existT _ f (n, v)) => Some (f_ser n f v) | None => None end)) in H. rewrite A in H. inv H.
    exists [], a, b. auto.
  - intros H. destruct (IH _ _ _ B H) as (pre & line & post & -> & L). exists (a ++ pre), line, post. now rewrite <- !app_assoc.
Qed.
Lemma comp_ical_nth name s (c : comp s) out i f n v : comp_ical name c = Ok out -> nth_field s i (c_fields c) = Some (existT _ f (n, v)) ->
  exists pre line post, out = pre ++ line ++ post /\ f_ser n f v = Ok line.
Proof.
  unfold comp_ical. destruct (ser_fields s (c_fields c)) as [b|e|] eqn:B; cbn [obind]; try discriminate.
  destruct (ser_field _ _ (c_xprop c)) as [x|e|]; cbn [obind]; try discriminate. destruct (ser_field _ _ (c_iana c)) as [y|e|]; cbn [obind]; try discriminate.
  intros H N. inv H. destruct (ser_fields_nth _ _ _ _ _ _ _ B N) as (pre & line & post & -> & L).
  exists (lit "BEGIN:" ++ name ++ CRLF ++ pre), line, (post ++ x ++ y ++ lit "END:" ++ name ++ CRLF). split; auto. now rewrite <- !app_assoc.
Qed.
(** [out] holds the (folded) line of a property. *)
Definition has_line (out name : str) (attr : option str) (value : str) : Prop :=
  exists pre parts post, out = pre ++ folded parts ++ post /\ concat parts = logical_line name attr value.
Lemma field_line {T} (S : serialize T) name v value line : s_component S = None -> s_ical S v = Ok value -> value <> [] ->
  ser_field S name v = Ok line -> exists parts, line = folded parts /\ concat parts = logical_line name (s_attr S v) value.
Proof. intros A B C D. destruct (C01_unfold_undoes_fold T S name v value line A B C D) as [(parts & P & Q & _) _]. eauto. Qed.
Lemma date_nonnil d : date_str d <> [].
Proof.
  assert (N : forall n, ndt_show n <> []).
  { intros n H. unfold ndt_show in H. apply (f_equal (@length Z)) in H. rewrite !app_length in H. cbn [lit length] in H. change (length (lit "T")) with 1%nat in H. lia. }
  destruct d as [n|[n|n]]; cbn [date_str dt_show]; auto.
  - intros H. unfold date_show in H. destruct (ymd_of_days n) as [[y m] dd]. apply (f_equal (@length Z)) in H. rewrite !app_length in H.
    assert (P : (2 <= length (show_pad 2 m))%nat) by (unfold show_pad; cbv zeta; rewrite app_length, repeat_length; lia). cbn [length] in H. lia.
  - intros H. apply app_eq_nil in H as [_ H]. discriminate.
Qed.
Lemma written_date name s (c : comp s) out i n d : comp_ical name c = Ok out ->
  nth_field s i (c_fields c) = Some (existT _ (FOpt ser_date parse_date) (n, Some d)) ->
  has_line out n (match d with DDate _ => Some (lit "VALUE=DATE") | DDateTime _ => None end) (date_str d).
Proof.
  intros H N. destruct (comp_ical_nth _ _ _ _ _ _ _ _ H N) as (pre & line & post & -> & L). cbn [f_ser] in L.
  destruct (field_line (ser_opt ser_date) n (Some d) (date_str d) line) as (parts & -> & C); auto using date_nonnil. exists pre, parts, post. auto.
Qed.
Lemma written_rs name s (c : comp s) out i n l : comp_ical name c = Ok out ->
  nth_field s i (c_fields c) = Some (existT _ (FVec ser_rs parse_rstatus) (n, l)) -> l <> [] ->
  has_line out n None (join [44] (map rs_show l)).
Proof.
  intros H N Hl. destruct (comp_ical_nth _ _ _ _ _ _ _ _ H N) as (pre & line & post & -> & L). cbn [f_ser] in L.
  assert (NN : join [44] (map rs_show l) <> []).
  { destruct l as [|x [|y r]]; [congruence| |]; cbn; unfold rs_show; intros X; apply app_eq_nil in X as [X Y]; discriminate. }
  assert (L' : ser_field (ser_vec ser_rs) n l = Ok line).
  { destruct l as [|x [|y r]]; auto. cbn [vec_field] in L. rewrite <- L. unfold ser_field. cbn [s_ical ser_vec ser_rs ser_display s_component s_attr].
    rewrite (vec_ical_show ser_rs rs_show) by auto. cbn [map join obind]. reflexivity. }
  destruct (field_line (ser_vec ser_rs) n l (join [44] (map rs_show l)) line) as (parts & -> & C); auto.
  - cbn [s_ical ser_vec]. rewrite (vec_ical_show ser_rs rs_show) by auto. reflexivity.
  - exists pre, parts, post. auto.
Qed.

Theorem C13_vevent_read : forall a l b v,
  cl_key l = lit "RECURRENCE-ID" \/ cl_key l = lit "REQUEST-STATUS" -> vevent_of_lines (a ++ l :: b) = Ok v ->
  (exists l', last_line (cl_key l) (a ++ l :: b) l' /\ mget (cl_key l) (ev_iana_prop v) = Some l') /\
  exists v', vevent_of_lines (a ++ b) = Ok v' /\ ev_rstatus v' = ev_rstatus v /\ ev_recurid v' = ev_recurid v.
Proof.
  intros a l b v Hk H. assert (Hn : ~ In (cl_key l) vevent_names) by (destruct Hk as [-> | ->]; apply unknown_names; vm_compute; reflexivity).
  assert (Hx : ~ begins (lit "X-") (cl_key l)) by (destruct Hk as [-> | ->]; rewrite <- begins_starts; vm_compute; discriminate). split.
  - apply C12_vevent_others in H as (_ & _ & _ & H). destruct (last_line_exists (a ++ l :: b) l) as (l' & L); [apply in_elt|]. exists l'. split; auto. apply H. auto.
  - unfold vevent_of_lines in *. rewrite (omap_iso vevent_of vevent_to) in H by (intros; rewrite ?vevent_to_of, ?vevent_of_to; auto).
    apply comp_unknown in H as (c & C & F); [|apply vevent_distinct|auto]. exists (vevent_of c). rewrite C. split; auto.
    rewrite <- (vevent_to_of c) in F. set (w := vevent_of c) in *. clearbody w. destruct v, w. unfold vevent_to in F. cbn [c_fields] in F. inv F. auto.
Qed.
Theorem C13_vevent_written : forall v out, s_ical ser_vevent v = Ok out ->
  (forall d, ev_recurid v = Some d ->
       has_line out (lit "RECURID") (match d with DDate _ => Some (lit "VALUE=DATE") | DDateTime _ => None end) (date_str d)) /\
  (ev_rstatus v <> [] -> has_line out (lit "RSTATUS") None (join [44] (map rs_show (ev_rstatus v)))).
Proof.
  intros v out H. cbn [s_ical ser_vevent ser_iso] in H.
  split; [intros d Hd; apply (written_date _ _ _ out 16 (lit "RECURID") d) in H; auto; cbn [nth_field vevent_schema vevent_to c_fields fst snd]; now rewrite Hd|].
  intros Hl. apply (written_rs _ _ _ out 26 (lit "RSTATUS") (ev_rstatus v)) in H; auto.
Qed.
Theorem C13_vfreebusy_read : forall a l b v,
  cl_key l = lit "RECURRENCE-ID" \/ cl_key l = lit "REQUEST-STATUS" -> vfreebusy_of_lines (a ++ l :: b) = Ok v ->
  (exists l', last_line (cl_key l) (a ++ l :: b) l' /\ mget (cl_key l) (fb_iana_prop v) = Some l') /\
  exists v', vfreebusy_of_lines (a ++ b) = Ok v' /\ fb_rstatus v' = fb_rstatus v.
Proof.
  intros a l b v Hk H. assert (Hn : ~ In (cl_key l) vfreebusy_names) by (destruct Hk as [-> | ->]; apply unknown_names; vm_compute; reflexivity).
  assert (Hx : ~ begins (lit "X-") (cl_key l)) by (destruct Hk as [-> | ->]; rewrite <- begins_starts; vm_compute; discriminate). split.
  - apply C12_vfreebusy_others in H as (_ & _ & _ & H). destruct (last_line_exists (a ++ l :: b) l) as (l' & L); [apply in_elt|]. exists l'. split; auto. apply H. auto.
  - unfold vfreebusy_of_lines in *. rewrite (omap_iso vfreebusy_of vfreebusy_to) in H by (intros; rewrite ?vfreebusy_to_of, ?vfreebusy_of_to; auto).
    apply comp_unknown in H as (c & C & F); [|apply vfreebusy_distinct|auto]. exists (vfreebusy_of c). rewrite C. split; auto.
    rewrite <- (vfreebusy_to_of c) in F. set (w := vfreebusy_of c) in *. clearbody w. destruct v, w. unfold vfreebusy_to in F. cbn [c_fields] in F. inv F. auto.
Qed.
Theorem C13_vfreebusy_written : forall v out, s_ical ser_vfreebusy v = Ok out ->
  (fb_rstatus v <> [] -> has_line out (lit "RSTATUS") None (join [44] (map rs_show (fb_rstatus v)))).
Proof.
  intros v out H. cbn [s_ical ser_vfreebusy ser_iso] in H.
  intros Hl. apply (written_rs _ _ _ out 10 (lit "RSTATUS") (fb_rstatus v)) in H; auto.
Qed.
Theorem C13_vjournal_read : forall a l b v,
  cl_key l = lit "RECURRENCE-ID" \/ cl_key l = lit "REQUEST-STATUS" -> vjournal_of_lines (a ++ l :: b) = Ok v ->
  (exists l', last_line (cl_key l) (a ++ l :: b) l' /\ mget (cl_key l) (jo_iana_prop v) = Some l') /\
  exists v', vjournal_of_lines (a ++ b) = Ok v' /\ jo_rstatus v' = jo_rstatus v /\ jo_recurid v' = jo_recurid v.
Proof.
  intros a l b v Hk H. assert (Hn : ~ In (cl_key l) vjournal_names) by (destruct Hk as [-> | ->]; apply unknown_names; vm_compute; reflexivity).
  assert (Hx : ~ begins (lit "X-") (cl_key l)) by (destruct Hk as [-> | ->]; rewrite <- begins_starts; vm_compute; discriminate). split.
  - apply C12_vjournal_others in H as (_ & _ & _ & H). destruct (last_line_exists (a ++ l :: b) l) as (l' & L); [apply in_elt|]. exists l'. split; auto. apply H. auto.
  - unfold vjournal_of_lines in *. rewrite (omap_iso vjournal_of vjournal_to) in H by (intros; rewrite ?vjournal_to_of, ?vjournal_of_to; auto).
    apply comp_unknown in H as (c & C & F); [|apply vjournal_distinct|auto]. exists (vjournal_of c). rewrite C. split; auto.
    rewrite <- (vjournal_to_of c) in F. set (w := vjournal_of c) in *. clearbody w. destruct v, w. unfold vjournal_to in F. cbn [c_fields] in F. inv F. auto.
Qed.
Theorem C13_vjournal_written : forall v out, s_ical ser_vjournal v = Ok out ->
  (forall d, jo_recurid v = Some d ->
       has_line out (lit "RECURID") (match d with DDate _ => Some (lit "VALUE=DATE") | DDateTime _ => None end) (date_str d)) /\
  (jo_rstatus v <> [] -> has_line out (lit "RSTATUS") None (join [44] (map rs_show (jo_rstatus v)))).
Proof.
  intros v out H. cbn [s_ical ser_vjournal ser_iso] in H.
  split; [intros d Hd; apply (written_date _ _ _ out 7 (lit "RECURID") d) in H; auto; cbn [nth_field vjournal_schema vjournal_to c_fields fst snd]; now rewrite Hd|].
  intros Hl. apply (written_rs _ _ _ out 22 (lit "RSTATUS") (jo_rstatus v)) in H; auto.
Qed.
Theorem C13_vtodo_read : forall a l b v,
  cl_key l = lit "RECURRENCE-ID" \/ cl_key l = lit "REQUEST-STATUS" -> vtodo_of_lines (a ++ l :: b) = Ok v ->
  (exists l', last_line (cl_key l) (a ++ l :: b) l' /\ mget (cl_key l) (to_iana_prop v) = Some l') /\
  exists v', vtodo_of_lines (a ++ b) = Ok v' /\ to_rstatus v' = to_rstatus v /\ to_recurid v' = to_recurid v.
Proof.
  intros a l b v Hk H. assert (Hn : ~ In (cl_key l) vtodo_names) by (destruct Hk as [-> | ->]; apply unknown_names; vm_compute; reflexivity).
  assert (Hx : ~ begins (lit "X-") (cl_key l)) by (destruct Hk as [-> | ->]; rewrite <- begins_starts; vm_compute; discriminate). split.
  - apply C12_vtodo_others in H as (_ & _ & _ & H). destruct (last_line_exists (a ++ l :: b) l) as (l' & L); [apply in_elt|]. exists l'. split; auto. apply H. auto.
  - unfold vtodo_of_lines in *. rewrite (omap_iso vtodo_of vtodo_to) in H by (intros; rewrite ?vtodo_to_of, ?vtodo_of_to; auto).
    apply comp_unknown in H as (c & C & F); [|apply vtodo_distinct|auto]. exists (vtodo_of c). rewrite C. split; auto.
    rewrite <- (vtodo_to_of c) in F. set (w := vtodo_of c) in *. clearbody w. destruct v, w. unfold vtodo_to in F. cbn [c_fields] in F. inv F. auto.
Qed.
Theorem C13_vtodo_written : forall v out, s_ical ser_vtodo v = Ok out ->
  (forall d, to_recurid v = Some d ->
       has_line out (lit "RECURID") (match d with DDate _ => Some (lit "VALUE=DATE") | DDateTime _ => None end) (date_str d)) /\
  (to_rstatus v <> [] -> has_line out (lit "RSTATUS") None (join [44] (map rs_show (to_rstatus v)))).
Proof.
  intros v out H. cbn [s_ical ser_vtodo ser_iso] in H.
  split; [intros d Hd; apply (written_date _ _ _ out 12 (lit "RECURID") d) in H; auto; cbn [nth_field vtodo_schema vtodo_to c_fields fst snd]; now rewrite Hd|].
  intros Hl. apply (written_rs _ _ _ out 26 (lit "RSTATUS") (to_rstatus v)) in H; auto.
Qed.
End PropComp.

