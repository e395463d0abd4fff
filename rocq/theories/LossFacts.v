(** * Each field is read from the line it is written to. *)
From Verif Require Import Base Env Chrono Nom Types Ser Parser Derive BaseFacts NomFacts SpecLine LineFacts SpecText SerFacts PropText PropLine
  SpecCal SpecDur PropVocab PropRule PropPeriod PropList Components SpecComp DeriveFacts SpecFields PropComp SpecFile PropFile SpecRound RoundFacts FrameFacts BackFacts FieldFacts ChildFacts CalFacts AlarmFacts PropRound SpecLoss.

(** Lines in groups, each under its own name. *)
Definition group : Type := (str * list content_line)%type.
Definition grouped (L : list group) : Prop := NoDup (map fst L) /\ Forall (fun g => Forall (fun c => cl_key c = fst g) (snd g) /\ (length (snd g) <= 1)%nat) L.
Definition flat (L : list group) : list content_line := concat (map snd L).
Lemma flat_key L c : grouped L -> In c (flat L) -> In (cl_key c) (map fst L).
Proof.
  intros [_ H] I. unfold flat in I. apply in_concat in I as (seg & I & C). apply in_map_iff in I as (g & <- & I). rewrite Forall_forall in H. destruct (H g I) as [K _].
  rewrite Forall_forall in K. rewrite (K c C). now apply in_map.
Qed.
Lemma flat_named L n seg : grouped L -> In (n, seg) L -> lines_named n (flat L) = seg /\ (length seg <= 1)%nat.
Proof.
  intros [D H] I. rewrite Forall_forall in H. split; [|exact (proj2 (H _ I))].
  induction L as [|[m s] L IH]; [destruct I|]. cbn [map fst] in D. inv D. unfold flat. cbn [map snd concat]. rewrite lines_named_app.
  fold (flat L). destruct I as [I|I].
  - inv I. rewrite (named_absent n (flat L)), app_nil_r.
    + destruct (H (n, seg) (or_introl eq_refl)) as [K _]. cbn [fst snd] in K. clear -K. unfold lines_named. induction K as [|c l Hc K IH]; auto. cbn [filter]. rewrite IH.
      now rewrite (proj2 (str_eqb_eq _ _) Hc).
    + apply Forall_forall. intros c Hc Ec. assert (G : grouped L) by (split; auto; rewrite Forall_forall; intros; apply H; right; auto).
      apply flat_key in Hc; auto. rewrite Ec in Hc. auto.
  - rewrite (named_absent n s), IH; auto; [intros; apply H; right; auto|].
    apply Forall_forall. intros c Hc Ec. destruct (H (m, s) (or_introl eq_refl)) as [K _]. cbn [fst snd] in K. rewrite Forall_forall in K. rewrite (K c Hc) in Ec. subst n.
    match goal with X : ~ In m _ |- _ => apply X end. change m with (fst (m, seg)). now apply in_map.
Qed.
Lemma short_cases {A} (l : list A) : (length l <= 1)%nat -> l = [] \/ exists x, l = [x].
Proof. destruct l as [|x [|y l]]; cbn; intros; eauto. lia. Qed.
Lemma seg_req {T} (p : content_line -> outcome T) L n seg w : grouped L -> In (n, seg) L -> required p n (flat L) w <-> back_req p seg w.
Proof.
  intros G I. destruct (flat_named L n seg G I) as [N S]. rewrite required_iff. fold (lines_named n (flat L)). rewrite N. unfold back_req.
  destruct (short_cases seg S) as [->|[x ->]]; cbn [last_opt].
  - split; [discriminate|intros (l & X & _); discriminate].
  - split; [eauto|]. intros (l & X & Y). now inv X.
Qed.
Lemma seg_opt {T} (p : content_line -> outcome T) L n seg o : grouped L -> In (n, seg) L -> optional p n (flat L) o <-> back_opt p seg o.
Proof.
  intros G I. unfold optional, back_opt. destruct (flat_named L n seg G I) as [N S].
  assert (M : forall l, (In l (flat L) /\ cl_key l = n) <-> In l seg).
  { intros l. rewrite <- N. unfold lines_named. rewrite filter_In, str_eqb_eq. tauto. }
  destruct o as [w|].
  - rewrite (seg_req p L n seg w G I). unfold back_req. split; [tauto|]. intros (l & -> & P). split; [|eauto]. intros l' A B.
    assert (X : In l' [l]) by (apply M; auto). destruct X as [<-|[]]. eauto.
  - rewrite absent_lines, N. split; [tauto|]. intros ->. split; auto. intros l A B. exfalso. apply (proj1 (M l)). auto.
Qed.
Lemma seg_vec {T} (p : content_line -> outcome T) L n seg ws : grouped L -> In (n, seg) L -> repeated p n (flat L) ws <-> back_vec p seg ws.
Proof. intros G I. unfold repeated, back_vec. destruct (flat_named L n seg G I) as [-> _]. tauto. Qed.
Lemma seg_app {T} (p : content_line -> outcome (list T)) L n seg ws : grouped L -> In (n, seg) L -> appended p n (flat L) ws <-> back_app p seg ws.
Proof.
  intros G I. unfold appended, back_app. destruct (flat_named L n seg G I) as [-> S]. destruct (short_cases seg S) as [->|[x ->]].
  - split; [intros (v & F & ->); now inv F|intros ->; exists []; auto].
  - split.
    + intros (v & F & ->). inversion F as [|? y ? z A B]; subst. inv B. cbn. now rewrite app_nil_r.
    + intros P. exists [ws]. split; [auto|]. cbn. now rewrite app_nil_r.
Qed.
Lemma sorted_pair {V} (k : str) (v : V) : sorted_map [(k, v)].
Proof. repeat constructor. Qed.
Lemma map_unique (seg : list content_line) n x (known : list str) ls (P : str -> Prop) : (length seg <= 1)%nat -> lines_named n ls = seg -> ~ In n known -> P n ->
  (forall c, In c ls -> ~ In (cl_key c) known -> P (cl_key c) -> cl_key c = n) ->
  sorted_map x /\ (forall m l, mget m x = Some l <-> ~ In m known /\ P m /\ last_line m ls l) <-> back_ext seg x.
Proof.
  intros S N Kn Pn U. unfold back_ext.
  assert (Q : forall m l, last_line m ls l -> ~ In m known -> P m -> m = n /\ seg = [l]).
  { intros m l Hl A B. assert (m = n) as ->.
    { destruct Hl as (a & b & -> & E & _). rewrite <- E. apply U; [apply in_elt|rewrite E; auto|rewrite E; auto]. }
    split; auto. apply last_line_iff in Hl. rewrite N in Hl. destruct (short_cases seg S) as [->|[y ->]]; cbn in Hl; [discriminate|now inv Hl]. }
  assert (R : forall l, seg = [l] -> last_line n ls l /\ cl_key l = n).
  { intros l E. assert (X : last_line n ls l) by (apply last_line_iff; now rewrite N, E). split; auto. destruct X as (? & ? & ? & ? & ?); auto. }
  split.
  - intros [Sx H]. apply msorted_ext; [now apply sorted_map_iff| |].
    + destruct (short_cases seg S) as [->|[y ->]]; apply sorted_map_iff; [constructor|apply sorted_pair].
    + intros m. destruct (mget m x) as [l|] eqn:M.
      * apply H in M as (A & B & C). destruct (Q _ _ C A B) as [-> ->]. destruct (R l eq_refl) as [_ K]. cbn. rewrite K. now rewrite str_eqb_refl.
      * destruct (short_cases seg S) as [->|[y ->]]; auto. destruct (R y eq_refl) as [Ly K]. cbn. rewrite K. destruct (str_eqb m n) eqn:Eq; auto.
        apply str_eqb_eq in Eq as ->. assert (X : mget n x = Some y) by (apply H; auto). congruence.
  - intros ->. split; [destruct (short_cases seg S) as [->|[y ->]]; [constructor|apply sorted_pair]|]. intros m l. split.
    + intros M. destruct (short_cases seg S) as [->|[y ->]]; [discriminate|]. destruct (R y eq_refl) as [Ly K]. cbn in M. rewrite K in M. destruct (str_eqb m n) eqn:Eq; [|discriminate].
      apply str_eqb_eq in Eq as ->. inv M. auto.
    + intros (A & B & C). destruct (Q _ _ C A B) as [-> ->]. destruct (R l eq_refl) as [_ K]. cbn. rewrite K. now rewrite str_eqb_refl.
Qed.
Lemma seg_ext known L sx si x i : grouped L -> map fst L = known ++ [lit "X-PROP"; lit "IANA-PROP"] -> In (lit "X-PROP", sx) L -> In (lit "IANA-PROP", si) L ->
  extensions known (flat L) x i <-> back_ext sx x /\ back_ext si i.
Proof.
  intros G HL Ix Ii. destruct (flat_named L _ _ G Ix) as [Nx Sx]. destruct (flat_named L _ _ G Ii) as [Ni Si].
  assert (K : forall c, In c (flat L) -> In (cl_key c) known \/ cl_key c = lit "X-PROP" \/ cl_key c = lit "IANA-PROP").
  { intros c Hc. apply flat_key in Hc; auto. rewrite HL in Hc. apply in_app_iff in Hc as [Hc|Hc]; auto. cbn [In] in Hc. intuition. }
  assert (D : ~ In (lit "X-PROP") known /\ ~ In (lit "IANA-PROP") known).
  { destruct G as [G _]. rewrite HL in G. split; intros H; apply in_split in H as (u & z & ->); rewrite <- app_assoc in G; cbn [app] in G; apply NoDup_remove_2 in G; apply G; rewrite !in_app_iff; cbn [In]; auto 6. }
  assert (BX : begins (lit "X-") (lit "X-PROP")) by (exists (lit "PROP"); reflexivity).
  assert (BI : ~ begins (lit "X-") (lit "IANA-PROP")) by (intros [r E]; discriminate).
  rewrite <- (map_unique sx (lit "X-PROP") x known (flat L) (begins (lit "X-")) Sx Nx (proj1 D) BX).
  2: { intros c Hc A B. destruct (K c Hc) as [C|[C|C]]; auto; [contradiction|]. rewrite C in B. contradiction. }
  rewrite <- (map_unique si (lit "IANA-PROP") i known (flat L) (fun n => ~ begins (lit "X-") n) Si Ni (proj2 D) BI).
  2: { intros c Hc A B. destruct (K c Hc) as [C|[C|C]]; auto; [contradiction|]. rewrite C in B. contradiction. }
  unfold extensions. tauto.
Qed.
(** Shapes of groups *)
Definition one_group (n : str) (seg : list content_line) : Prop := Forall (fun c => cl_key c = n) seg /\ (length seg <= 1)%nat.
Lemma og_line n m v : one_group n (line n m v).
Proof. unfold line. destruct v; split; cbn; auto. Qed.
Lemma og_nil n : one_group n [].
Proof. split; cbn; auto. Qed.
Lemma og_opt {T} n (one : str -> T -> list content_line) o : (forall x, one_group n (one n x)) -> one_group n (opt_lines one n o).
Proof. destruct o; cbn [opt_lines]; auto using og_nil. Qed.
Lemma og_list {T} n (one : str -> T -> list content_line) show l : (forall x, one_group n (one n x)) -> one_group n (list_lines one show n l).
Proof. intros H. destruct l as [|x [|y l]]; cbn [list_lines]; auto; apply og_line. Qed.
Ltac one_groups := repeat (apply Forall_cons; [cbn [fst snd]; first [apply og_line|apply og_opt; intros; apply og_line|apply og_list; intros; apply og_line]|]); apply Forall_nil.
Lemma and_iff A B C D : (A <-> B) -> (C <-> D) -> (A /\ C <-> B /\ D).
Proof. tauto. Qed.
Section Env.
Context {E : Env}.
(** audio *)
Definition audio_groups (v : audio) : list group := [
  (lit "ACTION", text_line (lit "ACTION") (au_action v));
  (lit "TRIGGER", trigger_line (lit "TRIGGER") (au_trigger v));
  (lit "DURATION", opt_lines (plain_line td_show) (lit "DURATION") (au_duration v));
  (lit "REPEAT", opt_lines (plain_line show_int) (lit "REPEAT") (au_repeat v));
  (lit "ATTACH", list_lines text_line text_shown (lit "ATTACH") (au_attach v));
  (lit "X-PROP", ext_line (lit "X-PROP") (au_x_prop v));
  (lit "IANA-PROP", ext_line (lit "IANA-PROP") (au_iana_prop v))].
Lemma audio_grouped v : grouped (audio_groups v).
Proof. split; [apply distinct_NoDup; vm_compute; reflexivity|]. unfold audio_groups. one_groups. Qed.
Lemma audio_flat v : audio_written v = flat (audio_groups v).
Proof. unfold flat, audio_groups, audio_written. cbn [map snd concat]. now rewrite app_nil_r. Qed.
Lemma audio_returns_iff v w : audio_read (audio_written v) w <-> audio_returns v w.
Proof.
  rewrite audio_flat. unfold audio_read, audio_returns.
  apply and_iff; [apply seg_req; [apply audio_grouped|apply (nth_error_In _ 0); reflexivity]|].
  apply and_iff; [apply seg_req; [apply audio_grouped|apply (nth_error_In _ 1); reflexivity]|].
  apply and_iff; [apply seg_opt; [apply audio_grouped|apply (nth_error_In _ 2); reflexivity]|].
  apply and_iff; [apply seg_opt; [apply audio_grouped|apply (nth_error_In _ 3); reflexivity]|].
  apply and_iff; [apply seg_vec; [apply audio_grouped|apply (nth_error_In _ 4); reflexivity]|].
  apply seg_ext; [apply audio_grouped|reflexivity|apply (nth_error_In _ 5); reflexivity|apply (nth_error_In _ 6); reflexivity].
Qed.
(** display *)
Definition display_groups (v : display) : list group := [
  (lit "ACTION", text_line (lit "ACTION") (di_action v));
  (lit "TRIGGER", trigger_line (lit "TRIGGER") (di_trigger v));
  (lit "DESCRIPTION", text_line (lit "DESCRIPTION") (di_description v));
  (lit "DURATION", opt_lines (plain_line td_show) (lit "DURATION") (di_duration v));
  (lit "REPEAT", opt_lines (plain_line show_int) (lit "REPEAT") (di_repeat v));
  (lit "X-PROP", ext_line (lit "X-PROP") (di_x_prop v));
  (lit "IANA-PROP", ext_line (lit "IANA-PROP") (di_iana_prop v))].
Lemma display_grouped v : grouped (display_groups v).
Proof. split; [apply distinct_NoDup; vm_compute; reflexivity|]. unfold display_groups. one_groups. Qed.
Lemma display_flat v : display_written v = flat (display_groups v).
Proof. unfold flat, display_groups, display_written. cbn [map snd concat]. now rewrite app_nil_r. Qed.
Lemma display_returns_iff v w : display_read (display_written v) w <-> display_returns v w.
Proof.
  rewrite display_flat. unfold display_read, display_returns.
  apply and_iff; [apply seg_req; [apply display_grouped|apply (nth_error_In _ 0); reflexivity]|].
  apply and_iff; [apply seg_req; [apply display_grouped|apply (nth_error_In _ 1); reflexivity]|].
  apply and_iff; [apply seg_req; [apply display_grouped|apply (nth_error_In _ 2); reflexivity]|].
  apply and_iff; [apply seg_opt; [apply display_grouped|apply (nth_error_In _ 3); reflexivity]|].
  apply and_iff; [apply seg_opt; [apply display_grouped|apply (nth_error_In _ 4); reflexivity]|].
  apply seg_ext; [apply display_grouped|reflexivity|apply (nth_error_In _ 5); reflexivity|apply (nth_error_In _ 6); reflexivity].
Qed.
(** email *)
Definition email_groups (v : email) : list group := [
  (lit "ACTION", text_line (lit "ACTION") (em_action v));
  (lit "TRIGGER", trigger_line (lit "TRIGGER") (em_trigger v));
  (lit "DESCRIPTION", text_line (lit "DESCRIPTION") (em_description v));
  (lit "SUMMARY", text_line (lit "SUMMARY") (em_summary v));
  (lit "ATTENDEE", list_lines uri_line uri_shown (lit "ATTENDEE") (em_attendee v));
  (lit "DURATION", opt_lines (plain_line td_show) (lit "DURATION") (em_duration v));
  (lit "REPEAT", opt_lines (plain_line show_int) (lit "REPEAT") (em_repeat v));
  (lit "ATTACH", list_lines text_line text_shown (lit "ATTACH") (em_attach v));
  (lit "X-PROP", ext_line (lit "X-PROP") (em_x_prop v));
  (lit "IANA-PROP", ext_line (lit "IANA-PROP") (em_iana_prop v))].
Lemma email_grouped v : grouped (email_groups v).
Proof. split; [apply distinct_NoDup; vm_compute; reflexivity|]. unfold email_groups. one_groups. Qed.
Lemma email_flat v : email_written v = flat (email_groups v).
Proof. unfold flat, email_groups, email_written. cbn [map snd concat]. now rewrite app_nil_r. Qed.
Lemma email_returns_iff v w : email_read (email_written v) w <-> email_returns v w.
Proof.
  rewrite email_flat. unfold email_read, email_returns.
  apply and_iff; [apply seg_req; [apply email_grouped|apply (nth_error_In _ 0); reflexivity]|].
  apply and_iff; [apply seg_req; [apply email_grouped|apply (nth_error_In _ 1); reflexivity]|].
  apply and_iff; [apply seg_req; [apply email_grouped|apply (nth_error_In _ 2); reflexivity]|].
  apply and_iff; [apply seg_req; [apply email_grouped|apply (nth_error_In _ 3); reflexivity]|].
  apply and_iff; [apply seg_vec; [apply email_grouped|apply (nth_error_In _ 4); reflexivity]|].
  apply and_iff; [apply seg_opt; [apply email_grouped|apply (nth_error_In _ 5); reflexivity]|].
  apply and_iff; [apply seg_opt; [apply email_grouped|apply (nth_error_In _ 6); reflexivity]|].
  apply and_iff; [apply seg_vec; [apply email_grouped|apply (nth_error_In _ 7); reflexivity]|].
  apply seg_ext; [apply email_grouped|reflexivity|apply (nth_error_In _ 8); reflexivity|apply (nth_error_In _ 9); reflexivity].
Qed.
(** vevent *)
Definition vevent_groups (v : vevent) : list group := [
  (lit "DTSTAMP", plain_line dt_show (lit "DTSTAMP") (ev_dtstamp v));
  (lit "UID", text_line (lit "UID") (ev_uid v));
  (lit "DTSTART", date_line (lit "DTSTART") (ev_dtstart v));
  (lit "CLASS", opt_lines (plain_line class_show) (lit "CLASS") (ev_class v));
  (lit "CREATED", opt_lines (plain_line dt_show) (lit "CREATED") (ev_created v));
  (lit "DESCRIPTION", opt_lines text_line (lit "DESCRIPTION") (ev_description v));
  (lit "GEO", opt_lines (plain_line geo_show) (lit "GEO") (ev_geo v));
  (lit "LAST-MODIFIED", opt_lines (plain_line dt_show) (lit "LAST-MODIFIED") (ev_last_modified v));
  (lit "LOCATION", opt_lines text_line (lit "LOCATION") (ev_location v));
  (lit "ORGANIZER", opt_lines uri_line (lit "ORGANIZER") (ev_organizer v));
  (lit "PRIORITY", opt_lines (plain_line show_int) (lit "PRIORITY") (ev_priority v));
  (lit "SEQUENCE", opt_lines (plain_line show_int) (lit "SEQUENCE") (ev_sequence v));
  (lit "STATUS", opt_lines (plain_line status_show) (lit "STATUS") (ev_status v));
  (lit "SUMMARY", opt_lines text_line (lit "SUMMARY") (ev_summary v));
  (lit "TRANSP", opt_lines (plain_line transp_show) (lit "TRANSP") (ev_transp v));
  (lit "URL", opt_lines uri_line (lit "URL") (ev_url v));
  (lit "RECURID", opt_lines date_line (lit "RECURID") (ev_recurid v));
  (lit "RRULE", opt_lines (plain_line rule_shown) (lit "RRULE") (ev_rrule v));
  (lit "DTEND", opt_lines date_line (lit "DTEND") (ev_dtend v));
  (lit "DURATION", opt_lines (plain_line td_show) (lit "DURATION") (ev_duration v));
  (lit "ATTACH", list_lines text_line text_shown (lit "ATTACH") (ev_attach v));
  (lit "ATTENDEE", list_lines uri_line uri_shown (lit "ATTENDEE") (ev_attendee v));
  (lit "CATEGORIES", list_lines text_line text_shown (lit "CATEGORIES") (ev_categories v));
  (lit "COMMENT", list_lines text_line text_shown (lit "COMMENT") (ev_comment v));
  (lit "CONTACT", list_lines text_line text_shown (lit "CONTACT") (ev_contact v));
  (lit "EXDATE", list_lines date_line date_str (lit "EXDATE") (ev_exdate v));
  (lit "RSTATUS", list_lines (plain_line rs_shown) rs_shown (lit "RSTATUS") (ev_rstatus v));
  (lit "RELATED-TO", list_lines text_line text_shown (lit "RELATED-TO") (ev_related_to v));
  (lit "RESOURCES", list_lines text_line text_shown (lit "RESOURCES") (ev_resources v));
  (lit "RDATE", list_lines (plain_line rdate_show) rdate_show (lit "RDATE") (ev_rdate v));
  (lit "X-PROP", ext_line (lit "X-PROP") (ev_x_prop v));
  (lit "IANA-PROP", ext_line (lit "IANA-PROP") (ev_iana_prop v))].
Lemma vevent_grouped v : grouped (vevent_groups v).
Proof. split; [apply distinct_NoDup; vm_compute; reflexivity|]. unfold vevent_groups. one_groups. Qed.
Lemma vevent_flat v : vevent_written v = flat (vevent_groups v).
Proof. unfold flat, vevent_groups, vevent_written. cbn [map snd concat]. now rewrite app_nil_r. Qed.
Lemma vevent_returns_iff v w : vevent_read (vevent_written v) w <-> vevent_returns v w.
Proof.
  rewrite vevent_flat. unfold vevent_read, vevent_returns.
  apply and_iff; [apply seg_req; [apply vevent_grouped|apply (nth_error_In _ 0); reflexivity]|].
  apply and_iff; [apply seg_req; [apply vevent_grouped|apply (nth_error_In _ 1); reflexivity]|].
  apply and_iff; [apply seg_req; [apply vevent_grouped|apply (nth_error_In _ 2); reflexivity]|].
  apply and_iff; [apply seg_opt; [apply vevent_grouped|apply (nth_error_In _ 3); reflexivity]|].
  apply and_iff; [apply seg_opt; [apply vevent_grouped|apply (nth_error_In _ 4); reflexivity]|].
  apply and_iff; [apply seg_opt; [apply vevent_grouped|apply (nth_error_In _ 5); reflexivity]|].
  apply and_iff; [apply seg_opt; [apply vevent_grouped|apply (nth_error_In _ 6); reflexivity]|].
  apply and_iff; [apply seg_opt; [apply vevent_grouped|apply (nth_error_In _ 7); reflexivity]|].
  apply and_iff; [apply seg_opt; [apply vevent_grouped|apply (nth_error_In _ 8); reflexivity]|].
  apply and_iff; [apply seg_opt; [apply vevent_grouped|apply (nth_error_In _ 9); reflexivity]|].
  apply and_iff; [apply seg_opt; [apply vevent_grouped|apply (nth_error_In _ 10); reflexivity]|].
  apply and_iff; [apply seg_opt; [apply vevent_grouped|apply (nth_error_In _ 11); reflexivity]|].
  apply and_iff; [apply seg_opt; [apply vevent_grouped|apply (nth_error_In _ 12); reflexivity]|].
  apply and_iff; [apply seg_opt; [apply vevent_grouped|apply (nth_error_In _ 13); reflexivity]|].
  apply and_iff; [apply seg_opt; [apply vevent_grouped|apply (nth_error_In _ 14); reflexivity]|].
  apply and_iff; [apply seg_opt; [apply vevent_grouped|apply (nth_error_In _ 15); reflexivity]|].
  apply and_iff; [apply seg_opt; [apply vevent_grouped|apply (nth_error_In _ 16); reflexivity]|].
  apply and_iff; [apply seg_opt; [apply vevent_grouped|apply (nth_error_In _ 17); reflexivity]|].
  apply and_iff; [apply seg_opt; [apply vevent_grouped|apply (nth_error_In _ 18); reflexivity]|].
  apply and_iff; [apply seg_opt; [apply vevent_grouped|apply (nth_error_In _ 19); reflexivity]|].
  apply and_iff; [apply seg_vec; [apply vevent_grouped|apply (nth_error_In _ 20); reflexivity]|].
  apply and_iff; [apply seg_vec; [apply vevent_grouped|apply (nth_error_In _ 21); reflexivity]|].
  apply and_iff; [apply seg_app; [apply vevent_grouped|apply (nth_error_In _ 22); reflexivity]|].
  apply and_iff; [apply seg_vec; [apply vevent_grouped|apply (nth_error_In _ 23); reflexivity]|].
  apply and_iff; [apply seg_vec; [apply vevent_grouped|apply (nth_error_In _ 24); reflexivity]|].
  apply and_iff; [apply seg_app; [apply vevent_grouped|apply (nth_error_In _ 25); reflexivity]|].
  apply and_iff; [apply seg_vec; [apply vevent_grouped|apply (nth_error_In _ 26); reflexivity]|].
  apply and_iff; [apply seg_vec; [apply vevent_grouped|apply (nth_error_In _ 27); reflexivity]|].
  apply and_iff; [apply seg_app; [apply vevent_grouped|apply (nth_error_In _ 28); reflexivity]|].
  apply and_iff; [apply seg_vec; [apply vevent_grouped|apply (nth_error_In _ 29); reflexivity]|].
  apply and_iff; [tauto|].
  apply seg_ext; [apply vevent_grouped|reflexivity|apply (nth_error_In _ 30); reflexivity|apply (nth_error_In _ 31); reflexivity].
Qed.
(** vfreebusy *)
Definition vfreebusy_groups (v : vfreebusy) : list group := [
  (lit "DTSTAMP", plain_line dt_show (lit "DTSTAMP") (fb_dtstamp v));
  (lit "UID", text_line (lit "UID") (fb_uid v));
  (lit "CONTACT", opt_lines text_line (lit "CONTACT") (fb_contact v));
  (lit "DTSTART", opt_lines date_line (lit "DTSTART") (fb_dtstart v));
  (lit "DTEND", opt_lines date_line (lit "DTEND") (fb_dtend v));
  (lit "ORGANIZER", opt_lines uri_line (lit "ORGANIZER") (fb_organizer v));
  (lit "URL", opt_lines uri_line (lit "URL") (fb_url v));
  (lit "ATTENDEE", list_lines uri_line uri_shown (lit "ATTENDEE") (fb_attendee v));
  (lit "COMMENT", list_lines text_line text_shown (lit "COMMENT") (fb_comment v));
  (lit "FREEBUSY", list_lines (plain_line period_show) period_show (lit "FREEBUSY") (fb_freebusy v));
  (lit "RSTATUS", list_lines (plain_line rs_shown) rs_shown (lit "RSTATUS") (fb_rstatus v));
  (lit "X-PROP", ext_line (lit "X-PROP") (fb_x_prop v));
  (lit "IANA-PROP", ext_line (lit "IANA-PROP") (fb_iana_prop v))].
Lemma vfreebusy_grouped v : grouped (vfreebusy_groups v).
Proof. split; [apply distinct_NoDup; vm_compute; reflexivity|]. unfold vfreebusy_groups. one_groups. Qed.
Lemma vfreebusy_flat v : vfreebusy_written v = flat (vfreebusy_groups v).
Proof. unfold flat, vfreebusy_groups, vfreebusy_written. cbn [map snd concat]. now rewrite app_nil_r. Qed.
Lemma vfreebusy_returns_iff v w : vfreebusy_read (vfreebusy_written v) w <-> vfreebusy_returns v w.
Proof.
  rewrite vfreebusy_flat. unfold vfreebusy_read, vfreebusy_returns.
  apply and_iff; [apply seg_req; [apply vfreebusy_grouped|apply (nth_error_In _ 0); reflexivity]|].
  apply and_iff; [apply seg_req; [apply vfreebusy_grouped|apply (nth_error_In _ 1); reflexivity]|].
  apply and_iff; [apply seg_opt; [apply vfreebusy_grouped|apply (nth_error_In _ 2); reflexivity]|].
  apply and_iff; [apply seg_opt; [apply vfreebusy_grouped|apply (nth_error_In _ 3); reflexivity]|].
  apply and_iff; [apply seg_opt; [apply vfreebusy_grouped|apply (nth_error_In _ 4); reflexivity]|].
  apply and_iff; [apply seg_opt; [apply vfreebusy_grouped|apply (nth_error_In _ 5); reflexivity]|].
  apply and_iff; [apply seg_opt; [apply vfreebusy_grouped|apply (nth_error_In _ 6); reflexivity]|].
  apply and_iff; [apply seg_vec; [apply vfreebusy_grouped|apply (nth_error_In _ 7); reflexivity]|].
  apply and_iff; [apply seg_vec; [apply vfreebusy_grouped|apply (nth_error_In _ 8); reflexivity]|].
  apply and_iff; [apply seg_app; [apply vfreebusy_grouped|apply (nth_error_In _ 9); reflexivity]|].
  apply and_iff; [apply seg_vec; [apply vfreebusy_grouped|apply (nth_error_In _ 10); reflexivity]|].
  apply seg_ext; [apply vfreebusy_grouped|reflexivity|apply (nth_error_In _ 11); reflexivity|apply (nth_error_In _ 12); reflexivity].
Qed.
(** vjournal *)
Definition vjournal_groups (v : vjournal) : list group := [
  (lit "DTSTAMP", plain_line dt_show (lit "DTSTAMP") (jo_dtstamp v));
  (lit "UID", text_line (lit "UID") (jo_uid v));
  (lit "CLASS", opt_lines (plain_line class_show) (lit "CLASS") (jo_class v));
  (lit "CREATED", opt_lines (plain_line dt_show) (lit "CREATED") (jo_created v));
  (lit "DTSTART", date_line (lit "DTSTART") (jo_dtstart v));
  (lit "LAST-MODIFIED", opt_lines (plain_line dt_show) (lit "LAST-MODIFIED") (jo_last_modified v));
  (lit "ORGANIZER", opt_lines uri_line (lit "ORGANIZER") (jo_organizer v));
  (lit "RECURID", opt_lines date_line (lit "RECURID") (jo_recurid v));
  (lit "SEQUENCE", opt_lines (plain_line show_int) (lit "SEQUENCE") (jo_sequence v));
  (lit "STATUS", opt_lines (plain_line status_show) (lit "STATUS") (jo_status v));
  (lit "SUMMARY", opt_lines text_line (lit "SUMMARY") (jo_summary v));
  (lit "URL", opt_lines uri_line (lit "URL") (jo_url v));
  (lit "RRULE", opt_lines (plain_line rule_shown) (lit "RRULE") (jo_rrule v));
  (lit "ATTACH", list_lines text_line text_shown (lit "ATTACH") (jo_attach v));
  (lit "ATTENDEE", list_lines uri_line uri_shown (lit "ATTENDEE") (jo_attendee v));
  (lit "CATEGORIES", list_lines text_line text_shown (lit "CATEGORIES") (jo_categories v));
  (lit "COMMENT", list_lines text_line text_shown (lit "COMMENT") (jo_comment v));
  (lit "CONTACT", list_lines text_line text_shown (lit "CONTACT") (jo_contact v));
  (lit "DESCRIPTION", list_lines text_line text_shown (lit "DESCRIPTION") (jo_description v));
  (lit "EXDATE", list_lines date_line date_str (lit "EXDATE") (jo_exdate v));
  (lit "RELATED-TO", list_lines text_line text_shown (lit "RELATED-TO") (jo_related_to v));
  (lit "RDATE", list_lines (plain_line rdate_show) rdate_show (lit "RDATE") (jo_rdate v));
  (lit "RSTATUS", list_lines (plain_line rs_shown) rs_shown (lit "RSTATUS") (jo_rstatus v));
  (lit "X-PROP", ext_line (lit "X-PROP") (jo_x_prop v));
  (lit "IANA-PROP", ext_line (lit "IANA-PROP") (jo_iana_prop v))].
Lemma vjournal_grouped v : grouped (vjournal_groups v).
Proof. split; [apply distinct_NoDup; vm_compute; reflexivity|]. unfold vjournal_groups. one_groups. Qed.
Lemma vjournal_flat v : vjournal_written v = flat (vjournal_groups v).
Proof. unfold flat, vjournal_groups, vjournal_written. cbn [map snd concat]. now rewrite app_nil_r. Qed.
Lemma vjournal_returns_iff v w : vjournal_read (vjournal_written v) w <-> vjournal_returns v w.
Proof.
  rewrite vjournal_flat. unfold vjournal_read, vjournal_returns.
  apply and_iff; [apply seg_req; [apply vjournal_grouped|apply (nth_error_In _ 0); reflexivity]|].
  apply and_iff; [apply seg_req; [apply vjournal_grouped|apply (nth_error_In _ 1); reflexivity]|].
  apply and_iff; [apply seg_opt; [apply vjournal_grouped|apply (nth_error_In _ 2); reflexivity]|].
  apply and_iff; [apply seg_opt; [apply vjournal_grouped|apply (nth_error_In _ 3); reflexivity]|].
  apply and_iff; [apply seg_req; [apply vjournal_grouped|apply (nth_error_In _ 4); reflexivity]|].
  apply and_iff; [apply seg_opt; [apply vjournal_grouped|apply (nth_error_In _ 5); reflexivity]|].
  apply and_iff; [apply seg_opt; [apply vjournal_grouped|apply (nth_error_In _ 6); reflexivity]|].
  apply and_iff; [apply seg_opt; [apply vjournal_grouped|apply (nth_error_In _ 7); reflexivity]|].
  apply and_iff; [apply seg_opt; [apply vjournal_grouped|apply (nth_error_In _ 8); reflexivity]|].
  apply and_iff; [apply seg_opt; [apply vjournal_grouped|apply (nth_error_In _ 9); reflexivity]|].
  apply and_iff; [apply seg_opt; [apply vjournal_grouped|apply (nth_error_In _ 10); reflexivity]|].
  apply and_iff; [apply seg_opt; [apply vjournal_grouped|apply (nth_error_In _ 11); reflexivity]|].
  apply and_iff; [apply seg_opt; [apply vjournal_grouped|apply (nth_error_In _ 12); reflexivity]|].
  apply and_iff; [apply seg_vec; [apply vjournal_grouped|apply (nth_error_In _ 13); reflexivity]|].
  apply and_iff; [apply seg_vec; [apply vjournal_grouped|apply (nth_error_In _ 14); reflexivity]|].
  apply and_iff; [apply seg_app; [apply vjournal_grouped|apply (nth_error_In _ 15); reflexivity]|].
  apply and_iff; [apply seg_vec; [apply vjournal_grouped|apply (nth_error_In _ 16); reflexivity]|].
  apply and_iff; [apply seg_vec; [apply vjournal_grouped|apply (nth_error_In _ 17); reflexivity]|].
  apply and_iff; [apply seg_vec; [apply vjournal_grouped|apply (nth_error_In _ 18); reflexivity]|].
  apply and_iff; [apply seg_app; [apply vjournal_grouped|apply (nth_error_In _ 19); reflexivity]|].
  apply and_iff; [apply seg_vec; [apply vjournal_grouped|apply (nth_error_In _ 20); reflexivity]|].
  apply and_iff; [apply seg_vec; [apply vjournal_grouped|apply (nth_error_In _ 21); reflexivity]|].
  apply and_iff; [apply seg_vec; [apply vjournal_grouped|apply (nth_error_In _ 22); reflexivity]|].
  apply seg_ext; [apply vjournal_grouped|reflexivity|apply (nth_error_In _ 23); reflexivity|apply (nth_error_In _ 24); reflexivity].
Qed.
(** vtodo *)
Definition vtodo_groups (v : vtodo) : list group := [
  (lit "DTSTAMP", plain_line dt_show (lit "DTSTAMP") (to_dtstamp v));
  (lit "UID", text_line (lit "UID") (to_uid v));
  (lit "CLASS", opt_lines (plain_line class_show) (lit "CLASS") (to_class v));
  (lit "COMPLETED", opt_lines (plain_line dt_show) (lit "COMPLETED") (to_completed v));
  (lit "CREATED", opt_lines (plain_line dt_show) (lit "CREATED") (to_created v));
  (lit "DTSTART", opt_lines date_line (lit "DTSTART") (to_dtstart v));
  (lit "GEO", opt_lines (plain_line geo_show) (lit "GEO") (to_geo v));
  (lit "LAST-MODIFIED", opt_lines (plain_line dt_show) (lit "LAST-MODIFIED") (to_last_modified v));
  (lit "LOCATION", opt_lines text_line (lit "LOCATION") (to_location v));
  (lit "ORGANIZER", opt_lines uri_line (lit "ORGANIZER") (to_organizer v));
  (lit "PERCENT-COMPLETE", opt_lines (plain_line show_int) (lit "PERCENT-COMPLETE") (to_percent_complete v));
  (lit "PRIORITY", opt_lines (plain_line show_int) (lit "PRIORITY") (to_priority v));
  (lit "RECURID", opt_lines date_line (lit "RECURID") (to_recurid v));
  (lit "SEQUENCE", opt_lines (plain_line show_int) (lit "SEQUENCE") (to_sequence v));
  (lit "STATUS", opt_lines (plain_line status_show) (lit "STATUS") (to_status v));
  (lit "SUMMARY", opt_lines text_line (lit "SUMMARY") (to_summary v));
  (lit "URL", opt_lines uri_line (lit "URL") (to_url v));
  (lit "RRULE", opt_lines (plain_line rule_shown) (lit "RRULE") (to_rrule v));
  (lit "DUE", opt_lines date_line (lit "DUE") (to_due v));
  (lit "DURATION", opt_lines (plain_line td_show) (lit "DURATION") (to_duration v));
  (lit "ATTACH", list_lines text_line text_shown (lit "ATTACH") (to_attach v));
  (lit "ATTENDEE", list_lines uri_line uri_shown (lit "ATTENDEE") (to_attendee v));
  (lit "CATEGORIES", list_lines text_line text_shown (lit "CATEGORIES") (to_categories v));
  (lit "COMMENT", list_lines text_line text_shown (lit "COMMENT") (to_comment v));
  (lit "CONTACT", list_lines text_line text_shown (lit "CONTACT") (to_contact v));
  (lit "EXDATE", list_lines date_line date_str (lit "EXDATE") (to_exdate v));
  (lit "RSTATUS", list_lines (plain_line rs_shown) rs_shown (lit "RSTATUS") (to_rstatus v));
  (lit "RELATED-TO", list_lines text_line text_shown (lit "RELATED-TO") (to_related_to v));
  (lit "RESOURCES", list_lines text_line text_shown (lit "RESOURCES") (to_resources v));
  (lit "RDATE", list_lines (plain_line rdate_show) rdate_show (lit "RDATE") (to_rdate v));
  (lit "X-PROP", ext_line (lit "X-PROP") (to_x_prop v));
  (lit "IANA-PROP", ext_line (lit "IANA-PROP") (to_iana_prop v))].
Lemma vtodo_grouped v : grouped (vtodo_groups v).
Proof. split; [apply distinct_NoDup; vm_compute; reflexivity|]. unfold vtodo_groups. one_groups. Qed.
Lemma vtodo_flat v : vtodo_written v = flat (vtodo_groups v).
Proof. unfold flat, vtodo_groups, vtodo_written. cbn [map snd concat]. now rewrite app_nil_r. Qed.
Lemma vtodo_returns_iff v w : vtodo_read (vtodo_written v) w <-> vtodo_returns v w.
Proof.
  rewrite vtodo_flat. unfold vtodo_read, vtodo_returns.
  apply and_iff; [apply seg_req; [apply vtodo_grouped|apply (nth_error_In _ 0); reflexivity]|].
  apply and_iff; [apply seg_req; [apply vtodo_grouped|apply (nth_error_In _ 1); reflexivity]|].
  apply and_iff; [apply seg_opt; [apply vtodo_grouped|apply (nth_error_In _ 2); reflexivity]|].
  apply and_iff; [apply seg_opt; [apply vtodo_grouped|apply (nth_error_In _ 3); reflexivity]|].
  apply and_iff; [apply seg_opt; [apply vtodo_grouped|apply (nth_error_In _ 4); reflexivity]|].
  apply and_iff; [apply seg_opt; [apply vtodo_grouped|apply (nth_error_In _ 5); reflexivity]|].
  apply and_iff; [apply seg_opt; [apply vtodo_grouped|apply (nth_error_In _ 6); reflexivity]|].
  apply and_iff; [apply seg_opt; [apply vtodo_grouped|apply (nth_error_In _ 7); reflexivity]|].
  apply and_iff; [apply seg_opt; [apply vtodo_grouped|apply (nth_error_In _ 8); reflexivity]|].
  apply and_iff; [apply seg_opt; [apply vtodo_grouped|apply (nth_error_In _ 9); reflexivity]|].
  apply and_iff; [apply seg_opt; [apply vtodo_grouped|apply (nth_error_In _ 10); reflexivity]|].
  apply and_iff; [apply seg_opt; [apply vtodo_grouped|apply (nth_error_In _ 11); reflexivity]|].
  apply and_iff; [apply seg_opt; [apply vtodo_grouped|apply (nth_error_In _ 12); reflexivity]|].
  apply and_iff; [apply seg_opt; [apply vtodo_grouped|apply (nth_error_In _ 13); reflexivity]|].
  apply and_iff; [apply seg_opt; [apply vtodo_grouped|apply (nth_error_In _ 14); reflexivity]|].
  apply and_iff; [apply seg_opt; [apply vtodo_grouped|apply (nth_error_In _ 15); reflexivity]|].
  apply and_iff; [apply seg_opt; [apply vtodo_grouped|apply (nth_error_In _ 16); reflexivity]|].
  apply and_iff; [apply seg_opt; [apply vtodo_grouped|apply (nth_error_In _ 17); reflexivity]|].
  apply and_iff; [apply seg_opt; [apply vtodo_grouped|apply (nth_error_In _ 18); reflexivity]|].
  apply and_iff; [apply seg_opt; [apply vtodo_grouped|apply (nth_error_In _ 19); reflexivity]|].
  apply and_iff; [apply seg_vec; [apply vtodo_grouped|apply (nth_error_In _ 20); reflexivity]|].
  apply and_iff; [apply seg_vec; [apply vtodo_grouped|apply (nth_error_In _ 21); reflexivity]|].
  apply and_iff; [apply seg_app; [apply vtodo_grouped|apply (nth_error_In _ 22); reflexivity]|].
  apply and_iff; [apply seg_vec; [apply vtodo_grouped|apply (nth_error_In _ 23); reflexivity]|].
  apply and_iff; [apply seg_vec; [apply vtodo_grouped|apply (nth_error_In _ 24); reflexivity]|].
  apply and_iff; [apply seg_app; [apply vtodo_grouped|apply (nth_error_In _ 25); reflexivity]|].
  apply and_iff; [apply seg_vec; [apply vtodo_grouped|apply (nth_error_In _ 26); reflexivity]|].
  apply and_iff; [apply seg_vec; [apply vtodo_grouped|apply (nth_error_In _ 27); reflexivity]|].
  apply and_iff; [apply seg_app; [apply vtodo_grouped|apply (nth_error_In _ 28); reflexivity]|].
  apply and_iff; [apply seg_vec; [apply vtodo_grouped|apply (nth_error_In _ 29); reflexivity]|].
  apply seg_ext; [apply vtodo_grouped|reflexivity|apply (nth_error_In _ 30); reflexivity|apply (nth_error_In _ 31); reflexivity].
Qed.
(** standard *)
Definition standard_groups (v : standard) : list group := [
  (lit "DTSTART", date_line (lit "DTSTART") (st_dtstart v));
  (lit "TZOFFSETTO", plain_line offset_show (lit "TZOFFSETTO") (st_tzoffsetto v));
  (lit "TZOFFSETFROM", plain_line offset_show (lit "TZOFFSETFROM") (st_tzoffsetfrom v));
  (lit "RRULE", opt_lines (plain_line rule_shown) (lit "RRULE") (st_rrule v));
  (lit "COMMENT", list_lines text_line text_shown (lit "COMMENT") (st_comment v));
  (lit "RDATE", list_lines (plain_line rdate_show) rdate_show (lit "RDATE") (st_rdate v));
  (lit "TZNAME", list_lines text_line text_shown (lit "TZNAME") (st_tzname v));
  (lit "X-PROP", ext_line (lit "X-PROP") (st_x_prop v));
  (lit "IANA-PROP", ext_line (lit "IANA-PROP") (st_iana_prop v))].
Lemma standard_grouped v : grouped (standard_groups v).
Proof. split; [apply distinct_NoDup; vm_compute; reflexivity|]. unfold standard_groups. one_groups. Qed.
Lemma standard_flat v : standard_written v = flat (standard_groups v).
Proof. unfold flat, standard_groups, standard_written. cbn [map snd concat]. now rewrite app_nil_r. Qed.
Lemma standard_returns_iff v w : standard_read (standard_written v) w <-> standard_returns v w.
Proof.
  rewrite standard_flat. unfold standard_read, standard_returns.
  apply and_iff; [apply seg_req; [apply standard_grouped|apply (nth_error_In _ 0); reflexivity]|].
  apply and_iff; [apply seg_req; [apply standard_grouped|apply (nth_error_In _ 1); reflexivity]|].
  apply and_iff; [apply seg_req; [apply standard_grouped|apply (nth_error_In _ 2); reflexivity]|].
  apply and_iff; [apply seg_opt; [apply standard_grouped|apply (nth_error_In _ 3); reflexivity]|].
  apply and_iff; [apply seg_vec; [apply standard_grouped|apply (nth_error_In _ 4); reflexivity]|].
  apply and_iff; [apply seg_vec; [apply standard_grouped|apply (nth_error_In _ 5); reflexivity]|].
  apply and_iff; [apply seg_vec; [apply standard_grouped|apply (nth_error_In _ 6); reflexivity]|].
  apply seg_ext; [apply standard_grouped|reflexivity|apply (nth_error_In _ 7); reflexivity|apply (nth_error_In _ 8); reflexivity].
Qed.
(** daylight *)
Definition daylight_groups (v : daylight) : list group := [
  (lit "DTSTART", date_line (lit "DTSTART") (dl_dtstart v));
  (lit "TZOFFSETTO", plain_line offset_show (lit "TZOFFSETTO") (dl_tzoffsetto v));
  (lit "TZOFFSETFROM", plain_line offset_show (lit "TZOFFSETFROM") (dl_tzoffsetfrom v));
  (lit "RRULE", opt_lines (plain_line rule_shown) (lit "RRULE") (dl_rrule v));
  (lit "COMMENT", list_lines text_line text_shown (lit "COMMENT") (dl_comment v));
  (lit "RDATE", list_lines (plain_line rdate_show) rdate_show (lit "RDATE") (dl_rdate v));
  (lit "TZNAME", list_lines text_line text_shown (lit "TZNAME") (dl_tzname v));
  (lit "X-PROP", ext_line (lit "X-PROP") (dl_x_prop v));
  (lit "IANA-PROP", ext_line (lit "IANA-PROP") (dl_iana_prop v))].
Lemma daylight_grouped v : grouped (daylight_groups v).
Proof. split; [apply distinct_NoDup; vm_compute; reflexivity|]. unfold daylight_groups. one_groups. Qed.
Lemma daylight_flat v : daylight_written v = flat (daylight_groups v).
Proof. unfold flat, daylight_groups, daylight_written. cbn [map snd concat]. now rewrite app_nil_r. Qed.
Lemma daylight_returns_iff v w : daylight_read (daylight_written v) w <-> daylight_returns v w.
Proof.
  rewrite daylight_flat. unfold daylight_read, daylight_returns.
  apply and_iff; [apply seg_req; [apply daylight_grouped|apply (nth_error_In _ 0); reflexivity]|].
  apply and_iff; [apply seg_req; [apply daylight_grouped|apply (nth_error_In _ 1); reflexivity]|].
  apply and_iff; [apply seg_req; [apply daylight_grouped|apply (nth_error_In _ 2); reflexivity]|].
  apply and_iff; [apply seg_opt; [apply daylight_grouped|apply (nth_error_In _ 3); reflexivity]|].
  apply and_iff; [apply seg_vec; [apply daylight_grouped|apply (nth_error_In _ 4); reflexivity]|].
  apply and_iff; [apply seg_vec; [apply daylight_grouped|apply (nth_error_In _ 5); reflexivity]|].
  apply and_iff; [apply seg_vec; [apply daylight_grouped|apply (nth_error_In _ 6); reflexivity]|].
  apply seg_ext; [apply daylight_grouped|reflexivity|apply (nth_error_In _ 7); reflexivity|apply (nth_error_In _ 8); reflexivity].
Qed.
(** vtimezone *)
Definition vtimezone_groups (v : vtimezone) : list group := [
  (lit "TZID", text_line (lit "TZID") (tz_tzid v));
  (lit "LAST-MODIFIED", opt_lines (plain_line dt_show) (lit "LAST-MODIFIED") (tz_last_modified v));
  (lit "TZURL", opt_lines uri_line (lit "TZURL") (tz_tzurl v));
  (lit "X-PROP", ext_line (lit "X-PROP") (tz_x_prop v));
  (lit "IANA-PROP", ext_line (lit "IANA-PROP") (tz_iana_prop v))].
Lemma vtimezone_grouped v : grouped (vtimezone_groups v).
Proof. split; [apply distinct_NoDup; vm_compute; reflexivity|]. unfold vtimezone_groups. one_groups. Qed.
Lemma vtimezone_flat v : vtimezone_written v = flat (vtimezone_groups v).
Proof. unfold flat, vtimezone_groups, vtimezone_written. cbn [map snd concat]. now rewrite app_nil_r. Qed.
Lemma vtimezone_returns_iff v w : vtimezone_read (vtimezone_written v) w <-> vtimezone_returns v w /\ tz_standard w = [] /\ tz_daylight w = [].
Proof.
  rewrite vtimezone_flat. transitivity (vtimezone_returns v w /\ tz_standard w = [] /\ tz_daylight w = []); [|tauto]. unfold vtimezone_read, vtimezone_returns.
  rewrite (seg_req parse_text (vtimezone_groups v) (lit "TZID") (text_line (lit "TZID") (tz_tzid v)) (tz_tzid w)); [|apply vtimezone_grouped|apply (nth_error_In _ 0); reflexivity].
  rewrite (seg_opt parse_datetime (vtimezone_groups v) (lit "LAST-MODIFIED") (opt_lines (plain_line dt_show) (lit "LAST-MODIFIED") (tz_last_modified v)) (tz_last_modified w)); [|apply vtimezone_grouped|apply (nth_error_In _ 1); reflexivity].
  rewrite (seg_opt parse_uri (vtimezone_groups v) (lit "TZURL") (opt_lines uri_line (lit "TZURL") (tz_tzurl v)) (tz_tzurl w)); [|apply vtimezone_grouped|apply (nth_error_In _ 2); reflexivity].
  rewrite (seg_ext SpecFields.vtimezone_names (vtimezone_groups v) (ext_line (lit "X-PROP") (tz_x_prop v)) (ext_line (lit "IANA-PROP") (tz_iana_prop v)) (tz_x_prop w) (tz_iana_prop w)); [|apply vtimezone_grouped|reflexivity|apply (nth_error_In _ 3); reflexivity|apply (nth_error_In _ 4); reflexivity].
  tauto.
Qed.
(** vcalendar *)
Definition vcalendar_groups (v : vcalendar) : list group := [
  (lit "PRODID", text_line (lit "PRODID") (ca_prodid v));
  (lit "VERSION", text_line (lit "VERSION") (ca_version v));
  (lit "CALSCALE", opt_lines text_line (lit "CALSCALE") (ca_calscale v));
  (lit "METHOD", opt_lines text_line (lit "METHOD") (ca_method v));
  (lit "X-PROP", ext_line (lit "X-PROP") (ca_x_prop v));
  (lit "IANA-PROP", ext_line (lit "IANA-PROP") (ca_iana_prop v))].
Lemma vcalendar_grouped v : grouped (vcalendar_groups v).
Proof. split; [apply distinct_NoDup; vm_compute; reflexivity|]. unfold vcalendar_groups. one_groups. Qed.
Lemma vcalendar_flat v : vcalendar_written v = flat (vcalendar_groups v).
Proof. unfold flat, vcalendar_groups, vcalendar_written. cbn [map snd concat]. now rewrite app_nil_r. Qed.
Lemma vcalendar_returns_iff v w : vcalendar_read (vcalendar_written v) w <-> vcalendar_returns v w /\ ca_alarms w = [] /\ ca_events w = [] /\ ca_freebusy w = [] /\ ca_journals w = [] /\ ca_todo w = [] /\ ca_timezones w = [].
Proof.
  rewrite vcalendar_flat. transitivity (vcalendar_returns v w /\ ca_alarms w = [] /\ ca_events w = [] /\ ca_freebusy w = [] /\ ca_journals w = [] /\ ca_todo w = [] /\ ca_timezones w = []); [|tauto]. unfold vcalendar_read, vcalendar_returns.
  rewrite (seg_req parse_text (vcalendar_groups v) (lit "PRODID") (text_line (lit "PRODID") (ca_prodid v)) (ca_prodid w)); [|apply vcalendar_grouped|apply (nth_error_In _ 0); reflexivity].
  rewrite (seg_req parse_text (vcalendar_groups v) (lit "VERSION") (text_line (lit "VERSION") (ca_version v)) (ca_version w)); [|apply vcalendar_grouped|apply (nth_error_In _ 1); reflexivity].
  rewrite (seg_opt parse_text (vcalendar_groups v) (lit "CALSCALE") (opt_lines text_line (lit "CALSCALE") (ca_calscale v)) (ca_calscale w)); [|apply vcalendar_grouped|apply (nth_error_In _ 2); reflexivity].
  rewrite (seg_opt parse_text (vcalendar_groups v) (lit "METHOD") (opt_lines text_line (lit "METHOD") (ca_method v)) (ca_method w)); [|apply vcalendar_grouped|apply (nth_error_In _ 3); reflexivity].
  rewrite (seg_ext SpecFields.vcalendar_names (vcalendar_groups v) (ext_line (lit "X-PROP") (ca_x_prop v)) (ext_line (lit "IANA-PROP") (ca_iana_prop v)) (ca_x_prop w) (ca_iana_prop w)); [|apply vcalendar_grouped|reflexivity|apply (nth_error_In _ 4); reflexivity|apply (nth_error_In _ 5); reflexivity].
  tauto.
Qed.
End Env.
