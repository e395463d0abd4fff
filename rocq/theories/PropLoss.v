(** * C55-C57: what writing a component and reading it back loses. *)
From Verif Require Import Base Env Chrono Nom Types Ser Parser Derive BaseFacts NomFacts SpecLine LineFacts SpecText SerFacts PropText PropLine
  SpecCal SpecDur PropVocab PropRule PropPeriod PropList Components SpecComp DeriveFacts SpecFields PropComp SpecFile PropFile SpecRound RoundFacts FrameFacts BackFacts FieldFacts ChildFacts CalFacts AlarmFacts PropRound SpecLoss LossFacts.

(** ** The statements, for one field *)
(** All the entries of an extension map end up in the value of a single line [n], and
    this is never the map that was written. *)
Definition ext_lost (n : str) (m m' : smap content_line) : Prop :=
  (m = [] -> m' = []) /\
  (m <> [] -> m' = [(n, mk_cl n [] (join [59] (map (fun kl => fst kl ++ [61] ++ escaped (cl_value (snd kl))) m)))] /\ m' <> m).
(** Several texts (or addresses) come back as a single one, without parameters. *)
Definition texts_collapse (l l' : list text) : Prop := (2 <= length l)%nat -> l' = [mk_text [] (join [44] (map text_shown l))].
Definition uris_collapse (l l' : list uri) : Prop := (2 <= length l)%nat -> l' = [mk_uri [] (join [44] (map uri_shown l))].
Definition entries_collapse {T} (l l' : list T) : Prop := (2 <= length l)%nat -> exists x, l' = [x].
(** An optional text without characters comes back as none, whatever its parameters. *)
Definition text_vanishes (o o' : option text) : Prop := forall t, o = Some t -> t_text t = [] -> o' = None.
Definition uri_vanishes (o o' : option uri) : Prop := forall u, o = Some u -> u_uri u = [] -> o' = None.
Definition entry_vanishes (l l' : list text) : Prop := forall t, l = [t] -> t_text t = [] -> l' = [].
Definition address_vanishes (l l' : list uri) : Prop := forall u, l = [u] -> u_uri u = [] -> l' = [].

Lemma escaped_length s : (length s <= length (escaped s))%nat.
Proof.
  unfold escaped. induction s as [|c s IH]; [auto|]. cbn [flat_map]. rewrite app_length. cbn [length].
  destruct (escaped_char_cases c) as [[-> Q]|[[-> Q]|[[-> Q]|(_ & _ & _ & Q)]]]; rewrite Q; cbn [length]; lia.
Qed.
Lemma ext_lost_of n m m' : back_ext (ext_line n m) m' -> ext_lost n m m'.
Proof.
  unfold back_ext, ext_line. intros ->. split.
  - intros ->. reflexivity.
  - intros Hm. destruct m as [|[k l] m]; [congruence|]. set (M := (k, l) :: m) in *.
    assert (J : exists r, join [59] (map (fun kl => fst kl ++ [61] ++ escaped (cl_value (snd kl))) M) = (k ++ [61] ++ escaped (cl_value l)) ++ r).
    { subst M. cbn [map fst snd]. destruct (map _ m) as [|b x]; cbn [join]; [exists []; now rewrite app_nil_r|eauto]. }
    destruct J as [r J].
    assert (N : join [59] (map (fun kl => fst kl ++ [61] ++ escaped (cl_value (snd kl))) M) <> []).
    { rewrite J. destruct k; discriminate. }
    rewrite line_nonempty by exact N. cbn [map]. split; [reflexivity|]. intros X.
    assert (Y : cl_value l = join [59] (map (fun kl => fst kl ++ [61] ++ escaped (cl_value (snd kl))) M)).
    { unfold M in X at 2. injection X as _ X _. rewrite <- X. reflexivity. }
    rewrite J in Y. apply (f_equal (@length Z)) in Y. rewrite !app_length in Y. cbn [length] in Y. pose proof (escaped_length (cl_value l)). lia.
Qed.
Lemma join2_nonempty {T} (show : T -> str) l : (2 <= length l)%nat -> join [44] (map show l) <> [].
Proof. destruct l as [|x [|y l]]; cbn [length]; try lia. intros _. cbn [map join]. destruct (show x); discriminate. Qed.
Lemma list2 {T} (one : str -> T -> list content_line) show n l : (2 <= length l)%nat -> list_lines one show n l = [mk_cl n [] (join [44] (map show l))].
Proof.
  intros H. pose proof (join2_nonempty show l H). destruct l as [|x [|y l]]; cbn [length] in *; try lia. cbn [list_lines]. now apply line_nonempty.
Qed.
Lemma vec_one {T} (p : content_line -> outcome T) c ws : back_vec p [c] ws -> exists x, ws = [x] /\ p c = Ok x.
Proof. intros H. inversion H as [|? x ? r A B]; subst. inv B. eauto. Qed.
Lemma texts_collapse_of n l ws : back_vec parse_text (list_lines text_line text_shown n l) ws -> texts_collapse l ws.
Proof. intros H L. rewrite list2 in H by auto. apply vec_one in H as (x & -> & P). now inv P. Qed.
Lemma uris_collapse_of n l ws : back_vec parse_uri (list_lines uri_line uri_shown n l) ws -> uris_collapse l ws.
Proof. intros H L. rewrite list2 in H by auto. apply vec_one in H as (x & -> & P). now inv P. Qed.
Lemma entries_collapse_of {T} (p : content_line -> outcome T) one show n l ws : back_vec p (list_lines one show n l) ws -> entries_collapse l ws.
Proof. intros H L. rewrite list2 in H by auto. apply vec_one in H as (x & -> & P). eauto. Qed.
Lemma empty_text_line n t : t_text t = [] -> text_line n t = [].
Proof. intros H. unfold text_line, text_shown. now rewrite H. Qed.
Lemma empty_uri_line n u : u_uri u = [] -> uri_line n u = [].
Proof. intros H. unfold uri_line, uri_shown. now rewrite H. Qed.
Lemma back_opt_nil {T} (p : content_line -> outcome T) o : back_opt p [] o -> o = None.
Proof. destruct o; auto. intros (l & X & _). discriminate. Qed.
Lemma text_vanishes_of p n o o' : back_opt p (opt_lines text_line n o) o' -> text_vanishes o o'.
Proof. intros H t -> Ht. cbn [opt_lines] in H. rewrite empty_text_line in H by auto. now apply back_opt_nil in H. Qed.
Lemma uri_vanishes_of p n o o' : back_opt p (opt_lines uri_line n o) o' -> uri_vanishes o o'.
Proof. intros H t -> Ht. cbn [opt_lines] in H. rewrite empty_uri_line in H by auto. now apply back_opt_nil in H. Qed.
Lemma entry_vanishes_of p n l l' : back_vec p (list_lines text_line text_shown n l) l' -> entry_vanishes l l'.
Proof. intros H t -> Ht. cbn [list_lines] in H. rewrite empty_text_line in H by auto. now inv H. Qed.
Lemma entry_vanishes_app p n l l' : back_app p (list_lines text_line text_shown n l) l' -> entry_vanishes l l'.
Proof. intros H t -> Ht. cbn [list_lines] in H. rewrite empty_text_line in H by auto. exact H. Qed.
Lemma address_vanishes_of p n l l' : back_vec p (list_lines uri_line uri_shown n l) l' -> address_vanishes l l'.
Proof. intros H t -> Ht. cbn [list_lines] in H. rewrite empty_uri_line in H by auto. now inv H. Qed.
Lemma required_empty {T} (p : content_line -> outcome T) n t w : t_text t = [] -> ~ back_req p (text_line n t) w.
Proof. intros H (l & X & _). rewrite empty_text_line in X by auto. discriminate. Qed.
Lemma F2_iff {X Y} (P Q : X -> Y -> Prop) : (forall x y, P x y <-> Q x y) -> forall a b, Forall2 P a b <-> Forall2 Q a b.
Proof. intros H a b. split; induction 1; constructor; auto; now apply H. Qed.
Section Env.
Context {E : Env}.
Lemma rdate_lost n l ws : back_vec parse_rdate (list_lines (plain_line rdate_show) rdate_show n l) ws -> l = [].
Proof.
  intros H. destruct l as [|x l]; auto. exfalso.
  assert (G : exists v, list_lines (plain_line rdate_show) rdate_show n (x :: l) = [mk_cl n [] v] /\ exists r, v = 86 :: 65 :: r).
  { assert (B : exists r, rdate_show x = 86 :: 65 :: r) by (destruct x; eexists; reflexivity). destruct B as [r B]. destruct l as [|y l].
    - exists (rdate_show x). cbn [list_lines]. unfold plain_line. rewrite line_nonempty by (rewrite B; discriminate). eauto.
    - rewrite list2 by (cbn; lia). eexists. split; [reflexivity|]. cbn [map join]. rewrite B. eexists. reflexivity. }
  destruct G as (v & G & r & ->). rewrite G in H. apply vec_one in H as (y & _ & P). unfold parse_rdate in P. cbn [cl_params cl_value mget] in P.
  assert (K : exists h t, split_on 44 (86 :: 65 :: r) = (86 :: 65 :: h) :: t).
  { cbn. destruct (split_on 44 r) as [|a b] eqn:Q; [now apply split_on_nonnil in Q|]. eauto. }
  destruct K as (h & t & K). rewrite K in P. cbn [ocollect] in P. rewrite date_or_dt_V in P by auto. discriminate.
Qed.

(** *** An alarm of kind AUDIO *)
Theorem C53_audio_field_by_field : forall v w out, audio_tidy v -> s_ical ser_valarm (AAudio v) = Ok out ->
  valarm_of_str out = Ok (AAudio w) <-> t_text (au_action v) <> [] /\ text_shown (au_action v) = lit "AUDIO" /\ audio_returns v w.
Proof.
  intros v w out T H. rewrite (C53_valarm_read_back (AAudio v) out (AAudio w) T H). cbn [valarm_written]. unfold valarm_read. setoid_rewrite audio_returns_iff.
  assert (G : forall rest, t_text (au_action v) <> [] -> text_line (lit "ACTION") (au_action v) ++ rest = mk_cl (lit "ACTION") (t_params (au_action v)) (text_shown (au_action v)) :: rest).
  { intros rest N. unfold text_line. rewrite line_nonempty; [reflexivity|]. unfold text_shown. pose proof (escaped_length (t_text (au_action v))). destruct (t_text (au_action v)); [congruence|]. intros X. rewrite X in *. cbn in *. lia. }
  split.
  - intros (l & F & V & R). assert (N : t_text (au_action v) <> []).
    { intros X. unfold audio_returns in R. destruct R as [R _]. exact (required_empty parse_text (lit "ACTION") _ _ X R). }
    split; auto. split; auto. destruct F as (a & b & Ef & K & Ab). unfold audio_written in Ef. rewrite G in Ef by auto.
    destruct a as [|c a]; cbn [app] in Ef; [injection Ef as Ef _; rewrite <- Ef in V; exact V|]. exfalso. injection Ef as Ef _. apply Forall_inv in Ab. apply Ab. now rewrite <- Ef.
  - intros (N & V & R). eexists. split; [unfold audio_written; rewrite G by auto; apply first_head; reflexivity|]. auto.
Qed.
Theorem C55_audio_extensions : forall v w out, audio_tidy v -> s_ical ser_valarm (AAudio v) = Ok out -> valarm_of_str out = Ok (AAudio w) ->
  ext_lost (lit "X-PROP") (au_x_prop v) (au_x_prop w) /\ ext_lost (lit "IANA-PROP") (au_iana_prop v) (au_iana_prop w).
Proof. intros v w out T H P. apply (C53_audio_field_by_field v w out T H) in P as (_ & _ & R). unfold audio_returns in R. destruct_all. split; apply ext_lost_of; assumption. Qed.
Theorem C56_audio_collapse : forall v w out, audio_tidy v -> s_ical ser_valarm (AAudio v) = Ok out -> valarm_of_str out = Ok (AAudio w) ->
  texts_collapse (au_attach v) (au_attach w).
Proof.
  intros v w out T H P. apply (C53_audio_field_by_field v w out T H) in P as (_ & _ & R). unfold audio_returns in R. destruct_all.

  eapply texts_collapse_of; eassumption.
Qed.
Theorem C57_audio_vanish : forall v w out, audio_tidy v -> s_ical ser_valarm (AAudio v) = Ok out -> valarm_of_str out = Ok (AAudio w) ->
  entry_vanishes (au_attach v) (au_attach w).
Proof.
  intros v w out T H P. apply (C53_audio_field_by_field v w out T H) in P as (_ & _ & R). unfold audio_returns in R. destruct_all.

  eapply entry_vanishes_of; eassumption.
Qed.
Theorem C57_audio_required : forall v out, audio_tidy v -> s_ical ser_valarm (AAudio v) = Ok out -> t_text (au_action v) = [] -> forall w, valarm_of_str out <> Ok (AAudio w).
Proof.
  intros v out T H N w P. apply (C53_audio_field_by_field v w out T H) in P as (_ & _ & R). unfold audio_returns in R. destruct_all.
  (eapply required_empty; [exact N|eassumption]).
Qed.
(** *** An alarm of kind DISPLAY *)
Theorem C53_display_field_by_field : forall v w out, display_tidy v -> s_ical ser_valarm (ADisplay v) = Ok out ->
  valarm_of_str out = Ok (ADisplay w) <-> t_text (di_action v) <> [] /\ text_shown (di_action v) = lit "DISPLAY" /\ display_returns v w.
Proof.
  intros v w out T H. rewrite (C53_valarm_read_back (ADisplay v) out (ADisplay w) T H). cbn [valarm_written]. unfold valarm_read. setoid_rewrite display_returns_iff.
  assert (G : forall rest, t_text (di_action v) <> [] -> text_line (lit "ACTION") (di_action v) ++ rest = mk_cl (lit "ACTION") (t_params (di_action v)) (text_shown (di_action v)) :: rest).
  { intros rest N. unfold text_line. rewrite line_nonempty; [reflexivity|]. unfold text_shown. pose proof (escaped_length (t_text (di_action v))). destruct (t_text (di_action v)); [congruence|]. intros X. rewrite X in *. cbn in *. lia. }
  split.
  - intros (l & F & V & R). assert (N : t_text (di_action v) <> []).
    { intros X. unfold display_returns in R. destruct R as [R _]. exact (required_empty parse_text (lit "ACTION") _ _ X R). }
    split; auto. split; auto. destruct F as (a & b & Ef & K & Ab). unfold display_written in Ef. rewrite G in Ef by auto.
    destruct a as [|c a]; cbn [app] in Ef; [injection Ef as Ef _; rewrite <- Ef in V; exact V|]. exfalso. injection Ef as Ef _. apply Forall_inv in Ab. apply Ab. now rewrite <- Ef.
  - intros (N & V & R). eexists. split; [unfold display_written; rewrite G by auto; apply first_head; reflexivity|]. auto.
Qed.
Theorem C55_display_extensions : forall v w out, display_tidy v -> s_ical ser_valarm (ADisplay v) = Ok out -> valarm_of_str out = Ok (ADisplay w) ->
  ext_lost (lit "X-PROP") (di_x_prop v) (di_x_prop w) /\ ext_lost (lit "IANA-PROP") (di_iana_prop v) (di_iana_prop w).
Proof. intros v w out T H P. apply (C53_display_field_by_field v w out T H) in P as (_ & _ & R). unfold display_returns in R. destruct_all. split; apply ext_lost_of; assumption. Qed.
Theorem C57_display_required : forall v out, display_tidy v -> s_ical ser_valarm (ADisplay v) = Ok out -> t_text (di_action v) = [] \/ t_text (di_description v) = [] -> forall w, valarm_of_str out <> Ok (ADisplay w).
Proof.
  intros v out T H N w P. apply (C53_display_field_by_field v w out T H) in P as (_ & _ & R). unfold display_returns in R. destruct_all.
  repeat (destruct N as [N|N]); (eapply required_empty; [exact N|eassumption]).
Qed.
(** *** An alarm of kind EMAIL *)
Theorem C53_email_field_by_field : forall v w out, email_tidy v -> s_ical ser_valarm (AEmail v) = Ok out ->
  valarm_of_str out = Ok (AEmail w) <-> t_text (em_action v) <> [] /\ text_shown (em_action v) = lit "EMAIL" /\ email_returns v w.
Proof.
  intros v w out T H. rewrite (C53_valarm_read_back (AEmail v) out (AEmail w) T H). cbn [valarm_written]. unfold valarm_read. setoid_rewrite email_returns_iff.
  assert (G : forall rest, t_text (em_action v) <> [] -> text_line (lit "ACTION") (em_action v) ++ rest = mk_cl (lit "ACTION") (t_params (em_action v)) (text_shown (em_action v)) :: rest).
  { intros rest N. unfold text_line. rewrite line_nonempty; [reflexivity|]. unfold text_shown. pose proof (escaped_length (t_text (em_action v))). destruct (t_text (em_action v)); [congruence|]. intros X. rewrite X in *. cbn in *. lia. }
  split.
  - intros (l & F & V & R). assert (N : t_text (em_action v) <> []).
    { intros X. unfold email_returns in R. destruct R as [R _]. exact (required_empty parse_text (lit "ACTION") _ _ X R). }
    split; auto. split; auto. destruct F as (a & b & Ef & K & Ab). unfold email_written in Ef. rewrite G in Ef by auto.
    destruct a as [|c a]; cbn [app] in Ef; [injection Ef as Ef _; rewrite <- Ef in V; exact V|]. exfalso. injection Ef as Ef _. apply Forall_inv in Ab. apply Ab. now rewrite <- Ef.
  - intros (N & V & R). eexists. split; [unfold email_written; rewrite G by auto; apply first_head; reflexivity|]. auto.
Qed.
Theorem C55_email_extensions : forall v w out, email_tidy v -> s_ical ser_valarm (AEmail v) = Ok out -> valarm_of_str out = Ok (AEmail w) ->
  ext_lost (lit "X-PROP") (em_x_prop v) (em_x_prop w) /\ ext_lost (lit "IANA-PROP") (em_iana_prop v) (em_iana_prop w).
Proof. intros v w out T H P. apply (C53_email_field_by_field v w out T H) in P as (_ & _ & R). unfold email_returns in R. destruct_all. split; apply ext_lost_of; assumption. Qed.
Theorem C56_email_collapse : forall v w out, email_tidy v -> s_ical ser_valarm (AEmail v) = Ok out -> valarm_of_str out = Ok (AEmail w) ->
  uris_collapse (em_attendee v) (em_attendee w) /\
  texts_collapse (em_attach v) (em_attach w).
Proof.
  intros v w out T H P. apply (C53_email_field_by_field v w out T H) in P as (_ & _ & R). unfold email_returns in R. destruct_all.
  split; [eapply uris_collapse_of; eassumption|].
  eapply texts_collapse_of; eassumption.
Qed.
Theorem C57_email_vanish : forall v w out, email_tidy v -> s_ical ser_valarm (AEmail v) = Ok out -> valarm_of_str out = Ok (AEmail w) ->
  address_vanishes (em_attendee v) (em_attendee w) /\
  entry_vanishes (em_attach v) (em_attach w).
Proof.
  intros v w out T H P. apply (C53_email_field_by_field v w out T H) in P as (_ & _ & R). unfold email_returns in R. destruct_all.
  split; [eapply address_vanishes_of; eassumption|].
  eapply entry_vanishes_of; eassumption.
Qed.
Theorem C57_email_required : forall v out, email_tidy v -> s_ical ser_valarm (AEmail v) = Ok out -> t_text (em_action v) = [] \/ t_text (em_description v) = [] \/ t_text (em_summary v) = [] -> forall w, valarm_of_str out <> Ok (AEmail w).
Proof.
  intros v out T H N w P. apply (C53_email_field_by_field v w out T H) in P as (_ & _ & R). unfold email_returns in R. destruct_all.
  repeat (destruct N as [N|N]); (eapply required_empty; [exact N|eassumption]).
Qed.
(** *** VEVENT *)
Theorem C53_vevent_field_by_field : forall v w out, vevent_tidy v -> s_ical ser_vevent v = Ok out -> vevent_of_str out = Ok w <-> vevent_returns v w.
Proof. intros v w out T H. rewrite (C53_vevent_read_back v out w T H). apply vevent_returns_iff. Qed.
Theorem C55_vevent_extensions : forall v w out, vevent_tidy v -> s_ical ser_vevent v = Ok out -> vevent_of_str out = Ok w ->
  ext_lost (lit "X-PROP") (ev_x_prop v) (ev_x_prop w) /\ ext_lost (lit "IANA-PROP") (ev_iana_prop v) (ev_iana_prop w).
Proof. intros v w out T H P. apply (C53_vevent_field_by_field v w out T H) in P as R. unfold vevent_returns in R. destruct_all. split; apply ext_lost_of; assumption. Qed.
Theorem C56_vevent_collapse : forall v w out, vevent_tidy v -> s_ical ser_vevent v = Ok out -> vevent_of_str out = Ok w ->
  texts_collapse (ev_attach v) (ev_attach w) /\
  uris_collapse (ev_attendee v) (ev_attendee w) /\
  texts_collapse (ev_comment v) (ev_comment w) /\
  texts_collapse (ev_contact v) (ev_contact w) /\
  entries_collapse (ev_rstatus v) (ev_rstatus w) /\
  texts_collapse (ev_related_to v) (ev_related_to w).
Proof.
  intros v w out T H P. apply (C53_vevent_field_by_field v w out T H) in P as R. unfold vevent_returns in R. destruct_all.
  split; [eapply texts_collapse_of; eassumption|].
  split; [eapply uris_collapse_of; eassumption|].
  split; [eapply texts_collapse_of; eassumption|].
  split; [eapply texts_collapse_of; eassumption|].
  split; [eapply entries_collapse_of; eassumption|].
  eapply texts_collapse_of; eassumption.
Qed.
Theorem C31_vevent_rdate_lost : forall v out, vevent_tidy v -> s_ical ser_vevent v = Ok out -> ev_rdate v <> [] -> forall w, vevent_of_str out <> Ok w.
Proof. intros v out T H N w P. apply (C53_vevent_field_by_field v w out T H) in P as R. unfold vevent_returns in R. destruct_all. apply N. eapply rdate_lost; eassumption. Qed.
Theorem C57_vevent_vanish : forall v w out, vevent_tidy v -> s_ical ser_vevent v = Ok out -> vevent_of_str out = Ok w ->
  text_vanishes (ev_description v) (ev_description w) /\
  text_vanishes (ev_location v) (ev_location w) /\
  uri_vanishes (ev_organizer v) (ev_organizer w) /\
  text_vanishes (ev_summary v) (ev_summary w) /\
  uri_vanishes (ev_url v) (ev_url w) /\
  entry_vanishes (ev_attach v) (ev_attach w) /\
  address_vanishes (ev_attendee v) (ev_attendee w) /\
  entry_vanishes (ev_categories v) (ev_categories w) /\
  entry_vanishes (ev_comment v) (ev_comment w) /\
  entry_vanishes (ev_contact v) (ev_contact w) /\
  entry_vanishes (ev_related_to v) (ev_related_to w) /\
  entry_vanishes (ev_resources v) (ev_resources w).
Proof.
  intros v w out T H P. apply (C53_vevent_field_by_field v w out T H) in P as R. unfold vevent_returns in R. destruct_all.
  split; [eapply text_vanishes_of; eassumption|].
  split; [eapply text_vanishes_of; eassumption|].
  split; [eapply uri_vanishes_of; eassumption|].
  split; [eapply text_vanishes_of; eassumption|].
  split; [eapply uri_vanishes_of; eassumption|].
  split; [eapply entry_vanishes_of; eassumption|].
  split; [eapply address_vanishes_of; eassumption|].
  split; [eapply entry_vanishes_app; eassumption|].
  split; [eapply entry_vanishes_of; eassumption|].
  split; [eapply entry_vanishes_of; eassumption|].
  split; [eapply entry_vanishes_of; eassumption|].
  eapply entry_vanishes_app; eassumption.
Qed.
Theorem C57_vevent_required : forall v out, vevent_tidy v -> s_ical ser_vevent v = Ok out -> t_text (ev_uid v) = [] -> forall w, vevent_of_str out <> Ok w.
Proof.
  intros v out T H N w P. apply (C53_vevent_field_by_field v w out T H) in P as R. unfold vevent_returns in R. destruct_all.
  (eapply required_empty; [exact N|eassumption]).
Qed.
(** *** VFREEBUSY *)
Theorem C53_vfreebusy_field_by_field : forall v w out, vfreebusy_tidy v -> s_ical ser_vfreebusy v = Ok out -> vfreebusy_of_str out = Ok w <-> vfreebusy_returns v w.
Proof. intros v w out T H. rewrite (C53_vfreebusy_read_back v out w T H). apply vfreebusy_returns_iff. Qed.
Theorem C55_vfreebusy_extensions : forall v w out, vfreebusy_tidy v -> s_ical ser_vfreebusy v = Ok out -> vfreebusy_of_str out = Ok w ->
  ext_lost (lit "X-PROP") (fb_x_prop v) (fb_x_prop w) /\ ext_lost (lit "IANA-PROP") (fb_iana_prop v) (fb_iana_prop w).
Proof. intros v w out T H P. apply (C53_vfreebusy_field_by_field v w out T H) in P as R. unfold vfreebusy_returns in R. destruct_all. split; apply ext_lost_of; assumption. Qed.
Theorem C56_vfreebusy_collapse : forall v w out, vfreebusy_tidy v -> s_ical ser_vfreebusy v = Ok out -> vfreebusy_of_str out = Ok w ->
  uris_collapse (fb_attendee v) (fb_attendee w) /\
  texts_collapse (fb_comment v) (fb_comment w) /\
  entries_collapse (fb_rstatus v) (fb_rstatus w).
Proof.
  intros v w out T H P. apply (C53_vfreebusy_field_by_field v w out T H) in P as R. unfold vfreebusy_returns in R. destruct_all.
  split; [eapply uris_collapse_of; eassumption|].
  split; [eapply texts_collapse_of; eassumption|].
  eapply entries_collapse_of; eassumption.
Qed.
Theorem C57_vfreebusy_vanish : forall v w out, vfreebusy_tidy v -> s_ical ser_vfreebusy v = Ok out -> vfreebusy_of_str out = Ok w ->
  text_vanishes (fb_contact v) (fb_contact w) /\
  uri_vanishes (fb_organizer v) (fb_organizer w) /\
  uri_vanishes (fb_url v) (fb_url w) /\
  address_vanishes (fb_attendee v) (fb_attendee w) /\
  entry_vanishes (fb_comment v) (fb_comment w).
Proof.
  intros v w out T H P. apply (C53_vfreebusy_field_by_field v w out T H) in P as R. unfold vfreebusy_returns in R. destruct_all.
  split; [eapply text_vanishes_of; eassumption|].
  split; [eapply uri_vanishes_of; eassumption|].
  split; [eapply uri_vanishes_of; eassumption|].
  split; [eapply address_vanishes_of; eassumption|].
  eapply entry_vanishes_of; eassumption.
Qed.
Theorem C57_vfreebusy_required : forall v out, vfreebusy_tidy v -> s_ical ser_vfreebusy v = Ok out -> t_text (fb_uid v) = [] -> forall w, vfreebusy_of_str out <> Ok w.
Proof.
  intros v out T H N w P. apply (C53_vfreebusy_field_by_field v w out T H) in P as R. unfold vfreebusy_returns in R. destruct_all.
  (eapply required_empty; [exact N|eassumption]).
Qed.
(** *** VJOURNAL *)
Theorem C53_vjournal_field_by_field : forall v w out, vjournal_tidy v -> s_ical ser_vjournal v = Ok out -> vjournal_of_str out = Ok w <-> vjournal_returns v w.
Proof. intros v w out T H. rewrite (C53_vjournal_read_back v out w T H). apply vjournal_returns_iff. Qed.
Theorem C55_vjournal_extensions : forall v w out, vjournal_tidy v -> s_ical ser_vjournal v = Ok out -> vjournal_of_str out = Ok w ->
  ext_lost (lit "X-PROP") (jo_x_prop v) (jo_x_prop w) /\ ext_lost (lit "IANA-PROP") (jo_iana_prop v) (jo_iana_prop w).
Proof. intros v w out T H P. apply (C53_vjournal_field_by_field v w out T H) in P as R. unfold vjournal_returns in R. destruct_all. split; apply ext_lost_of; assumption. Qed.
Theorem C56_vjournal_collapse : forall v w out, vjournal_tidy v -> s_ical ser_vjournal v = Ok out -> vjournal_of_str out = Ok w ->
  texts_collapse (jo_attach v) (jo_attach w) /\
  uris_collapse (jo_attendee v) (jo_attendee w) /\
  texts_collapse (jo_comment v) (jo_comment w) /\
  texts_collapse (jo_contact v) (jo_contact w) /\
  texts_collapse (jo_description v) (jo_description w) /\
  texts_collapse (jo_related_to v) (jo_related_to w) /\
  entries_collapse (jo_rstatus v) (jo_rstatus w).
Proof.
  intros v w out T H P. apply (C53_vjournal_field_by_field v w out T H) in P as R. unfold vjournal_returns in R. destruct_all.
  split; [eapply texts_collapse_of; eassumption|].
  split; [eapply uris_collapse_of; eassumption|].
  split; [eapply texts_collapse_of; eassumption|].
  split; [eapply texts_collapse_of; eassumption|].
  split; [eapply texts_collapse_of; eassumption|].
  split; [eapply texts_collapse_of; eassumption|].
  eapply entries_collapse_of; eassumption.
Qed.
Theorem C31_vjournal_rdate_lost : forall v out, vjournal_tidy v -> s_ical ser_vjournal v = Ok out -> jo_rdate v <> [] -> forall w, vjournal_of_str out <> Ok w.
Proof. intros v out T H N w P. apply (C53_vjournal_field_by_field v w out T H) in P as R. unfold vjournal_returns in R. destruct_all. apply N. eapply rdate_lost; eassumption. Qed.
Theorem C57_vjournal_vanish : forall v w out, vjournal_tidy v -> s_ical ser_vjournal v = Ok out -> vjournal_of_str out = Ok w ->
  uri_vanishes (jo_organizer v) (jo_organizer w) /\
  text_vanishes (jo_summary v) (jo_summary w) /\
  uri_vanishes (jo_url v) (jo_url w) /\
  entry_vanishes (jo_attach v) (jo_attach w) /\
  address_vanishes (jo_attendee v) (jo_attendee w) /\
  entry_vanishes (jo_categories v) (jo_categories w) /\
  entry_vanishes (jo_comment v) (jo_comment w) /\
  entry_vanishes (jo_contact v) (jo_contact w) /\
  entry_vanishes (jo_description v) (jo_description w) /\
  entry_vanishes (jo_related_to v) (jo_related_to w).
Proof.
  intros v w out T H P. apply (C53_vjournal_field_by_field v w out T H) in P as R. unfold vjournal_returns in R. destruct_all.
  split; [eapply uri_vanishes_of; eassumption|].
  split; [eapply text_vanishes_of; eassumption|].
  split; [eapply uri_vanishes_of; eassumption|].
  split; [eapply entry_vanishes_of; eassumption|].
  split; [eapply address_vanishes_of; eassumption|].
  split; [eapply entry_vanishes_app; eassumption|].
  split; [eapply entry_vanishes_of; eassumption|].
  split; [eapply entry_vanishes_of; eassumption|].
  split; [eapply entry_vanishes_of; eassumption|].
  eapply entry_vanishes_of; eassumption.
Qed.
Theorem C57_vjournal_required : forall v out, vjournal_tidy v -> s_ical ser_vjournal v = Ok out -> t_text (jo_uid v) = [] -> forall w, vjournal_of_str out <> Ok w.
Proof.
  intros v out T H N w P. apply (C53_vjournal_field_by_field v w out T H) in P as R. unfold vjournal_returns in R. destruct_all.
  (eapply required_empty; [exact N|eassumption]).
Qed.
(** *** VTODO *)
Theorem C53_vtodo_field_by_field : forall v w out, vtodo_tidy v -> s_ical ser_vtodo v = Ok out -> vtodo_of_str out = Ok w <-> vtodo_returns v w.
Proof. intros v w out T H. rewrite (C53_vtodo_read_back v out w T H). apply vtodo_returns_iff. Qed.
Theorem C55_vtodo_extensions : forall v w out, vtodo_tidy v -> s_ical ser_vtodo v = Ok out -> vtodo_of_str out = Ok w ->
  ext_lost (lit "X-PROP") (to_x_prop v) (to_x_prop w) /\ ext_lost (lit "IANA-PROP") (to_iana_prop v) (to_iana_prop w).
Proof. intros v w out T H P. apply (C53_vtodo_field_by_field v w out T H) in P as R. unfold vtodo_returns in R. destruct_all. split; apply ext_lost_of; assumption. Qed.
Theorem C56_vtodo_collapse : forall v w out, vtodo_tidy v -> s_ical ser_vtodo v = Ok out -> vtodo_of_str out = Ok w ->
  texts_collapse (to_attach v) (to_attach w) /\
  uris_collapse (to_attendee v) (to_attendee w) /\
  texts_collapse (to_comment v) (to_comment w) /\
  texts_collapse (to_contact v) (to_contact w) /\
  entries_collapse (to_rstatus v) (to_rstatus w) /\
  texts_collapse (to_related_to v) (to_related_to w).
Proof.
  intros v w out T H P. apply (C53_vtodo_field_by_field v w out T H) in P as R. unfold vtodo_returns in R. destruct_all.
  split; [eapply texts_collapse_of; eassumption|].
  split; [eapply uris_collapse_of; eassumption|].
  split; [eapply texts_collapse_of; eassumption|].
  split; [eapply texts_collapse_of; eassumption|].
  split; [eapply entries_collapse_of; eassumption|].
  eapply texts_collapse_of; eassumption.
Qed.
Theorem C31_vtodo_rdate_lost : forall v out, vtodo_tidy v -> s_ical ser_vtodo v = Ok out -> to_rdate v <> [] -> forall w, vtodo_of_str out <> Ok w.
Proof. intros v out T H N w P. apply (C53_vtodo_field_by_field v w out T H) in P as R. unfold vtodo_returns in R. destruct_all. apply N. eapply rdate_lost; eassumption. Qed.
Theorem C57_vtodo_vanish : forall v w out, vtodo_tidy v -> s_ical ser_vtodo v = Ok out -> vtodo_of_str out = Ok w ->
  text_vanishes (to_location v) (to_location w) /\
  uri_vanishes (to_organizer v) (to_organizer w) /\
  text_vanishes (to_summary v) (to_summary w) /\
  uri_vanishes (to_url v) (to_url w) /\
  entry_vanishes (to_attach v) (to_attach w) /\
  address_vanishes (to_attendee v) (to_attendee w) /\
  entry_vanishes (to_categories v) (to_categories w) /\
  entry_vanishes (to_comment v) (to_comment w) /\
  entry_vanishes (to_contact v) (to_contact w) /\
  entry_vanishes (to_related_to v) (to_related_to w) /\
  entry_vanishes (to_resources v) (to_resources w).
Proof.
  intros v w out T H P. apply (C53_vtodo_field_by_field v w out T H) in P as R. unfold vtodo_returns in R. destruct_all.
  split; [eapply text_vanishes_of; eassumption|].
  split; [eapply uri_vanishes_of; eassumption|].
  split; [eapply text_vanishes_of; eassumption|].
  split; [eapply uri_vanishes_of; eassumption|].
  split; [eapply entry_vanishes_of; eassumption|].
  split; [eapply address_vanishes_of; eassumption|].
  split; [eapply entry_vanishes_app; eassumption|].
  split; [eapply entry_vanishes_of; eassumption|].
  split; [eapply entry_vanishes_of; eassumption|].
  split; [eapply entry_vanishes_of; eassumption|].
  eapply entry_vanishes_app; eassumption.
Qed.
Theorem C57_vtodo_required : forall v out, vtodo_tidy v -> s_ical ser_vtodo v = Ok out -> t_text (to_uid v) = [] -> forall w, vtodo_of_str out <> Ok w.
Proof.
  intros v out T H N w P. apply (C53_vtodo_field_by_field v w out T H) in P as R. unfold vtodo_returns in R. destruct_all.
  (eapply required_empty; [exact N|eassumption]).
Qed.
(** *** STANDARD *)
Theorem C53_standard_field_by_field : forall v w out, standard_tidy v -> s_ical ser_standard v = Ok out -> standard_of_str out = Ok w <-> standard_returns v w.
Proof. intros v w out T H. rewrite (C53_standard_read_back v out w T H). apply standard_returns_iff. Qed.
Theorem C55_standard_extensions : forall v w out, standard_tidy v -> s_ical ser_standard v = Ok out -> standard_of_str out = Ok w ->
  ext_lost (lit "X-PROP") (st_x_prop v) (st_x_prop w) /\ ext_lost (lit "IANA-PROP") (st_iana_prop v) (st_iana_prop w).
Proof. intros v w out T H P. apply (C53_standard_field_by_field v w out T H) in P as R. unfold standard_returns in R. destruct_all. split; apply ext_lost_of; assumption. Qed.
Theorem C56_standard_collapse : forall v w out, standard_tidy v -> s_ical ser_standard v = Ok out -> standard_of_str out = Ok w ->
  texts_collapse (st_comment v) (st_comment w) /\
  texts_collapse (st_tzname v) (st_tzname w).
Proof.
  intros v w out T H P. apply (C53_standard_field_by_field v w out T H) in P as R. unfold standard_returns in R. destruct_all.
  split; [eapply texts_collapse_of; eassumption|].
  eapply texts_collapse_of; eassumption.
Qed.
Theorem C31_standard_rdate_lost : forall v out, standard_tidy v -> s_ical ser_standard v = Ok out -> st_rdate v <> [] -> forall w, standard_of_str out <> Ok w.
Proof. intros v out T H N w P. apply (C53_standard_field_by_field v w out T H) in P as R. unfold standard_returns in R. destruct_all. apply N. eapply rdate_lost; eassumption. Qed.
Theorem C57_standard_vanish : forall v w out, standard_tidy v -> s_ical ser_standard v = Ok out -> standard_of_str out = Ok w ->
  entry_vanishes (st_comment v) (st_comment w) /\
  entry_vanishes (st_tzname v) (st_tzname w).
Proof.
  intros v w out T H P. apply (C53_standard_field_by_field v w out T H) in P as R. unfold standard_returns in R. destruct_all.
  split; [eapply entry_vanishes_of; eassumption|].
  eapply entry_vanishes_of; eassumption.
Qed.
(** *** DAYLIGHT *)
Theorem C53_daylight_field_by_field : forall v w out, daylight_tidy v -> s_ical ser_daylight v = Ok out -> daylight_of_str out = Ok w <-> daylight_returns v w.
Proof. intros v w out T H. rewrite (C53_daylight_read_back v out w T H). apply daylight_returns_iff. Qed.
Theorem C55_daylight_extensions : forall v w out, daylight_tidy v -> s_ical ser_daylight v = Ok out -> daylight_of_str out = Ok w ->
  ext_lost (lit "X-PROP") (dl_x_prop v) (dl_x_prop w) /\ ext_lost (lit "IANA-PROP") (dl_iana_prop v) (dl_iana_prop w).
Proof. intros v w out T H P. apply (C53_daylight_field_by_field v w out T H) in P as R. unfold daylight_returns in R. destruct_all. split; apply ext_lost_of; assumption. Qed.
Theorem C56_daylight_collapse : forall v w out, daylight_tidy v -> s_ical ser_daylight v = Ok out -> daylight_of_str out = Ok w ->
  texts_collapse (dl_comment v) (dl_comment w) /\
  texts_collapse (dl_tzname v) (dl_tzname w).
Proof.
  intros v w out T H P. apply (C53_daylight_field_by_field v w out T H) in P as R. unfold daylight_returns in R. destruct_all.
  split; [eapply texts_collapse_of; eassumption|].
  eapply texts_collapse_of; eassumption.
Qed.
Theorem C31_daylight_rdate_lost : forall v out, daylight_tidy v -> s_ical ser_daylight v = Ok out -> dl_rdate v <> [] -> forall w, daylight_of_str out <> Ok w.
Proof. intros v out T H N w P. apply (C53_daylight_field_by_field v w out T H) in P as R. unfold daylight_returns in R. destruct_all. apply N. eapply rdate_lost; eassumption. Qed.
Theorem C57_daylight_vanish : forall v w out, daylight_tidy v -> s_ical ser_daylight v = Ok out -> daylight_of_str out = Ok w ->
  entry_vanishes (dl_comment v) (dl_comment w) /\
  entry_vanishes (dl_tzname v) (dl_tzname w).
Proof.
  intros v w out T H P. apply (C53_daylight_field_by_field v w out T H) in P as R. unfold daylight_returns in R. destruct_all.
  split; [eapply entry_vanishes_of; eassumption|].
  eapply entry_vanishes_of; eassumption.
Qed.
(** *** VTIMEZONE *)
Theorem C53_vtimezone_field_by_field : forall v w out, vtimezone_fit v -> s_ical ser_vtimezone v = Ok out ->
  vtimezone_of_str out = Ok w <-> vtimezone_returns v w /\ Forall2 standard_returns (tz_standard v) (tz_standard w) /\ Forall2 daylight_returns (tz_daylight v) (tz_daylight w).
Proof.
  intros v w out T H. rewrite (C53_vtimezone_read_back v out w T H). unfold vtimezone_back. rewrite vtimezone_returns_iff.
  rewrite (F2_iff _ _ standard_returns_iff), (F2_iff _ _ daylight_returns_iff). unfold vtimezone_returns. cbn [set_tz_daylight set_tz_standard tz_tzid tz_last_modified tz_tzurl tz_standard tz_daylight tz_x_prop tz_iana_prop]. tauto.
Qed.
Theorem C55_vtimezone_extensions : forall v w out, vtimezone_fit v -> s_ical ser_vtimezone v = Ok out -> vtimezone_of_str out = Ok w ->
  ext_lost (lit "X-PROP") (tz_x_prop v) (tz_x_prop w) /\ ext_lost (lit "IANA-PROP") (tz_iana_prop v) (tz_iana_prop w).
Proof. intros v w out T H P. apply (C53_vtimezone_field_by_field v w out T H) in P as (R & _). unfold vtimezone_returns in R. destruct_all. split; apply ext_lost_of; assumption. Qed.
Theorem C57_vtimezone_vanish : forall v w out, vtimezone_fit v -> s_ical ser_vtimezone v = Ok out -> vtimezone_of_str out = Ok w ->
  uri_vanishes (tz_tzurl v) (tz_tzurl w).
Proof.
  intros v w out T H P. apply (C53_vtimezone_field_by_field v w out T H) in P as (R & _). unfold vtimezone_returns in R. destruct_all.

  eapply uri_vanishes_of; eassumption.
Qed.
Theorem C57_vtimezone_required : forall v out, vtimezone_fit v -> s_ical ser_vtimezone v = Ok out -> t_text (tz_tzid v) = [] -> forall w, vtimezone_of_str out <> Ok w.
Proof.
  intros v out T H N w P. apply (C53_vtimezone_field_by_field v w out T H) in P as (R & _). unfold vtimezone_returns in R. destruct_all.
  (eapply required_empty; [exact N|eassumption]).
Qed.
(** *** VCALENDAR *)
Definition timezone_returns (v w : vtimezone) : Prop :=
  vtimezone_returns v w /\ Forall2 standard_returns (tz_standard v) (tz_standard w) /\ Forall2 daylight_returns (tz_daylight v) (tz_daylight w).
Lemma timezone_returns_iff v w : vtimezone_back v w <-> timezone_returns v w.
Proof.
  unfold vtimezone_back, timezone_returns. rewrite vtimezone_returns_iff.
  rewrite (F2_iff _ _ standard_returns_iff), (F2_iff _ _ daylight_returns_iff). unfold vtimezone_returns. cbn [set_tz_daylight set_tz_standard tz_tzid tz_last_modified tz_tzurl tz_standard tz_daylight tz_x_prop tz_iana_prop]. tauto.
Qed.
Theorem C53_vcalendar_field_by_field : forall v w out, vcalendar_fit v -> s_ical ser_vcalendar v = Ok out ->
  vcalendar_of_str out = Ok w <-> vcalendar_returns v w /\ ca_alarms w = [] /\ Forall2 vevent_returns (ca_events v) (ca_events w) /\
    Forall2 vfreebusy_returns (ca_freebusy v) (ca_freebusy w) /\ Forall2 vjournal_returns (ca_journals v) (ca_journals w) /\
    Forall2 vtodo_returns (ca_todo v) (ca_todo w) /\ Forall2 timezone_returns (ca_timezones v) (ca_timezones w).
Proof.
  intros v w out T H. rewrite (C53_vcalendar_read_back v out w T H). unfold vcalendar_back. rewrite vcalendar_returns_iff.
  rewrite (F2_iff _ _ vevent_returns_iff), (F2_iff _ _ vfreebusy_returns_iff), (F2_iff _ _ vjournal_returns_iff), (F2_iff _ _ vtodo_returns_iff), (F2_iff _ _ timezone_returns_iff).
  unfold vcalendar_returns. cbn [ca_prodid ca_version ca_calscale ca_method ca_alarms ca_events ca_freebusy ca_journals ca_todo ca_timezones ca_x_prop ca_iana_prop]. tauto.
Qed.
Theorem C55_vcalendar_extensions : forall v w out, vcalendar_fit v -> s_ical ser_vcalendar v = Ok out -> vcalendar_of_str out = Ok w ->
  ext_lost (lit "X-PROP") (ca_x_prop v) (ca_x_prop w) /\ ext_lost (lit "IANA-PROP") (ca_iana_prop v) (ca_iana_prop w).
Proof. intros v w out T H P. apply (C53_vcalendar_field_by_field v w out T H) in P as (R & _). unfold vcalendar_returns in R. destruct_all. split; apply ext_lost_of; assumption. Qed.
Theorem C57_vcalendar_vanish : forall v w out, vcalendar_fit v -> s_ical ser_vcalendar v = Ok out -> vcalendar_of_str out = Ok w ->
  text_vanishes (ca_calscale v) (ca_calscale w) /\
  text_vanishes (ca_method v) (ca_method w).
Proof.
  intros v w out T H P. apply (C53_vcalendar_field_by_field v w out T H) in P as (R & _). unfold vcalendar_returns in R. destruct_all.
  split; [eapply text_vanishes_of; eassumption|].
  eapply text_vanishes_of; eassumption.
Qed.
Theorem C57_vcalendar_required : forall v out, vcalendar_fit v -> s_ical ser_vcalendar v = Ok out -> t_text (ca_prodid v) = [] \/ t_text (ca_version v) = [] -> forall w, vcalendar_of_str out <> Ok w.
Proof.
  intros v out T H N w P. apply (C53_vcalendar_field_by_field v w out T H) in P as (R & _). unfold vcalendar_returns in R. destruct_all.
  repeat (destruct N as [N|N]); (eapply required_empty; [exact N|eassumption]).
Qed.
End Env.
