(** * Any number of generations *)
From Verif Require Import Base Env Chrono Nom Types Ser Parser Derive Components SpecComp SpecFields SpecRound SpecLoss SpecCrowd LossFacts PropLoss PropRound PropCrowd SpecHistory SpecAfter HistFacts HistStep HistLists PropTidy.

Section Env.
Context {E : Env}.
Ltac split_and := repeat match goal with H : _ /\ _ |- _ => destruct H end.
Ltac one_more := match goal with
  | |- text_after _ _ _ => eapply text_trans
  | |- datetime_after _ _ _ => eapply datetime_trans
  | |- date_after _ _ _ => eapply date_trans
  | |- trigger_after _ _ _ => eapply trigger_trans
  | |- offset_after _ _ _ => eapply offset_trans
  | |- maybe text_shown _ _ _ => eapply textopt_trans
  | |- maybe uri_shown _ _ _ => eapply uriopt_trans
  | |- maybe class_show _ _ _ => eapply classopt_trans
  | |- kept (datetime_after _) _ _ => eapply kept_trans; [apply datetime_trans|..]
  | |- kept (date_after _) _ _ => eapply kept_trans; [apply date_trans|..]
  | |- kept (duration_after _) _ _ => eapply kept_trans; [apply duration_trans|..]
  | |- kept (rule_after _) _ _ => eapply kept_trans; [apply rule_trans|..]
  | |- kept (geo_after _) _ _ => eapply kept_trans; [apply geo_trans|..]
  | |- texts_after _ _ _ => eapply texts_trans
  | |- uris_after _ _ _ => eapply uris_trans
  | |- rstatus_after _ _ _ => eapply rstatus_trans
  | |- names_after _ _ _ => eapply names_trans
  | |- Forall2 (date_after _) _ _ => eapply list_trans; [apply date_trans|..]
  | |- Forall2 (period_after _) _ _ => eapply list_trans; [apply period_trans|..]
  | |- ext_after _ _ _ _ => eapply ext_trans
  | |- _ = _ => idtac
  end.
Ltac first_one := match goal with
  | |- text_after _ _ _ => eapply text_req; eassumption
  | |- datetime_after _ _ _ => eapply datetime_req; eassumption
  | |- date_after _ _ _ => eapply date_req; eassumption
  | |- trigger_after _ _ _ => eapply trigger_req; eassumption
  | |- offset_after _ _ _ => eapply offset_req; eassumption
  | |- maybe text_shown _ _ _ => eapply text_opt; eassumption
  | |- maybe uri_shown _ _ _ => eapply uri_opt; eassumption
  | |- maybe class_show _ _ _ => eapply class_opt; eassumption
  | |- kept (datetime_after _) _ _ => eapply datetime_opt; eassumption
  | |- kept (date_after _) _ _ => eapply date_opt; eassumption
  | |- kept (duration_after _) _ _ => eapply dur_opt; eassumption
  | |- kept (rule_after _) _ _ => eapply rule_opt; eassumption
  | |- kept (geo_after _) _ _ => eapply geo_opt; eassumption
  | |- texts_after _ _ _ => eapply texts_step; eassumption
  | |- uris_after _ _ _ => eapply uris_step; eassumption
  | |- rstatus_after _ _ _ => eapply rstatus_vec; eassumption
  | |- names_after _ _ _ => eapply names_step; eassumption
  | |- Forall2 (date_after _) _ _ => eapply exdate_step; eassumption
  | |- Forall2 (period_after _) _ _ => eapply freebusy_step; eassumption
  | |- ext_after _ _ _ _ => eapply ext_step; eassumption
  | H : back_opt parse_u32 _ ?w |- ?w = _ => eapply u32_opt; exact H
  | H : back_opt parse_percent _ ?w |- ?w = _ => eapply percent_opt; exact H
  | H : back_opt parse_priority _ ?w |- ?w = _ => eapply priority_opt; exact H
  | H : back_opt parse_status _ ?w |- ?w = _ => eapply status_opt; exact H
  | H : back_opt parse_transp _ ?w |- ?w = _ => eapply transp_opt; exact H
  | H : back_vec parse_rdate _ ?w |- ?w = [] => exact (proj2 (rdate_vec _ _ _ H))
  | H : back_vec parse_rdate (list_lines _ _ _ ?l) ?w |- ?l = [] => exact (rdate_lost _ _ _ H)
  | |- _ => assumption
  end.
Lemma audio_first v w : audio_tidy v -> audio_returns v w -> audio_after 1 v w.
Proof.
  intros T R. unfold audio_tidy in T. unfold audio_returns in R. unfold audio_after. split_and. repeat match goal with |- _ /\ _ => split end; first_one.
Qed.
Lemma audio_more n x y z : sane_env -> (1 <= n)%nat -> audio_after n x y -> audio_after 1 y z -> audio_after (S n) x z.
Proof.
  intros SE L A B. unfold audio_after in *. split_and. repeat match goal with |- _ /\ _ => split end; one_more; try eassumption; try congruence.
Qed.
Lemma display_first v w : display_tidy v -> display_returns v w -> display_after 1 v w.
Proof.
  intros T R. unfold display_tidy in T. unfold display_returns in R. unfold display_after. split_and. repeat match goal with |- _ /\ _ => split end; first_one.
Qed.
Lemma display_more n x y z : sane_env -> (1 <= n)%nat -> display_after n x y -> display_after 1 y z -> display_after (S n) x z.
Proof.
  intros SE L A B. unfold display_after in *. split_and. repeat match goal with |- _ /\ _ => split end; one_more; try eassumption; try congruence.
Qed.
Lemma email_first v w : email_tidy v -> email_returns v w -> email_after 1 v w.
Proof.
  intros T R. unfold email_tidy in T. unfold email_returns in R. unfold email_after. split_and. repeat match goal with |- _ /\ _ => split end; first_one.
Qed.
Lemma email_more n x y z : sane_env -> (1 <= n)%nat -> email_after n x y -> email_after 1 y z -> email_after (S n) x z.
Proof.
  intros SE L A B. unfold email_after in *. split_and. repeat match goal with |- _ /\ _ => split end; one_more; try eassumption; try congruence.
Qed.
Lemma vevent_first v w : vevent_tidy v -> vevent_returns v w -> vevent_after 1 v w.
Proof.
  intros T R. unfold vevent_tidy in T. unfold vevent_returns in R. unfold vevent_after. split_and. repeat match goal with |- _ /\ _ => split end; first_one.
Qed.
Lemma vevent_more n x y z : sane_env -> (1 <= n)%nat -> vevent_after n x y -> vevent_after 1 y z -> vevent_after (S n) x z.
Proof.
  intros SE L A B. unfold vevent_after in *. split_and. repeat match goal with |- _ /\ _ => split end; one_more; try eassumption; try congruence.
Qed.
Lemma vfreebusy_first v w : vfreebusy_tidy v -> vfreebusy_returns v w -> vfreebusy_after 1 v w.
Proof.
  intros T R. unfold vfreebusy_tidy in T. unfold vfreebusy_returns in R. unfold vfreebusy_after. split_and. repeat match goal with |- _ /\ _ => split end; first_one.
Qed.
Lemma vfreebusy_more n x y z : sane_env -> (1 <= n)%nat -> vfreebusy_after n x y -> vfreebusy_after 1 y z -> vfreebusy_after (S n) x z.
Proof.
  intros SE L A B. unfold vfreebusy_after in *. split_and. repeat match goal with |- _ /\ _ => split end; one_more; try eassumption; try congruence.
Qed.
Lemma vjournal_first v w : vjournal_tidy v -> vjournal_returns v w -> vjournal_after 1 v w.
Proof.
  intros T R. unfold vjournal_tidy in T. unfold vjournal_returns in R. unfold vjournal_after. split_and. repeat match goal with |- _ /\ _ => split end; first_one.
Qed.
Lemma vjournal_more n x y z : sane_env -> (1 <= n)%nat -> vjournal_after n x y -> vjournal_after 1 y z -> vjournal_after (S n) x z.
Proof.
  intros SE L A B. unfold vjournal_after in *. split_and. repeat match goal with |- _ /\ _ => split end; one_more; try eassumption; try congruence.
Qed.
Lemma vtodo_first v w : vtodo_tidy v -> vtodo_returns v w -> vtodo_after 1 v w.
Proof.
  intros T R. unfold vtodo_tidy in T. unfold vtodo_returns in R. unfold vtodo_after. split_and. repeat match goal with |- _ /\ _ => split end; first_one.
Qed.
Lemma vtodo_more n x y z : sane_env -> (1 <= n)%nat -> vtodo_after n x y -> vtodo_after 1 y z -> vtodo_after (S n) x z.
Proof.
  intros SE L A B. unfold vtodo_after in *. split_and. repeat match goal with |- _ /\ _ => split end; one_more; try eassumption; try congruence.
Qed.
Lemma standard_first v w : standard_tidy v -> standard_returns v w -> standard_after 1 v w.
Proof.
  intros T R. unfold standard_tidy in T. unfold standard_returns in R. unfold standard_after. split_and. repeat match goal with |- _ /\ _ => split end; first_one.
Qed.
Lemma standard_more n x y z : sane_env -> (1 <= n)%nat -> standard_after n x y -> standard_after 1 y z -> standard_after (S n) x z.
Proof.
  intros SE L A B. unfold standard_after in *. split_and. repeat match goal with |- _ /\ _ => split end; one_more; try eassumption; try congruence.
Qed.
Lemma daylight_first v w : daylight_tidy v -> daylight_returns v w -> daylight_after 1 v w.
Proof.
  intros T R. unfold daylight_tidy in T. unfold daylight_returns in R. unfold daylight_after. split_and. repeat match goal with |- _ /\ _ => split end; first_one.
Qed.
Lemma daylight_more n x y z : sane_env -> (1 <= n)%nat -> daylight_after n x y -> daylight_after 1 y z -> daylight_after (S n) x z.
Proof.
  intros SE L A B. unfold daylight_after in *. split_and. repeat match goal with |- _ /\ _ => split end; one_more; try eassumption; try congruence.
Qed.
Lemma vtimezone_first v w : vtimezone_tidy v -> vtimezone_returns v w -> vtimezone_after 1 v w.
Proof.
  intros T R. unfold vtimezone_tidy in T. unfold vtimezone_returns in R. unfold vtimezone_after. split_and. repeat match goal with |- _ /\ _ => split end; first_one.
Qed.
Lemma vtimezone_more n x y z : sane_env -> (1 <= n)%nat -> vtimezone_after n x y -> vtimezone_after 1 y z -> vtimezone_after (S n) x z.
Proof.
  intros SE L A B. unfold vtimezone_after in *. split_and. repeat match goal with |- _ /\ _ => split end; one_more; try eassumption; try congruence.
Qed.
Lemma vcalendar_first v w : vcalendar_tidy v -> vcalendar_returns v w -> vcalendar_after 1 v w.
Proof.
  intros T R. unfold vcalendar_tidy in T. unfold vcalendar_returns in R. unfold vcalendar_after. split_and. repeat match goal with |- _ /\ _ => split end; first_one.
Qed.
Lemma vcalendar_more n x y z : sane_env -> (1 <= n)%nat -> vcalendar_after n x y -> vcalendar_after 1 y z -> vcalendar_after (S n) x z.
Proof.
  intros SE L A B. unfold vcalendar_after in *. split_and. repeat match goal with |- _ /\ _ => split end; one_more; try eassumption; try congruence.
Qed.

Lemma grow {T} (save : T -> outcome str) load (tidy : T -> Prop) (after : nat -> T -> T -> Prop) :
  (forall v out w, tidy v -> save v = Ok out -> load out = Ok w -> tidy w) ->
  (forall v out w, tidy v -> save v = Ok out -> load out = Ok w -> after 1%nat v w) ->
  (forall n x y z, (1 <= n)%nat -> after n x y -> after 1%nat y z -> after (S n) x z) ->
  forall n v w, tidy v -> generations save load (S n) v w -> after (S n) v w.
Proof.
  intros K F M n v w. remember (S n) as k eqn:Q. intros Td G. revert n Q. induction G as [v|k v w x out G IH S' L]; intros n Q; [discriminate|]. injection Q as ->.
  assert (Tw : tidy w) by (clear IH S' L; induction G; eauto).
  destruct n as [|n]; [inversion G; subst; eauto|]. apply M with w; [lia| |eauto]. eapply IH; eauto.
Qed.
Theorem C86_todo : sane_env -> forall n v w, vtodo_tidy v -> generations (s_ical ser_vtodo) vtodo_of_str (S n) v w -> vtodo_after (S n) v w.
Proof.
  intros SE n v w. apply grow with (after := vtodo_after).
  - now apply C85_todo_stays.
  - intros v' out w' T S' L. apply vtodo_first; auto. now apply (C53_vtodo_field_by_field v' w' out).
  - intros. eapply vtodo_more; eauto.
Qed.
Theorem C86_journal : sane_env -> forall n v w, vjournal_tidy v -> generations (s_ical ser_vjournal) vjournal_of_str (S n) v w -> vjournal_after (S n) v w.
Proof.
  intros SE n v w. apply grow with (after := vjournal_after).
  - now apply C85_journal_stays.
  - intros v' out w' T S' L. apply vjournal_first; auto. now apply (C53_vjournal_field_by_field v' w' out).
  - intros. eapply vjournal_more; eauto.
Qed.
Theorem C86_freebusy : sane_env -> forall n v w, vfreebusy_tidy v -> generations (s_ical ser_vfreebusy) vfreebusy_of_str (S n) v w -> vfreebusy_after (S n) v w.
Proof.
  intros SE n v w. apply grow with (after := vfreebusy_after).
  - now apply C85_freebusy_stays.
  - intros v' out w' T S' L. apply vfreebusy_first; auto. now apply (C53_vfreebusy_field_by_field v' w' out).
  - intros. eapply vfreebusy_more; eauto.
Qed.
Theorem C86_standard : sane_env -> forall n v w, standard_tidy v -> generations (s_ical ser_standard) standard_of_str (S n) v w -> standard_after (S n) v w.
Proof.
  intros SE n v w. apply grow with (after := standard_after).
  - now apply C85_standard_stays.
  - intros v' out w' T S' L. apply standard_first; auto. now apply (C53_standard_field_by_field v' w' out).
  - intros. eapply standard_more; eauto.
Qed.
Theorem C86_daylight : sane_env -> forall n v w, daylight_tidy v -> generations (s_ical ser_daylight) daylight_of_str (S n) v w -> daylight_after (S n) v w.
Proof.
  intros SE n v w. apply grow with (after := daylight_after).
  - now apply C85_daylight_stays.
  - intros v' out w' T S' L. apply daylight_first; auto. now apply (C53_daylight_field_by_field v' w' out).
  - intros. eapply daylight_more; eauto.
Qed.
Theorem C86_event : sane_env -> forall n v w, event_tidy v -> generations (s_ical ser_vevent) vevent_of_str (S n) v w -> vevent_after (S n) v w.
Proof.
  intros SE n v w. apply grow with (after := vevent_after).
  - now apply C85_event_stays.
  - intros v' out w' T S' L. apply (C54_event_read_back_iff v' out w' T S') in L as [NC R]. destruct T as [T _].
    assert (A : ev_alarms v' = []) by (destruct (ev_alarms v') eqn:Q; auto; exfalso; apply NC; unfold event_crowded; congruence).
    assert (Q : set_ev_alarms v' [] = v') by (rewrite <- A; now destruct v'). rewrite Q in T. apply vevent_first; auto. now apply vevent_returns_iff.
  - intros. eapply vevent_more; eauto.
Qed.
Lemma F2_imp {X Y} (P : X -> Prop) (Q R : X -> Y -> Prop) l l' : (forall x y, P x -> Q x y -> R x y) -> Forall P l -> Forall2 Q l l' -> Forall2 R l l'.
Proof. intros H A B. induction B; [constructor|]. inversion A; subst. constructor; auto. Qed.
Lemma timezone_first v w : timezone_tidy v -> vtimezone_back v w -> timezone_after 1 v w.
Proof.
  intros (T & A & B) H. apply timezone_returns_iff in H as (H & S' & D). split; [now apply vtimezone_first|]. split.
  - eapply F2_imp; [|exact A|exact S']. intros; now apply standard_first.
  - eapply F2_imp; [|exact B|exact D]. intros; now apply daylight_first.
Qed.
Lemma timezone_more n x y z : sane_env -> (1 <= n)%nat -> timezone_after n x y -> timezone_after 1 y z -> timezone_after (S n) x z.
Proof.
  intros SE L (A1 & A2 & A3) (B1 & B2 & B3). split; [eapply vtimezone_more; eauto|]. split.
  - eapply list_trans; [|exact A2|exact B2]. intros; eapply standard_more; eauto.
  - eapply list_trans; [|exact A3|exact B3]. intros; eapply daylight_more; eauto.
Qed.
Theorem C86_timezone : sane_env -> forall n v w, timezone_tidy v -> generations (s_ical ser_vtimezone) vtimezone_of_str (S n) v w -> timezone_after (S n) v w.
Proof.
  intros SE n v w. apply grow with (after := timezone_after).
  - now apply C85_timezone_stays.
  - intros v' out w' T S' L. apply (C54_timezone_read_back_iff v' out w' T S') in L as (_ & _ & R). now apply timezone_first.
  - intros. eapply timezone_more; eauto.
Qed.
Lemma calendar_first v w : calendar_tidy v -> ~ calendar_crowded v -> vcalendar_back v w -> calendar_after 1 v w.
Proof.
  intros (T & _ & T1 & T2 & T3 & T4 & T5) NC (H0 & H1 & H2 & H3 & H4 & H5 & H6).
  split.
  { apply vcalendar_first; auto. apply vcalendar_returns_iff in H0 as [H0 _]. exact H0. }
  split; auto.
  assert (T1' : Forall vevent_tidy (ca_events v)).
  { apply Forall_forall. intros e I. rewrite Forall_forall in T1. destruct (T1 e I) as [Te _].
    assert (A : ev_alarms e = []).
    { destruct (ev_alarms e) eqn:Q; auto. exfalso. apply NC. unfold calendar_crowded. do 6 right. left. exists e. split; auto. unfold event_crowded. congruence. }
    assert (Q : set_ev_alarms e [] = e) by (rewrite <- A; now destruct e). now rewrite Q in Te. }
  split; [eapply F2_imp; [|exact T1'|exact H2]; intros x y P Q; apply vevent_first; auto; now apply vevent_returns_iff|].
  split; [eapply F2_imp; [|exact T2|exact H3]; intros x y P Q; apply vfreebusy_first; auto; now apply vfreebusy_returns_iff|].
  split; [eapply F2_imp; [|exact T3|exact H4]; intros x y P Q; apply vjournal_first; auto; now apply vjournal_returns_iff|].
  split; [eapply F2_imp; [|exact T4|exact H5]; intros x y P Q; apply vtodo_first; auto; now apply vtodo_returns_iff|].
  eapply F2_imp; [|exact T5|exact H6]. intros; now apply timezone_first.
Qed.
Lemma calendar_more n x y z : sane_env -> (1 <= n)%nat -> calendar_after n x y -> calendar_after 1 y z -> calendar_after (S n) x z.
Proof.
  intros SE L (A0 & A1 & A2 & A3 & A4 & A5 & A6) (B0 & B1 & B2 & B3 & B4 & B5 & B6). split; [eapply vcalendar_more; eauto|]. split; auto.
  split; [eapply list_trans; [|exact A2|exact B2]; intros; eapply vevent_more; eauto|].
  split; [eapply list_trans; [|exact A3|exact B3]; intros; eapply vfreebusy_more; eauto|].
  split; [eapply list_trans; [|exact A4|exact B4]; intros; eapply vjournal_more; eauto|].
  split; [eapply list_trans; [|exact A5|exact B5]; intros; eapply vtodo_more; eauto|].
  eapply list_trans; [|exact A6|exact B6]. intros; eapply timezone_more; eauto.
Qed.
Theorem C86_calendar : sane_env -> forall n v w, calendar_tidy v -> generations (s_ical ser_vcalendar) vcalendar_of_str (S n) v w -> calendar_after (S n) v w.
Proof.
  intros SE n v w. apply grow with (after := calendar_after).
  - now apply C85_calendar_stays.
  - intros v' out w' T S' L. apply (C54_calendar_read_back_iff v' out w' T S') in L as (NC & _ & _ & R). now apply calendar_first.
  - intros. eapply calendar_more; eauto.
Qed.
(** From a file. *)
Theorem C86_loaded_calendar : sane_env -> forall s v n w, plain_file s -> vcalendar_of_str s = Ok v ->
  generations (s_ical ser_vcalendar) vcalendar_of_str (S n) v w -> calendar_after (S n) v w.
Proof. intros SE s v n w P L. apply C86_calendar; auto. eapply C85_loaded_calendar; eauto. Qed.
End Env.
