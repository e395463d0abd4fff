(** * C85: what is read can be written and read again. *)
From Verif Require Import Base Env Chrono Nom Types Ser Parser Derive BaseFacts NomFacts ChronoFacts SpecLine LineFacts SpecText SerFacts PropText PropLine
  SpecCal SpecDur PropDate PropDur PropVocab PropRule PropPeriod PropList DateText Components SpecComp DeriveFacts SpecFields PropComp SpecFile PropFile SpecRound RoundFacts FrameFacts BackFacts
  FieldFacts ChildFacts CalFacts AlarmFacts PropRound SpecLoss LossFacts PropLoss SpecCrowd PropCrowd SpecHistory HistFacts.

Section Env.
Context {E : Env}.

Lemma key_lit n : forallb (fun c => ((65 <=? c) && (c <=? 90)) || (c =? 45)) n = true -> key_text n.
Proof. intros H. rewrite forallb_forall in H. apply Forall_forall. intros c Hc. apply H in Hc. unfold key_char. bool_hyps. lia. Qed.
Lemma A_any {T} (p : content_line -> outcome T) l v : clean_line l -> p l = Ok v -> anything v.
Proof. intros _ _. exact I. Qed.

Section Sane.
Hypothesis SE : sane_env.
Ltac reader P := first
  [ constr_eq P tidy_text; first [exact T_text | exact T_texts]
  | constr_eq P tidy_uri; exact T_uri
  | constr_eq P real_datetime; exact T_datetime
  | constr_eq P real_date; first [exact T_date | exact T_exdate]
  | constr_eq P (@tidy_class E); exact (T_class SE)
  | constr_eq P (@tidy_geo E); exact (T_geo SE)
  | constr_eq P (@tidy_rs E); exact (T_rs SE)
  | constr_eq P tidy_rule; exact T_rule
  | constr_eq P real_rdate; exact T_rdate
  | constr_eq P real_period; exact T_freebusy
  | constr_eq P real_trigger; exact T_trigger
  | constr_eq P real_offset; exact T_offset ].
Ltac one_read C := match goal with
  | H : required ?p ?n ?ls ?x |- ?P ?x => refine (R_req p P n ls x _ C H); reader P
  | H : optional ?p ?n ?ls ?x |- holds ?P ?x => refine (R_opt p P n ls x _ C H); reader P
  | H : repeated ?p ?n ?ls ?x |- Forall ?P ?x => refine (R_rep p P n ls x _ C H); reader P
  | H : appended ?p ?n ?ls ?x |- Forall ?P ?x => refine (R_app p P n ls x _ C H); reader P
  | H : extensions ?n ?ls ?x ?y |- tidy_ext ?x => exact (proj1 (R_ext n ls x y C H))
  | H : extensions ?n ?ls ?y ?x |- tidy_ext ?x => exact (proj2 (R_ext n ls y x C H))
  | |- _ => assumption
  end.
Ltac all_read C H := repeat match type of H with _ /\ _ => let A := fresh "A" in destruct H as [A H] end;
  repeat match goal with |- _ /\ _ => split end; one_read C.

Lemma audio_T ls v : Forall clean_line ls -> audio_read ls v -> audio_tidy v.
Proof. intros C H. unfold audio_read in H. unfold audio_tidy. all_read C H. Qed.
Lemma display_T ls v : Forall clean_line ls -> display_read ls v -> display_tidy v.
Proof. intros C H. unfold display_read in H. unfold display_tidy. all_read C H. Qed.
Lemma email_T ls v : Forall clean_line ls -> email_read ls v -> email_tidy v.
Proof. intros C H. unfold email_read in H. unfold email_tidy. all_read C H. Qed.
Lemma vevent_T ls v : Forall clean_line ls -> vevent_read ls v -> vevent_tidy v.
Proof. intros C H. unfold vevent_read in H. unfold vevent_tidy. all_read C H. Qed.
Lemma vfreebusy_T ls v : Forall clean_line ls -> vfreebusy_read ls v -> vfreebusy_tidy v.
Proof. intros C H. unfold vfreebusy_read in H. unfold vfreebusy_tidy. all_read C H. Qed.
Lemma vjournal_T ls v : Forall clean_line ls -> vjournal_read ls v -> vjournal_tidy v.
Proof. intros C H. unfold vjournal_read in H. unfold vjournal_tidy. all_read C H. Qed.
Lemma vtodo_T ls v : Forall clean_line ls -> vtodo_read ls v -> vtodo_tidy v.
Proof. intros C H. unfold vtodo_read in H. unfold vtodo_tidy. all_read C H. Qed.
Lemma standard_T ls v : Forall clean_line ls -> standard_read ls v -> standard_tidy v.
Proof. intros C H. unfold standard_read in H. unfold standard_tidy. all_read C H. Qed.
Lemma daylight_T ls v : Forall clean_line ls -> daylight_read ls v -> daylight_tidy v.
Proof. intros C H. unfold daylight_read in H. unfold daylight_tidy. all_read C H. Qed.
Lemma vtimezone_T ls v : Forall clean_line ls -> vtimezone_read ls v -> vtimezone_tidy v.
Proof. intros C H. unfold vtimezone_read in H. unfold vtimezone_tidy. all_read C H. Qed.
Lemma vcalendar_T ls v : Forall clean_line ls -> vcalendar_read ls v -> vcalendar_tidy v.
Proof. intros C H. unfold vcalendar_read in H. unfold vcalendar_tidy. all_read C H. Qed.
End Sane.

Ltac keyl := apply key_lit; vm_compute; reflexivity.
Ltac value_clean := match goal with
  | |- Forall clean_line (text_line _ _) => apply W_text; [keyl|assumption]
  | |- Forall clean_line (uri_line _ _) => apply W_uri; [keyl|assumption]
  | |- Forall clean_line (date_line _ _) => apply W_date; [keyl|assumption]
  | |- Forall clean_line (trigger_line _ _) => apply W_trigger; [keyl|assumption]
  | |- Forall clean_line (plain_line dt_show _ _) => eapply W_plain; [exact L_datetime|keyl|assumption]
  | |- Forall clean_line (plain_line td_show _ _) => eapply W_plain; [exact L_td|keyl|exact I]
  | |- Forall clean_line (plain_line show_int _ _) => eapply W_plain; [exact L_u32|keyl|exact I]
  | |- Forall clean_line (plain_line class_show _ _) => eapply W_plain; [exact L_class|keyl|assumption]
  | |- Forall clean_line (plain_line geo_show _ _) => eapply W_plain; [exact L_geo|keyl|assumption]
  | |- Forall clean_line (plain_line status_show _ _) => eapply W_plain; [exact L_status|keyl|exact I]
  | |- Forall clean_line (plain_line transp_show _ _) => eapply W_plain; [exact L_transp|keyl|exact I]
  | |- Forall clean_line (plain_line rule_shown _ _) => eapply W_plain; [exact L_recur|keyl|assumption]
  | |- Forall clean_line (plain_line rs_shown _ _) => eapply W_plain; [exact L_rs|keyl|assumption]
  | |- Forall clean_line (plain_line rdate_show _ _) => eapply W_plain; [exact L_rdate|keyl|assumption]
  | |- Forall clean_line (plain_line period_show _ _) => eapply W_plain; [exact L_period|keyl|assumption]
  | |- Forall clean_line (plain_line offset_show _ _) => eapply W_plain; [exact L_offset|keyl|assumption]
  end.
Ltac lister one := lazymatch one with
  | text_line => exact L_text | uri_line => exact L_uri | date_line => exact L_date
  | plain_line rs_shown => exact L_rs | plain_line rdate_show => exact L_rdate | plain_line period_show => exact L_period end.
Ltac one_clean := match goal with
  | H : holds ?P ?o |- Forall clean_line (opt_lines _ _ ?o) => apply (W_opt _ P); [intros ? ?; value_clean|exact H]
  | |- Forall clean_line (opt_lines _ _ _) => apply (W_opt _ anything); [intros ? ?; value_clean|apply holds_any]
  | H : Forall ?P ?o |- Forall clean_line (list_lines ?one ?show _ ?o) => eapply (W_list _ _ _ P); [keyl|lister one|intros ? ?; value_clean|exact H]
  | H : tidy_ext ?o |- Forall clean_line (ext_line _ ?o) => apply W_ext; [keyl|exact H]
  | |- _ => value_clean
  end.
Ltac all_clean H := repeat match type of H with _ /\ _ => let A := fresh "A" in destruct H as [A H] end;
  repeat (apply Forall_app; split); one_clean.
Lemma audio_W v : audio_tidy v -> Forall clean_line (audio_written v).
Proof. intros H. unfold audio_tidy in H. unfold audio_written. all_clean H. Qed.
Lemma display_W v : display_tidy v -> Forall clean_line (display_written v).
Proof. intros H. unfold display_tidy in H. unfold display_written. all_clean H. Qed.
Lemma email_W v : email_tidy v -> Forall clean_line (email_written v).
Proof. intros H. unfold email_tidy in H. unfold email_written. all_clean H. Qed.
Lemma vevent_W v : vevent_tidy v -> Forall clean_line (vevent_written v).
Proof. intros H. unfold vevent_tidy in H. unfold vevent_written. all_clean H. Qed.
Lemma vfreebusy_W v : vfreebusy_tidy v -> Forall clean_line (vfreebusy_written v).
Proof. intros H. unfold vfreebusy_tidy in H. unfold vfreebusy_written. all_clean H. Qed.
Lemma vjournal_W v : vjournal_tidy v -> Forall clean_line (vjournal_written v).
Proof. intros H. unfold vjournal_tidy in H. unfold vjournal_written. all_clean H. Qed.
Lemma vtodo_W v : vtodo_tidy v -> Forall clean_line (vtodo_written v).
Proof. intros H. unfold vtodo_tidy in H. unfold vtodo_written. all_clean H. Qed.
Lemma standard_W v : standard_tidy v -> Forall clean_line (standard_written v).
Proof. intros H. unfold standard_tidy in H. unfold standard_written. all_clean H. Qed.
Lemma daylight_W v : daylight_tidy v -> Forall clean_line (daylight_written v).
Proof. intros H. unfold daylight_tidy in H. unfold daylight_written. all_clean H. Qed.
Lemma vtimezone_W v : vtimezone_tidy v -> Forall clean_line (vtimezone_written v).
Proof. intros H. unfold vtimezone_tidy in H. unfold vtimezone_written. all_clean H. Qed.
Lemma vcalendar_W v : vcalendar_tidy v -> Forall clean_line (vcalendar_written v).
Proof. intros H. unfold vcalendar_tidy in H. unfold vcalendar_written. all_clean H. Qed.
(** ** Whole texts *)
Lemma params_read_key t l rest : params_read t l rest -> Forall (fun kv => key_text (fst kv)) l.
Proof. induction 1; constructor; auto. Qed.
Lemma last_binding_in {V} (l : list (str * V)) n v : last_binding l n = Some v -> In (n, v) l.
Proof.
  unfold last_binding. assert (G : forall acc, fold_left (fun acc kv => if str_eqb n (fst kv) then Some (snd kv) else acc) l acc = Some v -> acc = Some v \/ In (n, v) l).
  { induction l as [|[k w] l IH]; intros acc H; cbn [fold_left] in H; [now left|]. apply IH in H as [H|H]; [|right; now right]. cbn [fst snd] in H.
    destruct (str_eqb n k) eqn:Q; [|now left]. inv H. apply str_eqb_eq in Q. subst k. right. now left. }
  intros H. apply G in H as [H|H]; [discriminate|auto].
Qed.
Lemma params_read_suffix t l rest : params_read t l rest -> exists u, t = u ++ rest.
Proof.
  induction 1 as [rest|k v t l rest K Q P (u & ->)|k f v t l rest K A B F N P (u & ->)].
  - now exists [COLON].
  - exists (SEMI :: k ++ [EQUALS; QUOTE] ++ v ++ [QUOTE] ++ u). cbn [app]. rewrite <- !app_assoc. cbn [app]. rewrite <- !app_assoc. reflexivity.
  - exists (SEMI :: k ++ [EQUALS] ++ f ++ v ++ u). cbn [app]. rewrite <- !app_assoc. cbn [app]. rewrite <- !app_assoc. reflexivity.
Qed.
Lemma from_line_after w s b x : from_line w s -> s = b ++ [LF] ++ x -> from_line w x.
Proof. intros (p & -> & _) ->. exists (p ++ b ++ [LF]). split; [now rewrite <- !app_assoc|]. right. exists (p ++ b). now rewrite <- app_assoc. Qed.
Lemma line_clean s w l r : plain_file s -> from_line (unfold_lines s) w -> is_line w l r -> sorted_map (cl_params l) -> clean_line l /\ from_line (unfold_lines s) r.
Proof.
  intros PF FL IL SM. pose proof (PF w l r FL IL SM) as PV. destruct IL as (_ & _ & k & t & ps & v & e & -> & K & PR & NV & EO & <- & <- & MG). split.
  - split; auto. split; auto. split; [now apply sorted_map_iff|]. intros n x Hx. split; [|eauto]. apply mget_of_in in Hx; auto. rewrite MG in Hx.
    apply last_binding_in in Hx. pose proof (params_read_key _ _ _ PR) as F. rewrite Forall_forall in F. apply (F _ Hx).
  - destruct (params_read_suffix _ _ _ PR) as [u ->]. destruct EO as [->| ->].
    + eapply (from_line_after _ _ (cl_key l ++ u ++ cl_value l)); [exact FL|]. now rewrite <- !app_assoc.
    + eapply (from_line_after _ _ (cl_key l ++ u ++ cl_value l ++ [CR])); [exact FL|]. now rewrite <- !app_assoc.
Qed.
Lemma lines_clean s w ls r : plain_file s -> from_line (unfold_lines s) w -> lines_text w ls r -> Forall clean_line ls /\ from_line (unfold_lines s) r.
Proof.
  intros PF FL (IL & SM). induction IL as [x|x c y ls rest L IL IH]; [split; [constructor|auto]|]. inversion SM; subst.
  destruct (line_clean _ _ _ _ PF FL L H1) as [A B]. destruct (IH B H2) as [C D]. split; auto.
Qed.
Lemma head_line s h t : from_line (unfold_lines s) (h ++ [CR; LF] ++ t) -> from_line (unfold_lines s) t.
Proof. intros H. eapply (from_line_after _ _ (h ++ [CR])); [exact H|]. now rewrite <- !app_assoc. Qed.
Lemma simple_clean {A} n (read : list content_line -> A -> Prop) (P : A -> Prop) s w v r : (forall ls x, Forall clean_line ls -> read ls x -> P x) ->
  plain_file s -> from_line (unfold_lines s) w -> simple_text n read w v r -> P v /\ from_line (unfold_lines s) r.
Proof.
  intros R PF FL (t & ls & -> & LT & RD). replace (lit "BEGIN:" ++ n ++ [CR; LF] ++ t) with ((lit "BEGIN:" ++ n) ++ [CR; LF] ++ t) in FL by now rewrite <- app_assoc.
  apply head_line in FL. destruct (lines_clean _ _ _ _ PF FL LT) as [C D]. split; [eauto|].
  replace (lit "END:" ++ n ++ [CR; LF] ++ r) with ((lit "END:" ++ n) ++ [CR; LF] ++ r) in D by now rewrite <- app_assoc. now apply head_line in D.
Qed.
Lemma seq_clean {A} (one : str -> A -> str -> Prop) (P : A -> Prop) s w l r :
  (forall w a r, from_line (unfold_lines s) w -> one w a r -> P a /\ from_line (unfold_lines s) r) ->
  from_line (unfold_lines s) w -> seq_text one w l r -> Forall P l /\ from_line (unfold_lines s) r.
Proof.
  intros F FL H. revert FL. induction H as [x|x a y l rest O H IH]; intros FL; [split; [constructor|auto]|].
  destruct (F _ _ _ FL O) as [A' B]. destruct (IH B). split; auto.
Qed.
Lemma from_start s : from_line s s. Proof. exists []. auto. Qed.
Lemma valarm_T (SE : sane_env) ls a : Forall clean_line ls -> valarm_read ls a -> valarm_tidy a.
Proof. intros C (l & _ & H). destruct a; destruct H as [_ H]; [eapply audio_T|eapply display_T|eapply email_T]; eauto. Qed.
Lemma event_clean (SE : sane_env) s w v r : plain_file s -> from_line (unfold_lines s) w -> event_text w v r -> event_tidy v /\ from_line (unfold_lines s) r.
Proof.
  intros PF FL (t & ls & t2 & v0 & -> & LT & SQ & RD & ->). apply head_line in FL. destruct (lines_clean _ _ _ _ PF FL LT) as [C D].
  apply (seq_clean _ valarm_tidy s) in SQ; auto.
  - destruct SQ as [Q D']. apply head_line in D'. split; auto. split; [|now destruct v0]. pose proof (vevent_T SE _ _ C RD) as T.
    replace (set_ev_alarms (set_ev_alarms v0 (ev_alarms v)) []) with v0; auto. assert (AL : ev_alarms v0 = []) by (unfold vevent_read in RD; apply RD). destruct v0. cbn in AL |- *. now rewrite AL.
  - intros w a r' F A. eapply simple_clean; [first [exact (valarm_T SE)|exact valarm_T]|..]; eauto.
Qed.
Lemma tz_part_clean (SE : sane_env) s w c r : plain_file s -> from_line (unfold_lines s) w -> tz_part_text w c r ->
  match c with TStandard x => standard_tidy x | TDaylight x => daylight_tidy x end /\ from_line (unfold_lines s) r.
Proof.
  intros PF FL H. destruct c; cbn [tz_part_text] in H.
  - eapply simple_clean; [first [exact (standard_T SE)|exact standard_T]|..]; eauto.
  - eapply simple_clean; [first [exact (daylight_T SE)|exact daylight_T]|..]; eauto.
Qed.
Lemma timezone_clean (SE : sane_env) s w v r : plain_file s -> from_line (unfold_lines s) w -> timezone_text w v r -> timezone_tidy v /\ from_line (unfold_lines s) r.
Proof.
  intros PF FL (t & ls & t2 & cs & v0 & -> & LT & SQ & RD & EV & ES & ED). apply head_line in FL. destruct (lines_clean _ _ _ _ PF FL LT) as [C D].
  apply (seq_clean _ (fun c => match c with TStandard x => standard_tidy x | TDaylight x => daylight_tidy x end) s) in SQ; auto.
  2:{ intros w a r' F A. eapply tz_part_clean; eauto. }
  destruct SQ as [Q D']. apply head_line in D'. split; auto. split.
  - pose proof (vtimezone_T _ _ C RD) as T. rewrite EV. destruct v0. exact T.
  - rewrite ES, ED. clear -Q. split; induction Q as [|c cs H Q IH]; try constructor; cbn [flat_map]; destruct c; cbn [app]; auto.
Qed.
Definition component_tidy (c : component) : Prop :=
  match c with
  | CAlarm x => valarm_tidy x | CEvent x => event_tidy x | CFreebusy x => vfreebusy_tidy x
  | CJournal x => vjournal_tidy x | CTimezone x => timezone_tidy x | CTodo x => vtodo_tidy x
  end.
Lemma child_clean (SE : sane_env) s w c r : plain_file s -> from_line (unfold_lines s) w -> child_text w c r -> component_tidy c /\ from_line (unfold_lines s) r.
Proof.
  intros PF FL H. destruct c; cbn [child_text component_tidy] in *.
  - eapply simple_clean; [first [exact (valarm_T SE)|exact valarm_T]|..]; eauto.
  - eapply event_clean; eauto.
  - eapply simple_clean; [first [exact (vfreebusy_T SE)|exact vfreebusy_T]|..]; eauto.
  - eapply simple_clean; [first [exact (vjournal_T SE)|exact vjournal_T]|..]; eauto.
  - eapply timezone_clean; eauto.
  - eapply simple_clean; [first [exact (vtodo_T SE)|exact vtodo_T]|..]; eauto.
Qed.

(** Whatever is read from a text whose parameters need no quotes can stand on lines: the
    hypothesis [X_tidy] of the other theorems holds of every loaded file. *)
Theorem C85_loaded_calendar : sane_env -> forall s v, plain_file s -> vcalendar_of_str s = Ok v -> calendar_tidy v.
Proof.
  intros SE s v PF H. apply C15_calendar_grammar in H as (ls & cs & rest & (t & t2 & EQ & LT & SQ) & CH).
  pose proof (from_start (unfold_lines s)) as FL. rewrite EQ in FL at 2. apply head_line in FL. destruct (lines_clean _ _ _ _ PF FL LT) as [C D].
  apply (seq_clean _ component_tidy s) in SQ; auto.
  2:{ intros w a r' F A. eapply child_clean; eauto. }
  destruct SQ as [Q _]. destruct CH as (A1 & A2 & A3 & A4 & A5 & A6 & v0 & RD & B1 & B2 & B3 & B4 & B5 & B6).
  assert (G : forall T (pick : component -> list T) (P : T -> Prop), (forall c, component_tidy c -> Forall P (pick c)) -> Forall P (flat_map pick cs)).
  { intros T pick P F. clear -Q F. induction Q; cbn [flat_map]; [constructor|]. apply Forall_app. auto. }
  pose proof (vcalendar_T _ _ C RD) as T. split.
  - unfold vcalendar_tidy in *. now rewrite B1, B2, B3, B4, B5, B6.
  - rewrite A1, A2, A3, A4, A5, A6. unfold alarms_of, events_of, freebusy_of, journals_of, timezones_of, todos_of.
    repeat match goal with |- _ /\ _ => split end; apply G; intros [] X; cbn [component_tidy] in X; auto.
Qed.
Theorem C85_loaded_event : sane_env -> forall s v, plain_file s -> vevent_of_str s = Ok v -> event_tidy v.
Proof. intros SE s v PF H. apply C15_event_grammar in H as (rest & H). eapply event_clean; eauto using from_start. Qed.
Theorem C85_loaded_timezone : sane_env -> forall s v, plain_file s -> vtimezone_of_str s = Ok v -> timezone_tidy v.
Proof. intros SE s v PF H. apply C15_timezone_grammar in H as (rest & H). eapply timezone_clean; eauto using from_start. Qed.
Theorem C85_loaded_alarm : sane_env -> forall s v, plain_file s -> valarm_of_str s = Ok v -> valarm_tidy v.
Proof. intros SE s v PF H. apply C15_alarm_grammar in H as (rest & H). eapply simple_clean; [first [exact (valarm_T SE)|exact valarm_T]|..]; eauto using from_start. Qed.
Theorem C85_loaded_todo : sane_env -> forall s v, plain_file s -> vtodo_of_str s = Ok v -> vtodo_tidy v.
Proof. intros SE s v PF H. apply C15_todo_grammar in H as (rest & H). eapply simple_clean; [first [exact (vtodo_T SE)|exact vtodo_T]|..]; eauto using from_start. Qed.
Theorem C85_loaded_journal : sane_env -> forall s v, plain_file s -> vjournal_of_str s = Ok v -> vjournal_tidy v.
Proof. intros SE s v PF H. apply C15_journal_grammar in H as (rest & H). eapply simple_clean; [first [exact (vjournal_T SE)|exact vjournal_T]|..]; eauto using from_start. Qed.
Theorem C85_loaded_freebusy : sane_env -> forall s v, plain_file s -> vfreebusy_of_str s = Ok v -> vfreebusy_tidy v.
Proof. intros SE s v PF H. apply C15_freebusy_grammar in H as (rest & H). eapply simple_clean; [first [exact (vfreebusy_T SE)|exact vfreebusy_T]|..]; eauto using from_start. Qed.
Theorem C85_loaded_standard : sane_env -> forall s v, plain_file s -> standard_of_str s = Ok v -> standard_tidy v.
Proof. intros SE s v PF H. apply C15_standard_grammar in H as (rest & H). eapply simple_clean; [first [exact (standard_T SE)|exact standard_T]|..]; eauto using from_start. Qed.
Theorem C85_loaded_daylight : sane_env -> forall s v, plain_file s -> daylight_of_str s = Ok v -> daylight_tidy v.
Proof. intros SE s v PF H. apply C15_daylight_grammar in H as (rest & H). eapply simple_clean; [first [exact (daylight_T SE)|exact daylight_T]|..]; eauto using from_start. Qed.

(** ** Saved and loaded again *)
Lemma F2_tidy {A B} (R : A -> B -> Prop) (P : A -> Prop) (Q : B -> Prop) l m : (forall a b, P a -> R a b -> Q b) -> Forall2 R l m -> Forall P l -> Forall Q m.
Proof. intros F H. induction H; intros G; [constructor|]. inversion G; subst. constructor; eauto. Qed.
Lemma calm_event v : vevent_tidy v -> ev_alarms v = [] -> event_tidy v.
Proof. intros T A. split; [|rewrite A; constructor]. destruct v. cbn in A |- *. subst. exact T. Qed.
Lemma event_calm v : event_tidy v -> ev_alarms v = [] -> vevent_tidy v.
Proof. intros [T _] A. destruct v. cbn in *. subst. exact T. Qed.
Lemma event_written v : vevent_written (set_ev_alarms v []) = vevent_written v.
Proof. destruct v. reflexivity. Qed.
Lemma read_calm ls v : vevent_read ls v -> ev_alarms v = [].
Proof. intros H. unfold vevent_read in H. apply H. Qed.
Lemma event_back_tidy (SE : sane_env) v w : event_tidy v -> vevent_read (vevent_written v) w -> event_tidy w.
Proof.
  intros [T _] H. apply calm_event; auto; [|eapply read_calm; eauto]. eapply (vevent_T SE); [|exact H]. rewrite <- event_written. now apply vevent_W.
Qed.
Lemma timezone_back_tidy v w : timezone_tidy v -> vtimezone_back v w -> timezone_tidy w.
Proof.
  intros (T & S1 & D1) (H & F1 & F2). apply vtimezone_W in T. split; [|split].
  - pose proof (vtimezone_T _ _ T H) as X. destruct w. exact X.
  - eapply F2_tidy; [|exact F1|exact S1]. cbn beta. intros a b A B. eapply standard_T; [|exact B]. now apply standard_W.
  - eapply F2_tidy; [|exact F2|exact D1]. cbn beta. intros a b A B. eapply daylight_T; [|exact B]. now apply daylight_W.
Qed.
Lemma calendar_back_tidy (SE : sane_env) v w : calendar_tidy v -> vcalendar_back v w -> calendar_tidy w.
Proof.
  intros (T & A1 & A2 & A3 & A4 & A5 & A6) (H & B1 & B2 & B3 & B4 & B5 & B6). apply vcalendar_W in T. split; [|split; [|split; [|split; [|split; [|split]]]]].
  - pose proof (vcalendar_T _ _ T H) as X. destruct w. exact X.
  - rewrite B1. constructor.
  - eapply F2_tidy; [|exact B2|exact A2]. cbn beta. intros a b. apply event_back_tidy; auto.
  - eapply F2_tidy; [|exact B3|exact A3]. cbn beta. intros a b X Y. eapply vfreebusy_T; [exact SE| |exact Y]. now apply vfreebusy_W.
  - eapply F2_tidy; [|exact B4|exact A4]. cbn beta. intros a b X Y. eapply vjournal_T; [exact SE| |exact Y]. now apply vjournal_W.
  - eapply F2_tidy; [|exact B5|exact A5]. cbn beta. intros a b X Y. eapply vtodo_T; [exact SE| |exact Y]. now apply vtodo_W.
  - eapply F2_tidy; [|exact B6|exact A6]. exact timezone_back_tidy.
Qed.
Lemma valarm_W a : valarm_tidy a -> Forall clean_line (valarm_written a).
Proof. destruct a; [apply audio_W|apply display_W|apply email_W]. Qed.
Theorem C85_event_stays : sane_env -> forall v out w, event_tidy v -> s_ical ser_vevent v = Ok out -> vevent_of_str out = Ok w -> event_tidy w.
Proof. intros SE v out w T S' H. apply (C54_event_read_back_iff v out w T S') in H as [_ H]. eapply event_back_tidy; eauto. Qed.
Theorem C85_timezone_stays : forall v out w, timezone_tidy v -> s_ical ser_vtimezone v = Ok out -> vtimezone_of_str out = Ok w -> timezone_tidy w.
Proof. intros v out w T S' H. apply (C54_timezone_read_back_iff v out w T S') in H as (_ & _ & H). eapply timezone_back_tidy; eauto. Qed.
Theorem C85_calendar_stays : sane_env -> forall v out w, calendar_tidy v -> s_ical ser_vcalendar v = Ok out -> vcalendar_of_str out = Ok w -> calendar_tidy w.
Proof. intros SE v out w T S' H. apply (C54_calendar_read_back_iff v out w T S') in H as (_ & _ & _ & H). eapply calendar_back_tidy; eauto. Qed.
Theorem C85_alarm_stays : sane_env -> forall v out w, valarm_tidy v -> s_ical ser_valarm v = Ok out -> valarm_of_str out = Ok w -> valarm_tidy w.
Proof. intros SE v out w T S' H. apply (C53_valarm_read_back v out w T S') in H. eapply (valarm_T SE); [|exact H]. now apply valarm_W. Qed.
Theorem C85_todo_stays : sane_env -> forall v out w, vtodo_tidy v -> s_ical ser_vtodo v = Ok out -> vtodo_of_str out = Ok w -> vtodo_tidy w.
Proof. intros SE v out w T S' H. apply (C53_vtodo_read_back v out w T S') in H. eapply vtodo_T; [..|exact H]; auto. now apply vtodo_W. Qed.
Theorem C85_journal_stays : sane_env -> forall v out w, vjournal_tidy v -> s_ical ser_vjournal v = Ok out -> vjournal_of_str out = Ok w -> vjournal_tidy w.
Proof. intros SE v out w T S' H. apply (C53_vjournal_read_back v out w T S') in H. eapply vjournal_T; [..|exact H]; auto. now apply vjournal_W. Qed.
Theorem C85_freebusy_stays : sane_env -> forall v out w, vfreebusy_tidy v -> s_ical ser_vfreebusy v = Ok out -> vfreebusy_of_str out = Ok w -> vfreebusy_tidy w.
Proof. intros SE v out w T S' H. apply (C53_vfreebusy_read_back v out w T S') in H. eapply vfreebusy_T; [..|exact H]; auto. now apply vfreebusy_W. Qed.
Theorem C85_standard_stays : sane_env -> forall v out w, standard_tidy v -> s_ical ser_standard v = Ok out -> standard_of_str out = Ok w -> standard_tidy w.
Proof. intros SE v out w T S' H. apply (C53_standard_read_back v out w T S') in H. eapply standard_T; [..|exact H]; auto. now apply standard_W. Qed.
Theorem C85_daylight_stays : sane_env -> forall v out w, daylight_tidy v -> s_ical ser_daylight v = Ok out -> daylight_of_str out = Ok w -> daylight_tidy w.
Proof. intros SE v out w T S' H. apply (C53_daylight_read_back v out w T S') in H. eapply daylight_T; [..|exact H]; auto. now apply daylight_W. Qed.

(** Any number of times. *)
Lemma generations_keep {T} (save : T -> outcome str) load (P : T -> Prop) n v w :
  (forall v out w, P v -> save v = Ok out -> load out = Ok w -> P w) -> P v -> generations save load n v w -> P w.
Proof. intros F H G. induction G; eauto. Qed.
Theorem C85_calendar_for_ever : sane_env -> forall s v n w, plain_file s -> vcalendar_of_str s = Ok v ->
  generations (s_ical ser_vcalendar) vcalendar_of_str n v w -> calendar_tidy w.
Proof. intros SE s v n w P L G. eapply generations_keep; [|eapply C85_loaded_calendar; eauto|exact G]. now apply C85_calendar_stays. Qed.
Theorem C85_event_for_ever : sane_env -> forall s v n w, plain_file s -> vevent_of_str s = Ok v ->
  generations (s_ical ser_vevent) vevent_of_str n v w -> event_tidy w.
Proof. intros SE s v n w P L G. eapply generations_keep; [|eapply C85_loaded_event; eauto|exact G]. now apply C85_event_stays. Qed.
(** So a loaded calendar, at any generation, is saved to a text that loads again exactly
    when it is not crowded and has no extension property after children, and then each
    property comes back from its line. *)
Theorem C85_next_generation : sane_env -> forall s v n w out x, plain_file s -> vcalendar_of_str s = Ok v ->
  generations (s_ical ser_vcalendar) vcalendar_of_str n v w -> s_ical ser_vcalendar w = Ok out ->
  vcalendar_of_str out = Ok x <->
  ~ calendar_crowded w /\ ~ calendar_trailing w /\ (forall z, In z (ca_timezones w) -> ~ timezone_trailing z) /\ vcalendar_back w x.
Proof. intros SE s v n w out x P L G S'. apply C54_calendar_read_back_iff; auto. eapply C85_calendar_for_ever; eauto. Qed.

End Env.
