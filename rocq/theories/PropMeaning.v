(** * C88: reading a file, end to end *)
From Verif Require Import Base Env Chrono Nom Types SpecText SpecLine SpecComp SpecFields SpecFile SpecCal SpecDur SpecValue Parser Components Derive BaseFacts NomFacts SerFacts PropVocab PropValue PropComp PropFile PropDate SpecMeaning.

(** ** Single values *)
Definition agrees {T} (p : content_line -> outcome T) (says : content_line -> T -> Prop) : Prop := forall c v, p c = Ok v <-> says c v.
Lemma A_text : agrees parse_text says_text.
Proof. intros c [p t]. unfold parse_text, says_text, text_of_cl. cbn. split; [intros H; inv H; auto|intros [-> ->]; reflexivity]. Qed.
Lemma A_uri : agrees parse_uri says_uri.
Proof. intros c [p t]. unfold parse_uri, says_uri, uri_of_cl. cbn. split; [intros H; inv H; auto|intros [-> ->]; reflexivity]. Qed.
Lemma A_datetime : agrees parse_datetime says_datetime.
Proof. intros c v. apply (C20_exact c). Qed.
Lemma A_date : agrees parse_date says_date.
Proof. intros c v. apply (C20_exact c). Qed.
Lemma A_dur : agrees parse_dur says_duration.
Proof. intros c v. apply duration_iff. Qed.
Lemma A_trigger : agrees parse_trigger says_trigger.
Proof. intros c v. apply C33_exact. Qed.
Lemma A_u32 : agrees parse_u32 (says_number 4294967295).
Proof. intros c v. apply (C32_integers c). Qed.
Lemma A_percent : agrees parse_percent (says_number 255).
Proof. intros c v. apply (C32_integers c). Qed.
Lemma A_priority : agrees parse_priority (says_number 9).
Proof. intros c v. apply (C32_integers c). Qed.
Lemma A_texts : agrees parse_texts says_texts.
Proof. intros c v. apply (C34_exact c). Qed.
Lemma A_exdate : agrees parse_exdate says_dates.
Proof. intros c v. apply (C34_exact c). Qed.
Lemma A_freebusy : agrees parse_freebusy says_periods.
Proof. intros c v. apply (C34_exact c). Qed.
Lemma A_rdate : agrees parse_rdate says_rdate.
Proof. intros c v. apply C31_rdate_exact. Qed.
Lemma A_offset : agrees parse_offset says_offset.
Proof. intros c v. apply (C30_exact c). Qed.
Lemma A_class : agrees parse_class says_class.
Proof.
  intros c v. unfold parse_class, class_of_str, says_class. generalize (cl_value c) as s. intros s. eqb_cases.
  - split; [intros H; inv H; auto|]. destruct v; intros H; auto; try discriminate. destruct H as (-> & A & B & C). congruence.
  - split; [intros H; inv H; auto|]. destruct v; intros H; auto; try discriminate. destruct H as (-> & A & B & C). congruence.
  - split; [intros H; inv H; auto|]. destruct v; intros H; auto; try discriminate. destruct H as (-> & A & B & C). congruence.
  - split; [intros H; inv H; auto|]. destruct v; intros H; try congruence. now destruct H as (-> & _).
Qed.
Lemma A_status : agrees parse_status says_status.
Proof.
  intros c v. change (parse_status c) with (status_of_str (cl_value c)). unfold says_status. destruct C28_status as (_ & _ & H & _). rewrite H. cbn [In status_names]. split.
  - intros Q. repeat (destruct Q as [Q|Q]; [inv Q; auto|]). destruct Q.
  - intros ->. destruct v; auto 12.
Qed.
Lemma A_transp : agrees parse_transp says_transp.
Proof.
  intros c v. change (parse_transp c) with (transp_of_str (cl_value c)). unfold says_transp. destruct C28_transp as (_ & _ & H & _). rewrite H. cbn [In transp_names]. split.
  - intros Q. repeat (destruct Q as [Q|Q]; [inv Q; auto|]). destruct Q.
  - intros ->. destruct v; auto 12.
Qed.
Lemma A_rule : agrees parse_rrule says_rule.
Proof. intros c v. apply C27_any_text. Qed.

Section Meaning.
Context {E : Env}.
Lemma A_geo : agrees parse_geo says_geo.
Proof.
  intros c [a b]. unfold parse_geo, says_geo, pmap, separated_pair, pbind, p_float, pchar, pret. cbn [g_lat g_lon]. destruct (f32_parse (cl_value c)) as [[r x]|] eqn:F.
  - destruct r as [|ch r]; [split; [discriminate|intros (p & q & H & _); discriminate]|]. destruct (Z.eqb_spec ch 59) as [->|N].
    + destruct (f32_parse r) as [[r' y]|] eqn:G; cbn; split.
      * intros H. inv H. eauto.
      * intros (p & q & H & K). inv H. rewrite G in K. inv K. reflexivity.
      * discriminate.
      * intros (p & q & H & K). inv H. congruence.
    + cbn. split; [discriminate|]. intros (p & q & H & _). congruence.
  - cbn. split; [discriminate|]. intros (p & q & H & _). discriminate.
Qed.
Lemma A_rstatus : agrees parse_rstatus says_rstatus.
Proof.
  intros c [a b x]. unfold parse_rstatus, says_rstatus, p_rstatus, p_float, pbind, pchar, pret. cbn [rs_code rs_desc rs_ext]. destruct (f32_parse (cl_value c)) as [[r z]|] eqn:F; [|split; [discriminate|intros (q & H & _); discriminate]].
  destruct r as [|ch r]; [split; [discriminate|intros (q & H & _); discriminate]|]. destruct (Z.eqb_spec ch 59) as [->|N]; [|cbn; split; [discriminate|intros (q & H & _); congruence]].
  unfold take_till, preceded. destruct (take_while_ok (fun c => negb (c =? 59)) r) as (t & d & T). rewrite T. apply take_while_POk in T as (-> & Ad & St).
  assert (Nd : ~ In 59 d).
  { intros H. specialize (Ad 59 H). discriminate. }
  assert (U : forall q y : str, ~ In 59 y -> d ++ t = y ++ q -> (q = [] \/ exists e, q = 59 :: e) -> y = d /\ q = t).
  { clear -Nd St. revert St. induction d as [|u d IH]; intros St q y Ny H Q; cbn in H.
    - destruct y as [|w y]; [auto|]. exfalso. subst t. cbn in St. apply Bool.negb_false_iff, Z.eqb_eq in St. apply Ny. left. exact St.
    - destruct y as [|w y].
      + exfalso. destruct Q as [->|(e & ->)]; cbn in H; [discriminate|]. injection H as -> _. apply Nd. now left.
      + injection H as <- H. destruct (IH ltac:(intros C; apply Nd; now right) St q y ltac:(intros C; apply Ny; now right) H Q) as [-> ->]. auto. }
  unfold popt, pbind, pchar. destruct t as [|u t]; cbn [pfinish].
  - split.
    + intros H. inv H. exists (b ++ []). split; auto. split; auto. apply app_nil_r.
    + intros (q & H & Nb & K). inv H. destruct x as [e|].
      * rewrite app_nil_r in K. subst d. exfalso. apply Nd. apply in_or_app. right. now left.
      * rewrite app_nil_r in K. now subst.
  - cbn in St. apply Bool.negb_false_iff in St. rewrite St. apply Z.eqb_eq in St. subst u. rewrite <- (app_nil_r t) at 1. rewrite take_while_app; [|intros q _; reflexivity|exact I]. cbn [pfinish]. split.
    + intros H. inv H. exists (b ++ 59 :: t). auto.
    + intros (q & H & Nb & K). injection H as <- <-. destruct x as [e|].
      * destruct (U (59 :: e) b Nb K ltac:(eauto)) as [-> H]. injection H as ->. reflexivity.
      * exfalso. apply Nb. rewrite <- K. apply in_or_app. right. now left.
Qed.

(** ** Fields *)
Lemma must_iff {T} (p : content_line -> outcome T) q n ls v : agrees p q -> required p n ls v <-> must q n ls v.
Proof. intros A. unfold required, must. split; intros (l & H & K); exists l; (split; [exact H|now apply A]). Qed.
Lemma may_iff {T} (p : content_line -> outcome T) q n ls v : agrees p q -> optional p n ls v <-> may q n ls v.
Proof.
  intros A. unfold optional, may. split; intros (H & K); (split; [intros l L N; destruct (H l L N) as (x & X); exists x; now apply A|]); destruct v; auto; now apply (must_iff p q).
Qed.
Lemma forall2_iff {X T} (p : X -> T -> Prop) q l v : (forall x t, p x t <-> q x t) -> Forall2 p l v <-> Forall2 q l v.
Proof. intros A. split; induction 1; constructor; auto; now apply A. Qed.
Lemma each_iff {T} (p : content_line -> outcome T) q n ls v : agrees p q -> repeated p n ls v <-> each q n ls v.
Proof. intros A. apply forall2_iff. exact A. Qed.
Lemma joined_iff {T} (p : content_line -> outcome (list T)) q n ls v : agrees p q -> appended p n ls v <-> joined q n ls v.
Proof. intros A. unfold appended, joined. split; intros (vss & H & K); exists vss; (split; [|exact K]); revert H; apply forall2_iff; intros x t; [symmetry|]; apply A. Qed.
Lemma and_iff (A B C D : Prop) : (A <-> C) -> (B <-> D) -> A /\ B <-> C /\ D.
Proof. tauto. Qed.
Ltac reader := first [exact A_text|exact A_uri|exact A_datetime|exact A_date|exact A_dur|exact A_trigger|exact A_u32|exact A_percent|exact A_priority|exact A_texts|exact A_exdate
  |exact A_freebusy|exact A_rdate|exact A_offset|exact A_class|exact A_status|exact A_transp|exact A_rule|exact A_geo|exact A_rstatus].
Ltac field := match goal with
  | |- required _ _ _ _ <-> _ => apply must_iff; reader
  | |- optional _ _ _ _ <-> _ => apply may_iff; reader
  | |- repeated _ _ _ _ <-> _ => apply each_iff; reader
  | |- appended _ _ _ _ <-> _ => apply joined_iff; reader
  | |- ?a <-> ?b => exact (iff_refl a)
  end.
Ltac fields := repeat (apply and_iff; [field|]); field.
Lemma audio_iff ls v : audio_read ls v <-> audio_means ls v.
Proof. unfold audio_read, audio_means. fields. Qed.
Lemma display_iff ls v : display_read ls v <-> display_means ls v.
Proof. unfold display_read, display_means. fields. Qed.
Lemma email_iff ls v : email_read ls v <-> email_means ls v.
Proof. unfold email_read, email_means. fields. Qed.
Lemma vevent_iff ls v : vevent_read ls v <-> vevent_means ls v.
Proof. unfold vevent_read, vevent_means. fields. Qed.
Lemma vfreebusy_iff ls v : vfreebusy_read ls v <-> vfreebusy_means ls v.
Proof. unfold vfreebusy_read, vfreebusy_means. fields. Qed.
Lemma vjournal_iff ls v : vjournal_read ls v <-> vjournal_means ls v.
Proof. unfold vjournal_read, vjournal_means. fields. Qed.
Lemma vtodo_iff ls v : vtodo_read ls v <-> vtodo_means ls v.
Proof. unfold vtodo_read, vtodo_means. fields. Qed.
Lemma standard_iff ls v : standard_read ls v <-> standard_means ls v.
Proof. unfold standard_read, standard_means. fields. Qed.
Lemma daylight_iff ls v : daylight_read ls v <-> daylight_means ls v.
Proof. unfold daylight_read, daylight_means. fields. Qed.
Lemma vtimezone_iff ls v : vtimezone_read ls v <-> vtimezone_means ls v.
Proof. unfold vtimezone_read, vtimezone_means. fields. Qed.
Lemma vcalendar_iff ls v : vcalendar_read ls v <-> vcalendar_means ls v.
Proof. unfold vcalendar_read, vcalendar_means. fields. Qed.

(** ** Texts *)
Lemma valarm_iff ls a : valarm_read ls a <-> valarm_means ls a.
Proof. unfold valarm_read, valarm_means. split; intros (l & H & K); exists l; (split; [exact H|]); destruct a; (split; [apply K|]); destruct K as (_ & K); revert K; first [apply audio_iff|apply display_iff|apply email_iff]. Qed.
Lemma simple_iff {A} name (p q : list content_line -> A -> Prop) s v rest : (forall ls v, p ls v <-> q ls v) -> simple_text name p s v rest <-> simple_text name q s v rest.
Proof. intros H. unfold simple_text. split; intros (t & ls & A1 & A2 & A3); exists t, ls; (split; [exact A1|]); (split; [exact A2|]); now apply H. Qed.
Lemma seq_iff {A} (p q : str -> A -> str -> Prop) s l rest : (forall s a r, p s a r <-> q s a r) -> seq_text p s l rest <-> seq_text q s l rest.
Proof. intros H. split; induction 1; econstructor; eauto; now apply H. Qed.
Lemma alarm_iff s a rest : alarm_text s a rest <-> alarm_stands s a rest.
Proof. apply simple_iff, valarm_iff. Qed.
Lemma event_iff s v rest : event_text s v rest <-> event_stands s v rest.
Proof.
  unfold event_text, event_stands. split; intros (t & ls & t2 & v0 & A1 & A2 & A3 & A4 & A5); exists t, ls, t2, v0; (split; [exact A1|]); (split; [exact A2|]); (split; [|split; [now apply vevent_iff|exact A5]]);
  revert A3; apply seq_iff; intros; [symmetry|]; apply alarm_iff.
Qed.
Lemma tz_part_iff s c rest : tz_part_text s c rest <-> tz_part_stands s c rest.
Proof. destruct c; apply simple_iff; [apply standard_iff|apply daylight_iff]. Qed.
Lemma timezone_iff s v rest : timezone_text s v rest <-> timezone_stands s v rest.
Proof.
  unfold timezone_text, timezone_stands. split; intros (t & ls & t2 & cs & v0 & A1 & A2 & A3 & A4 & A5); exists t, ls, t2, cs, v0; (split; [exact A1|]); (split; [exact A2|]); (split; [|split; [now apply vtimezone_iff|exact A5]]);
  revert A3; apply seq_iff; intros; [symmetry|]; apply tz_part_iff.
Qed.
Lemma child_iff s c rest : child_text s c rest <-> child_stands s c rest.
Proof.
  destruct c; cbn [child_text child_stands]; [apply alarm_iff|apply event_iff|apply simple_iff, vfreebusy_iff|apply simple_iff, vjournal_iff|apply timezone_iff|apply simple_iff, vtodo_iff].
Qed.
(** ** Unfolding *)
Lemma unfolds_unfold s t : unfolds s t -> unfold_lines s = t.
Proof.
  intros (parts & N & F & -> & ->). induction F as [|p l P F IH]; [contradiction|]. destruct l as [|q l].
  - cbn. rewrite app_nil_r. now apply unfold_id.
  - change (folded (p :: q :: l)) with (p ++ FOLD ++ folded (q :: l)). rewrite unfold_prefix by auto. rewrite IH by discriminate. reflexivity.
Qed.
Lemma unfold_unfolds s : unfolds s (unfold_lines s).
Proof.
  remember (length s) as n eqn:L. revert s L. induction n as [n IH] using lt_wf_ind. intros s L. destruct s as [|c r].
  - exists [[]]. split; [discriminate|]. split; [repeat constructor; intros (a & b & H); destruct a; discriminate|]. auto.
  - destruct (starts_with FOLD (c :: r)) eqn:B.
    + apply starts_with_iff in B as (r' & B). rewrite B. rewrite unfold_skip. destruct (IH (length r') ltac:(subst n; rewrite B; rewrite app_length; cbn; lia) r' eq_refl) as (ps & N & F & Q & U).
      exists ([] :: ps). split; [discriminate|]. split; [constructor; auto; intros (a & b & H); destruct a; discriminate|]. destruct ps as [|p ps]; [contradiction|]. split; [|exact U].
      change (folded ([] :: p :: ps)) with (FOLD ++ folded (p :: ps)). now rewrite <- Q.
    + assert (NB : forall x, c :: r <> FOLD ++ x) by (intros x H; rewrite H in B; discriminate). rewrite unfold_step by exact NB.
      destruct (IH (length r) ltac:(subst n; cbn; lia) r eq_refl) as (ps & N & F & Q & U). destruct ps as [|p ps]; [contradiction|].
      exists ((c :: p) :: ps). split; [discriminate|]. assert (Q' : c :: r = folded ((c :: p) :: ps)) by (rewrite Q; destruct ps; reflexivity). pose proof (Forall_inv F) as F1. pose proof (Forall_inv_tail F) as F2. cbn beta in F1. split; [|split; [exact Q'|cbn; now rewrite U]].
      constructor; auto. intros (a & b & H). destruct a as [|a0 a].
      * apply (NB (b ++ match ps with [] => [] | _ => FOLD ++ folded ps end)). rewrite Q'. destruct ps as [|p2 ps]; cbn [folded]; rewrite H; cbn [app]; rewrite ?app_nil_r; reflexivity.
      * injection H as -> H. apply F1. exists a, b. exact H.
Qed.
Lemma unfolds_iff s t : unfolds s t <-> unfold_lines s = t.
Proof. split; [apply unfolds_unfold|intros <-; apply unfold_unfolds]. Qed.
Lemma file_iff {A} (read : str -> outcome A) (one stands : str -> A -> str -> Prop) s v :
  (read s = Ok v <-> exists rest, one (unfold_lines s) v rest) -> (forall s v rest, one s v rest <-> stands s v rest) -> read s = Ok v <-> file_of stands s v.
Proof.
  intros H K. rewrite H. unfold file_of. split.
  - intros (rest & X). exists (unfold_lines s), rest. split; [apply unfold_unfolds|now apply K].
  - intros (t & rest & U & X). apply unfolds_iff in U. subst t. exists rest. now apply K.
Qed.

(** ** C88 *)
Theorem C88_calendar : forall s v, vcalendar_of_str s = Ok v <-> file_of calendar_stands s v.
Proof.
  intros s v. rewrite C15_calendar_grammar. unfold file_of. split.
  - intros (ls & cs & rest & (t & t2 & A1 & A2 & A3) & B1 & B2 & B3 & B4 & B5 & B6 & v0 & B7 & B8). exists (unfold_lines s), rest. split; [apply unfold_unfolds|].
    exists t, ls, t2, cs, v0. split; [exact A1|]. split; [exact A2|]. split; [revert A3; apply seq_iff; intros; symmetry; apply child_iff|]. split; [now apply vcalendar_iff|]. tauto.
  - intros (t' & rest & U & t & ls & t2 & cs & v0 & A1 & A2 & A3 & A4 & B). apply unfolds_iff in U. subst t'. exists ls, cs, rest. split.
    + exists t, t2. split; [exact A1|]. split; [exact A2|]. revert A3. apply seq_iff. intros. apply child_iff.
    + unfold calendar_holds. do 6 (split; [tauto|]). exists v0. split; [now apply vcalendar_iff|]. tauto.
Qed.
Theorem C88_event : forall s v, vevent_of_str s = Ok v <-> file_of event_stands s v.
Proof. intros s v. eapply file_iff; [apply C15_event_grammar|apply event_iff]. Qed.
Theorem C88_timezone : forall s v, vtimezone_of_str s = Ok v <-> file_of timezone_stands s v.
Proof. intros s v. eapply file_iff; [apply C15_timezone_grammar|apply timezone_iff]. Qed.
Theorem C88_todo : forall s v, vtodo_of_str s = Ok v <-> file_of (simple_text (lit "VTODO") vtodo_means) s v.
Proof. intros s v. eapply file_iff; [apply C15_todo_grammar|intros; apply simple_iff, vtodo_iff]. Qed.
Theorem C88_journal : forall s v, vjournal_of_str s = Ok v <-> file_of (simple_text (lit "VJOURNAL") vjournal_means) s v.
Proof. intros s v. eapply file_iff; [apply C15_journal_grammar|intros; apply simple_iff, vjournal_iff]. Qed.
Theorem C88_freebusy : forall s v, vfreebusy_of_str s = Ok v <-> file_of (simple_text (lit "VFREEBUSY") vfreebusy_means) s v.
Proof. intros s v. eapply file_iff; [apply C15_freebusy_grammar|intros; apply simple_iff, vfreebusy_iff]. Qed.
Theorem C88_standard : forall s v, standard_of_str s = Ok v <-> file_of (simple_text (lit "STANDARD") standard_means) s v.
Proof. intros s v. eapply file_iff; [apply C15_standard_grammar|intros; apply simple_iff, standard_iff]. Qed.
Theorem C88_daylight : forall s v, daylight_of_str s = Ok v <-> file_of (simple_text (lit "DAYLIGHT") daylight_means) s v.
Proof. intros s v. eapply file_iff; [apply C15_daylight_grammar|intros; apply simple_iff, daylight_iff]. Qed.
Theorem C88_alarm : forall s v, valarm_of_str s = Ok v <-> file_of alarm_stands s v.
Proof. intros s v. eapply file_iff; [apply C15_alarm_grammar|apply alarm_iff]. Qed.
End Meaning.

(** A to-do with a folded summary, two PRIORITY lines and an unknown one. *)
Definition folded_todo : str :=
  lit "BEGIN:VTODO" ++ CRLF ++ lit "DTSTAMP:20240101T000000" ++ CRLF ++ lit "UID:1" ++ CRLF ++ lit "SUMMARY;LANGUAGE=en:Buy" ++ CRLF ++ lit "  milk" ++ CRLF ++
  lit "PRIORITY:1" ++ CRLF ++ lit "PRIORITY:+9" ++ CRLF ++ lit "CATEGORIES:a,b" ++ CRLF ++ lit "COLOR:red" ++ CRLF ++ lit "END:VTODO" ++ CRLF ++ lit "and more".
Example C88_nonvacuous : exists v, file_of (simple_text (lit "VTODO") (vtodo_means (E := env_east))) folded_todo v /\
  to_summary v = Some (mk_text [(lit "LANGUAGE", lit "en")] (lit "Buy milk")) /\ to_priority v = Some 9 /\ to_categories v = [text_of_str (lit "a"); text_of_str (lit "b")] /\
  mget (lit "COLOR") (to_iana_prop v) = Some (mk_cl (lit "COLOR") [] (lit "red")).
Proof.
  destruct (@vtodo_of_str env_east folded_todo) as [v|e|] eqn:H; [|vm_compute in H; discriminate|vm_compute in H; discriminate].
  exists v. split; [now apply C88_todo|]. vm_compute in H. injection H as <-. repeat split; vm_compute; reflexivity.
Qed.
