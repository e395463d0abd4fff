(** * A concrete file that C85 and C86 apply to *)
From Verif Require Import Base Env Chrono Types Nom Ser Parser Derive SpecText SpecLine PropLine PropFile DeriveFacts Components SpecComp SpecFile SpecFields SpecRound SpecHistory PropPanic PropDate PropTidy SpecCrowd SpecAfter PropHistory PropFuture PropRoundEx.

(** The places where a line can start: after each line feed. *)
Fixpoint line_starts (s : str) : list str :=
  match s with [] => [] | c :: r => (if c =? LF then [r] else []) ++ line_starts r end.
Lemma line_starts_ok s x : from_line s x -> In x (s :: line_starts s).
Proof.
  intros (before & -> & [->|(b & ->)]); [now left|]. right.
  induction b as [|c b IH]; cbn [app line_starts].
  - now left.
  - apply in_or_app. now right.
Qed.
Definition param_ok (v : str) : bool :=
  forallb (fun d => forallb (fun c => negb (d =? c)) [SEMI; 44; COLON; CR; LF]) v &&
  match v with c :: _ => negb (c =? QUOTE) | [] => true end.
Lemma param_ok_value v : param_ok v = true -> param_value v.
Proof.
  unfold param_ok, param_value. intros H. apply andb_prop in H as [H1 H2]. rewrite forallb_forall in H1.
  assert (N : forall c, In c [SEMI; 44; COLON; CR; LF] -> ~ In c v).
  { intros c I J. specialize (H1 _ J). rewrite forallb_forall in H1. specialize (H1 _ I). now rewrite Z.eqb_refl in H1. }
  repeat match goal with |- _ /\ _ => split end; try (apply N; cbn; tauto).
  intros r ->. now rewrite Z.eqb_refl in H2.
Qed.
Definition plain_check (s : str) : bool :=
  forallb (fun x => match p_content_line x with POk _ l => forallb (fun kv => param_ok (snd kv)) (cl_params l) | _ => true end)
    (unfold_lines s :: line_starts (unfold_lines s)).
Lemma plain_check_file s : plain_check s = true -> plain_file s.
Proof.
  unfold plain_check. intros H x l rest F L SM k v I. rewrite forallb_forall in H. specialize (H x (line_starts_ok _ _ F)).
  assert (Q : p_content_line x = POk rest l) by (apply line_parse_iff; auto).
  rewrite Q in H. rewrite forallb_forall in H. specialize (H (k, v) I). now apply param_ok_value.
Qed.

(** A calendar with a folded line, a parameter, an alarm-free event and an extension. *)
Definition home_file : str :=
  calendar_with [lit "BEGIN:VEVENT"; lit "DTSTAMP:20240101T000000Z"; lit "UID;X-A=b:one"; lit "DTSTART:20240229"; lit "SUMMARY;LANGUAGE=en:a, "; lit " b"; lit "X-FOO;Y=z:1"; lit "END:VEVENT"].
Lemma home_plain : plain_file home_file.
Proof. apply plain_check_file. vm_compute. reflexivity. Qed.
Lemma east_sane : @sane_env env_east.
Proof.
  unfold sane_env, no_eol. cbn [f32_show f32_show1 upper_nonascii f32_parse env_east].
  repeat match goal with |- _ /\ _ => split | |- forall _, _ => intro end; try discriminate; cbn [In]; unfold CR, LF; try tauto; intros [H'|[]]; lia.
Qed.
(** It loads, and can be saved and loaded twice more; the event's stamp has then moved two
    hours, its summary has been escaped twice, its extension has been wrapped. *)
Example C85_nonvacuous : exists v w,
  @vcalendar_of_str env_east home_file = Ok v /\ generations (s_ical (@ser_vcalendar env_east)) (@vcalendar_of_str env_east) 2 v w /\
  map (fun e => (ev_dtstamp e, option_map t_text (ev_summary e), map fst (ev_x_prop e))) (ca_events w) =
    [(Local (mk_ndt 19723 7200 0), Some (lit "a\\, b"), [lit "X-PROP"])].
Proof.
  eexists. eexists. split; [vm_compute; reflexivity|]. split.
  - eapply g_more; [eapply g_more; [apply g_here|vm_compute; reflexivity|vm_compute; reflexivity]|vm_compute; reflexivity|vm_compute; reflexivity].
  - vm_compute. reflexivity.
Qed.
(** The hypotheses of C86 are met: the same calendar, by C86 itself. *)
Example C86_nonvacuous : exists v w, @calendar_tidy env_east v /\ generations (s_ical (@ser_vcalendar env_east)) (@vcalendar_of_str env_east) 2 v w /\ @calendar_after env_east 2 v w /\
  exists e u, In e (ca_events v) /\ ev_dtstamp e = Local u /\ nd_nano u < 1000000000.
Proof.
  destruct C85_nonvacuous as (v & w & L & G & _). exists v, w.
  pose proof (@C85_loaded_calendar env_east east_sane home_file v home_plain L) as T. split; [exact T|]. split; [exact G|].
  split; [exact (@C86_calendar env_east east_sane 1 v w T G)|].
  assert (X : exists v', @vcalendar_of_str env_east home_file = Ok v' /\ exists e u, In e (ca_events v') /\ ev_dtstamp e = Local u /\ nd_nano u < 1000000000).
  { eexists. split; [vm_compute; reflexivity|]. cbn [ca_events]. eexists. eexists. split; [left; reflexivity|]. split; [reflexivity|]. cbn [nd_nano]. lia. }
  destruct X as (v' & L' & X). assert (v' = v) by congruence. now subst v'.
Qed.
(** And the calendar is lost after finitely many generations. *)
Example C86_lost : exists v N, @vcalendar_of_str env_east home_file = Ok v /\
  forall n, (N < n)%nat -> ~ exists w, generations (s_ical (@ser_vcalendar env_east)) (@vcalendar_of_str env_east) n v w.
Proof.
  destruct C85_nonvacuous as (v0 & _ & L & _). pose proof (@C85_loaded_calendar env_east east_sane home_file v0 home_plain L) as T.
  assert (X : exists v', @vcalendar_of_str env_east home_file = Ok v' /\ exists e u, In e (ca_events v') /\ ev_dtstamp e = Local u /\ nd_nano u < 1000000000).
  { eexists. split; [vm_compute; reflexivity|]. cbn [ca_events]. eexists. eexists. split; [left; reflexivity|]. split; [reflexivity|]. cbn [nd_nano]. lia. }
  destruct X as (v & L' & e & u & I & D & N). assert (v = v0) by congruence. subst v0.
  destruct (@C86_calendar_ends env_east east_sane 3600 ltac:(lia) (fun _ => eq_refl) v e u T I D N) as [B HB]. exists v, B. auto.
Qed.
