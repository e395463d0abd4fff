(** * A concrete file that C89 applies to *)
From Verif Require Import Base Env Chrono Types Nom Ser Parser Derive Components Iter SpecIter PropIterEx SpecKinds PropRule SpecRound SpecCrowd SpecHistory PropPanic PropDate PropTidy PropTidyEx SpecKeep PropKeep.

(** One event on the wall clock, and one to-do in instants, both repeating daily with one day excluded. *)
Definition plan_file : str :=
  calendar_with [lit "BEGIN:VEVENT"; lit "DTSTAMP:20240101T000000"; lit "UID:1"; lit "DTSTART:20240131T090000"; lit "DTEND:20240131T100000"; lit "RRULE:FREQ=DAILY;UNTIL=20240203"; lit "EXDATE:20240201T090000"; lit "END:VEVENT";
    lit "BEGIN:VTODO"; lit "DTSTAMP:20240101T000000"; lit "UID:2"; lit "DTSTART:20240131T230000Z"; lit "RRULE:FREQ=DAILY;COUNT=2"; lit "EXDATE:20240201T230000Z"; lit "END:VTODO"].
Lemma plan_plain : plain_file plan_file.
Proof. apply plain_check_file. vm_compute. reflexivity. Qed.
Ltac runs := unfold series; eapply (collect_run _ 9 9); vm_compute; reflexivity.
Ltac small := repeat match goal with |- _ /\ _ => split | |- forall _, _ => intro | H : Some _ = Some _ |- _ => injection H as H; subst | H : None = Some _ |- _ => discriminate H
  | H : In _ (_ :: _) |- _ => destruct H as [H|H]; [subst|] | H : In _ [] |- _ => destruct H end.
Example C89_nonvacuous : exists v w e e' t t',
  @vcalendar_of_str env_east plan_file = Ok v /\ @calendar_tidy env_east v /\ generations (s_ical (@ser_vcalendar env_east)) (@vcalendar_of_str env_east) 2 v w /\
  ca_events v = [e] /\ ca_events w = [e'] /\ ca_todo v = [t] /\ ca_todo w = [t'] /\
  @schedule_keeps env_east an_event e /\ @zoned_schedule a_todo t /\
  (exists l, @series env_east an_event e l Ended /\ map start_of l = [Some (DDateTime (Naive (mk_ndt 19753 32400 0))); Some (DDateTime (Naive (mk_ndt 19755 32400 0))); Some (DDateTime (Naive (mk_ndt 19756 32400 0)))]) /\
  (exists l, @series env_east a_todo t l Ended /\ map start_of l = [Some (DDateTime (Local (mk_ndt 19753 82800 0))); Some (DDateTime (Local (mk_ndt 19755 82800 0)))]) /\
  (exists l, @series env_east a_todo t' l Ended /\ map start_of l = [Some (DDateTime (Local (mk_ndt 19754 3600 0))); Some (DDateTime (Local (mk_ndt 19756 3600 0)))]).
Proof.
  assert (X : exists v w, @vcalendar_of_str env_east plan_file = Ok v /\ generations (s_ical (@ser_vcalendar env_east)) (@vcalendar_of_str env_east) 2 v w /\ exists e e' t t',
    ca_events v = [e] /\ ca_events w = [e'] /\ ca_todo v = [t] /\ ca_todo w = [t'] /\
  @schedule_keeps env_east an_event e /\ @zoned_schedule a_todo t /\
  (exists l, @series env_east an_event e l Ended /\ map start_of l = [Some (DDateTime (Naive (mk_ndt 19753 32400 0))); Some (DDateTime (Naive (mk_ndt 19755 32400 0))); Some (DDateTime (Naive (mk_ndt 19756 32400 0)))]) /\
  (exists l, @series env_east a_todo t l Ended /\ map start_of l = [Some (DDateTime (Local (mk_ndt 19753 82800 0))); Some (DDateTime (Local (mk_ndt 19755 82800 0)))]) /\
  (exists l, @series env_east a_todo t' l Ended /\ map start_of l = [Some (DDateTime (Local (mk_ndt 19754 3600 0))); Some (DDateTime (Local (mk_ndt 19756 3600 0)))])).
  2:{ destruct X as (v & w & L & G & e & e' & t & t' & X). exists v, w, e, e', t, t'. split; [exact L|]. split; [exact (@C85_loaded_calendar env_east east_sane plan_file v plan_plain L)|]. split; [exact G|]. exact X. }
  do 2 eexists. split; [vm_compute; reflexivity|]. split.
  { eapply g_more; [eapply g_more; [apply g_here|vm_compute; reflexivity|vm_compute; reflexivity]|vm_compute; reflexivity|vm_compute; reflexivity]. }
  do 4 eexists. cbn [ca_events ca_todo]. do 4 (split; [reflexivity|]). split; [|split; [|split; [|split]]].
  - unfold schedule_keeps. cbn [start_of end_of excluded_of rule_of ev_dtstart ev_dtend ev_exdate ev_rrule]. small; cbn [keeps nd_nano]; auto.
    + unfold rule_numbers, writable_rule, small_ints. cbn [r_freq r_until r_count r_interval r_by_second r_by_minute r_by_hour r_by_day r_by_monthday r_by_yearday r_by_weekno r_by_month r_by_setpos]. small; auto; lia.
    + cbn [r_until] in *. small. exact I.
  - unfold zoned_schedule. cbn [start_of end_of excluded_of rule_of to_dtstart to_exdate to_rrule]. split; [|split; [|split]].
    + eexists. split; [reflexivity|]. eexists. split; reflexivity.
    + small.
    + small. eexists. split; reflexivity.
    + eexists. split; [reflexivity|]. split; [|split; [reflexivity|discriminate]].
      unfold rule_numbers, writable_rule, small_ints. cbn [r_freq r_until r_count r_interval r_by_second r_by_minute r_by_hour r_by_day r_by_monthday r_by_yearday r_by_weekno r_by_month r_by_setpos]. small; auto; lia.
  - eexists. split; [runs|]. reflexivity.
  - eexists. split; [runs|]. reflexivity.
  - eexists. split; [runs|]. reflexivity.
Qed.
