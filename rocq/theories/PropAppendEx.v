(** * A concrete file: the hypotheses of C91 are met *)
From Verif Require Import Base Env Chrono Types Ser Parser Derive Components BaseFacts SpecText SpecLine SpecComp SpecFile PropPanic SpecAssemble SpecAppend PropAppend.
Fixpoint has_sub (p s : str) : bool := starts_with p s || match s with [] => false | _ :: t => has_sub p t end.
Lemma has_sub_none p s : has_sub p s = false -> ~ contains p s.
Proof.
  intros H (a & b & ->). induction a as [|x a IH]; cbn [app has_sub] in H.
  - destruct (p ++ b) as [|c r] eqn:Hp; cbn [has_sub] in H; apply Bool.orb_false_iff in H as [H _]; rewrite <- Hp in H; assert (X : starts_with p (p ++ b) = true) by (apply starts_with_iff; eauto); congruence.
  - apply Bool.orb_false_iff in H as [_ H]. auto.
Qed.
Section Ex.
Context {E : Env}.
Definition short_event : str := crlf_lines (event_with [lit "SUMMARY:fol"; lit " ded"]).
Definition short_todo : str := crlf_lines [lit "BEGIN:VTODO"; lit "DTSTAMP:20240101T000000Z"; lit "UID:3"; lit "END:VTODO"].
Definition start : str := crlf_lines [lit "BEGIN:VCALENDAR"; lit "PRODID:x"; lit "VERSION:2.0"] ++ short_event.
Lemma ends (name p : str) : has_sub (lit "END:" ++ name) (unfold_lines p) = false -> closing name p (p ++ lit "END:" ++ name ++ CRLF).
Proof. split; [reflexivity|]. now apply has_sub_none. Qed.
Lemma todo_whole : exists t, vtodo_of_str short_todo = Ok t /\ t_text (to_uid t) = lit "3" /\ whole_child short_todo (CTodo t).
Proof.
  assert (X : exists t, vtodo_of_str short_todo = Ok t /\ t_text (to_uid t) = lit "3") by (eexists; split; vm_compute; reflexivity).
  destruct X as (t & H & U). exists t. split; [exact H|]. split; [exact U|]. split; [exact H|]. split.
  - exists (crlf_lines [lit "BEGIN:VTODO"; lit "DTSTAMP:20240101T000000Z"; lit "UID:3"]). apply ends. vm_compute. reflexivity.
  - intros X. vm_compute in X. intuition discriminate.
Qed.
Lemma event_whole : exists v, vevent_of_str short_event = Ok v /\ t_text (ev_uid v) = lit "1" /\ whole_child short_event (CEvent v).
Proof.
  assert (X : exists t, vevent_of_str short_event = Ok t /\ t_text (ev_uid t) = lit "1") by (eexists; split; vm_compute; reflexivity).
  destruct X as (t & H & U). exists t. split; [exact H|]. split; [exact U|]. split; [exact H|]. split.
  - exists (crlf_lines ([lit "BEGIN:VEVENT"; lit "DTSTAMP:20240101T000000Z"; lit "UID:1"; lit "DTSTART:20240101T000000Z"; lit "SUMMARY:fol"; lit " ded"])).
    apply ends. vm_compute. reflexivity.
  - intros X. vm_compute in X. intuition discriminate.
Qed.
(** A calendar with one event; a to-do and the event once more are written before its END line. *)
Example C91_nonvacuous : exists v t e, vcalendar_of_str (start ++ lit "END:VCALENDAR" ++ CRLF) = Ok v /\ closing (lit "VCALENDAR") start (start ++ lit "END:VCALENDAR" ++ CRLF) /\
  whole_child short_todo (CTodo t) /\ whole_child short_event (CEvent e) /\ t_text (to_uid t) = lit "3" /\ t_text (ev_uid e) = lit "1" /\ length (ca_events v) = 1%nat /\
  vcalendar_of_str (start ++ (short_todo ++ short_event) ++ lit "END:VCALENDAR" ++ CRLF) = Ok (calendar_more v [CTodo t; CEvent e]).
Proof.
  destruct todo_whole as (t & _ & Ut & Wt). destruct event_whole as (e & _ & Ue & We).
  assert (X : exists v, vcalendar_of_str (start ++ lit "END:VCALENDAR" ++ CRLF) = Ok v /\ length (ca_events v) = 1%nat) by (eexists; split; vm_compute; reflexivity).
  destruct X as (v & H & L). assert (C : closing (lit "VCALENDAR") start (start ++ lit "END:VCALENDAR" ++ CRLF)) by (apply (ends (lit "VCALENDAR")); vm_compute; reflexivity).
  exists v, t, e. repeat (split; [assumption|]).
  pose proof (C91_calendar _ _ _ [short_todo; short_event] [CTodo t; CEvent e] H C) as Q. cbn [concat] in Q. rewrite app_nil_r in Q. apply Q. auto.
Qed.
End Ex.
