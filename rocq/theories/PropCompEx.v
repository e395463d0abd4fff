(** * Concrete files: the hypotheses of C10-C15 are met *)
From Verif Require Import Base Env Chrono Types Ser Parser Derive Components SpecComp SpecFile SpecFields PropPanic.

Section Ex.
Context {E : Env}.
Definition cl (k v : String.string) : content_line := mk_cl (lit k) [] (lit v).
Definition some_lines : list content_line :=
  [cl "DTSTAMP" "nonsense"; cl "DTSTAMP" "20240101T000000Z"; cl "UID" "1"; cl "UID" "2"; cl "DTSTART" "20240229";
   cl "SUMMARY" "first"; cl "SUMMARY" "second"; cl "CATEGORIES" "a,b"; cl "CATEGORIES" "c"; cl "COMMENT" "x,y"; cl "COMMENT" "z";
   cl "X-FOO" "1"; cl "X-FOO" "2"; cl "RECURRENCE-ID" "20240229"].
(** The last UID counts; the broken first DTSTAMP does not matter (C10); fields (C11);
    RECURRENCE-ID is no field (C12). *)
Example C10_nonvacuous : exists v, vevent_of_lines some_lines = Ok v /\ t_text (ev_uid v) = lit "2" /\
  option_map t_text (ev_summary v) = Some (lit "second") /\ map t_text (ev_categories v) = [lit "a"; lit "b"; lit "c"] /\
  map t_text (ev_comment v) = [lit "x,y"; lit "z"] /\ ev_recurid v = None /\
  mget (lit "X-FOO") (ev_x_prop v) = Some (cl "X-FOO" "2") /\ mget (lit "RECURRENCE-ID") (ev_iana_prop v) = Some (cl "RECURRENCE-ID" "20240229").
Proof. eexists. split; [vm_compute; reflexivity|]. vm_compute. repeat split. Qed.
Example C10_hypotheses : In (lit "UID") vevent_required /\ ~ absent (lit "UID") [cl "UID" "2"] /\ absent (lit "UID") [cl "DTSTART" "20240229"].
Proof.
  split; [right; left; reflexivity|]. split.
  - intros H. inversion H; subst. now apply H2.
  - constructor; [discriminate|constructor].
Qed.
(** A broken earlier line of an optional property is an error, unlike a required one (C11). *)
Example C11_optional_checks_all : exists e, vevent_of_lines (cl "PRIORITY" "x" :: cl "PRIORITY" "1" :: some_lines) = Err e.
Proof. eexists. vm_compute. reflexivity. Qed.
(** Children are sorted by kind, in file order; text after the end is ignored (C14, C15). *)
Example C14_nonvacuous : exists v,
  vcalendar_of_str (calendar_with (event_with [] ++
    [lit "BEGIN:VTODO"; lit "DTSTAMP:20240101T000000Z"; lit "UID:3"; lit "END:VTODO"] ++
    event_with [lit "SUMMARY:folded "; lit " summary"; lit "BEGIN:VALARM"; lit "ACTION:AUDIO"; lit "TRIGGER:-PT5M"; lit "END:VALARM"]) ++ lit " and more") = Ok v /\
  map (fun e => (option_map t_text (ev_summary e), length (ev_alarms e))) (ca_events v) = [(None, 0%nat); (Some (lit "folded summary"), 1%nat)] /\
  map (fun t => t_text (to_uid t)) (ca_todo v) = [lit "3"] /\ ca_journals v = [].
Proof. eexists. split; [vm_compute; reflexivity|]. vm_compute. repeat split. Qed.
(** An unknown component inside a calendar is an error (C15). *)
Example C15_nonvacuous : (exists e, vcalendar_of_str (calendar_with [lit "BEGIN:VFOO"; lit "END:VFOO"]) = Err e) /\
  (exists e, vcalendar_of_str (calendar_with (event_with [] ++ [lit "METHOD:PUBLISH"])) = Err e).
Proof. split; eexists; vm_compute; reflexivity. Qed.
End Ex.
