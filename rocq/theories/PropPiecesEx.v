(** * Concrete files: the hypotheses of C92 are met, and the double quote matters *)
From Verif Require Import Base Env Chrono Types Ser Parser Derive Components BaseFacts SpecText SpecLine SpecComp SpecFile PropDate PropInput PropPanic SpecAssemble SpecAppend PropAppend PropAppendEx SpecPieces PropPieces.
(** A calendar with one event, whose SUMMARY is folded; the exact text of a to-do. *)
Example C92_nonvacuous : forall E : Env, exists v e t, let s := start ++ lit "END:VCALENDAR" ++ CRLF in
  vcalendar_of_str s = Ok v /\ ~ In QUOTE s /\ nth_error (ca_events v) 0 = Some e /\ t_text (ev_uid e) = lit "1" /\ child_exact short_todo (CTodo t) /\ child_exact short_event (CEvent e).
Proof.
  intros E. destruct todo_whole as (t & _ & _ & Wt). destruct event_whole as (e & He & Ue & We).
  assert (X : exists v, vcalendar_of_str (start ++ lit "END:VCALENDAR" ++ CRLF) = Ok v /\ nth_error (ca_events v) 0 = match vevent_of_str short_event with Ok x => Some x | _ => None end)
    by (eexists; split; vm_compute; reflexivity).
  destruct X as (v & H & N). rewrite He in N. exists v, e, t. split; [exact H|]. split; [intros X; vm_compute in X; intuition discriminate|]. split; [exact N|]. split; [exact Ue|].
  split; now apply whole_child_text.
Qed.
(** With double quotes the pieces are not independent: each of the two to-dos loads, the calendar of the
    first loads, the calendar of both does not. *)
Definition quoted_todo : str := crlf_lines [lit "BEGIN:VTODO"; lit "DTSTAMP:20240101T000000Z"; lit "UID:3"; lit "X-B;C=""d"":e"; lit "END:VTODO"].
Definition cal_head : str := crlf_lines [lit "BEGIN:VCALENDAR"; lit "PRODID:x"; lit "VERSION:2.0"].
Example C92_quote_refuted : exists t u v e, @vtodo_of_str env_east odd_todo = Ok t /\ @vtodo_of_str env_east quoted_todo = Ok u /\
  @vcalendar_of_str env_east (cal_head ++ odd_todo ++ lit "END:VCALENDAR") = Ok v /\
  @vcalendar_of_str env_east (cal_head ++ quoted_todo ++ lit "END:VCALENDAR") = Ok (calendar_more (calendar_bare v) [CTodo u]) /\
  @vcalendar_of_str env_east (cal_head ++ odd_todo ++ quoted_todo ++ lit "END:VCALENDAR") = Err e.
Proof.
  assert (X : exists t u v e, @vtodo_of_str env_east odd_todo = Ok t /\ @vtodo_of_str env_east quoted_todo = Ok u /\
    @vcalendar_of_str env_east (cal_head ++ odd_todo ++ lit "END:VCALENDAR") = Ok v /\ @vcalendar_of_str env_east (cal_head ++ odd_todo ++ quoted_todo ++ lit "END:VCALENDAR") = Err e)
   by (do 4 eexists; split; [vm_compute; reflexivity|split; [vm_compute; reflexivity|split; vm_compute; reflexivity]]).
  destruct X as (t & u & v & e & A & B & C & D). exists t, u, v, e. split; [exact A|]. split; [exact B|]. split; [exact C|]. split; [|exact D].
  vm_compute in B. injection B as <-. vm_compute in C. injection C as <-. vm_compute. reflexivity.
Qed.
