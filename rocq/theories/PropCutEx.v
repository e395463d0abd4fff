(** * Concrete files: the hypotheses of C97 are met, and the double quote matters *)
From Verif Require Import Base Env Chrono Types Ser Parser Derive Components BaseFacts SpecText SpecLine SpecComp SpecFile PropDate PropInput PropPanic SpecInput SpecAssemble SpecAppend PropAppend PropAppendEx PropPiecesEx PropCut.
(** A calendar with an event; its END line is its last and only one. *)
Example C97_nonvacuous : forall E : Env, exists v, vcalendar_of_str (start ++ lit "END:" ++ lit "VCALENDAR" ++ CRLF) = Ok v /\ ca_events v <> [] /\
  closing (lit "VCALENDAR") start (start ++ lit "END:" ++ lit "VCALENDAR" ++ CRLF) /\ ~ In QUOTE (start ++ lit "END:" ++ lit "VCALENDAR" ++ CRLF).
Proof.
  intros E. assert (X : exists v, vcalendar_of_str (start ++ lit "END:" ++ lit "VCALENDAR" ++ CRLF) = Ok v /\ ca_events v <> []) by (eexists; split; [vm_compute; reflexivity|vm_compute; discriminate]).
  destruct X as (v & H & N). exists v. split; [exact H|]. split; [exact N|]. split; [apply ends; vm_compute; reflexivity|intros X; vm_compute in X; intuition discriminate].
Qed.
(** A quoted parameter value that holds what looks like an END line: cut before the closing quote, the
    file is read, and as another calendar. *)
Definition before_quote : str := crlf_lines [lit "BEGIN:VCALENDAR"; lit "PRODID:x"; lit "VERSION:2.0"; lit "X-A;B=""c:d"; lit "END:VCALENDAR"].
Definition from_quote : str := lit """:e" ++ CRLF ++ lit "END:VCALENDAR" ++ CRLF.
Example C97_quote_refuted : exists v v', @vcalendar_of_str env_east (before_quote ++ from_quote) = Ok v /\ @vcalendar_of_str env_east before_quote = Ok v' /\ v <> v'.
Proof.
  do 2 eexists. split; [vm_compute; reflexivity|]. split; [vm_compute; reflexivity|]. discriminate.
Qed.
