(** * Concrete lines: the hypotheses of C95 are met *)
From Verif Require Import Base Env Chrono Types Ser Parser Derive Components BaseFacts SpecText SpecLine SpecComp SpecFields PropComp SpecFile PropDate PropInput PropPanic SpecAssemble SpecAppend PropAppend PropAppendEx SpecPieces PropPieces PropPiecesEx SpecEdit PropEdit.
Definition plain (k v : str) : content_line := mk_cl k [] v.
Definition todo_lines : list content_line := [plain (lit "DTSTAMP") (lit "20240101T000000Z"); plain (lit "UID") (lit "3"); plain (lit "SUMMARY") (lit "old"); plain (lit "X-A") (lit "b")].
Definition old_todo : str := crlf_lines [lit "BEGIN:VTODO"; lit "DTSTAMP:20240101T000000Z"; lit "UID:3"; lit "SUMMARY:o"; lit " ld"; lit "X-A:b"; lit "END:VTODO"].
Lemma new_line : line_exact (lit "SUMMARY:new" ++ CRLF) (plain (lit "SUMMARY") (lit "new")).
Proof.
  apply (C95_plain_line (lit "SUMMARY") (lit "new") CRLF).
  - unfold key_text. apply Forall_forall. intros c H. vm_compute in H. unfold key_char. repeat destruct H as [<-|H]; try lia.
  - vm_compute. discriminate.
  - vm_compute. discriminate.
  - split; intros X; vm_compute in X; intuition discriminate.
  - intros X; vm_compute in X; intuition discriminate.
  - now right.
Qed.
(** A line written before END:VTODO replaces the summary; written after BEGIN:VTODO it does not; without
    its lines the summary is gone, and so is the X- property without its own. *)
Example C95_nonvacuous : forall E : Env, exists v w x,
  vtodo_of_str old_todo = Ok v /\ ~ In QUOTE old_todo /\ line_exact (lit "SUMMARY:new" ++ CRLF) (plain (lit "SUMMARY") (lit "new")) /\
  to_summary v = Some (mk_text [] (lit "old")) /\ ~ In (lit "SUMMARY") vtodo_required /\
  vtodo_last (plain (lit "SUMMARY") (lit "new")) v w /\ to_summary w = Some (mk_text [] (lit "new")) /\ to_x_prop w = to_x_prop v /\ to_x_prop v <> [] /\
  vtodo_first (plain (lit "SUMMARY") (lit "new")) v v /\
  vtodo_without (lit "SUMMARY") v x /\ to_summary x = None.
Proof.
  intros E.
  assert (X : exists v, vtodo_of_lines todo_lines = Ok v /\ vtodo_of_str old_todo = Ok v /\ vtodo_of_lines (plain (lit "SUMMARY") (lit "new") :: todo_lines) = Ok v /\
    to_summary v = Some (mk_text [] (lit "old")) /\ to_x_prop v = [(lit "X-A", plain (lit "X-A") (lit "b"))]) by (eexists; repeat match goal with |- _ /\ _ => split end; vm_compute; reflexivity).
  destruct X as (v & H1 & H2 & H3 & H4 & H5).
  assert (X : exists w, vtodo_of_lines (todo_lines ++ [plain (lit "SUMMARY") (lit "new")]) = Ok w /\ to_summary w = Some (mk_text [] (lit "new")) /\ to_x_prop w = [(lit "X-A", plain (lit "X-A") (lit "b"))])
    by (eexists; repeat match goal with |- _ /\ _ => split end; vm_compute; reflexivity).
  destruct X as (w & W1 & W2 & W3).
  assert (X : exists x, vtodo_of_lines (kept_lines (lit "SUMMARY") todo_lines) = Ok x /\ to_summary x = None) by (eexists; split; vm_compute; reflexivity).
  destruct X as (x & X1 & X2). apply C11_vtodo_read in H1, H3, W1, X1.
  assert (N : ~ In (lit "SUMMARY") vtodo_required) by (intros X; vm_compute in X; intuition discriminate).
  exists v, w, x. split; [exact H2|]. split; [intros X; vm_compute in X; intuition discriminate|]. split; [exact new_line|]. split; [exact H4|]. split; [exact N|].
  split; [now apply (vtodo_last_iff todo_lines)|]. split; [exact W2|]. split; [congruence|]. split; [rewrite H5; discriminate|]. split; [now apply (vtodo_first_iff todo_lines)|]. split; [now apply (vtodo_without_iff todo_lines)|exact X2].
Qed.
