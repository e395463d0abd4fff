(** * C96 on concrete series *)
From Verif Require Import Base Env Chrono Types Ser Parser Derive Components Iter BaseFacts SpecText SpecLine SpecComp SpecFields SpecFile SpecAppend SpecAssemble PropInput PropAppendEx SpecPieces SpecEdit PropEdit SpecCal SpecIter PropIterEx SpecKinds PropKinds SpecFinite PropFinite SpecWhole PropWhole PropCancel.
Section Ex.
Context {E : Env}.
(** Daily from 1 to 4 January, the 2nd excluded: the walk goes to the 5th, the first past UNTIL. *)
Definition four : recur := plain_rule Daily (Some (day 2024 1 4)) None 1.
Definition meeting (ex : list date) : item an_event := plain_event (day 2024 1 1) (Some (day 2024 1 2)) (Some four) ex.
Definition january (i : Z) : slot := (day 2024 1 i, Some (day 2024 1 (i + 1))).
Ltac step := eapply walk_on; [vm_compute; intuition discriminate|split; vm_compute; reflexivity|].
Example four_walk : walk four (january 1) [january 2; january 3; january 4; january 5] Ended.
Proof. do 4 step. apply walk_past. vm_compute. reflexivity. Qed.
Example C96_nonvacuous : exists l d, start_of (meeting [day 2024 1 2]) = Some d /\ rule_of (meeting [day 2024 1 2]) = Some four /\ walk four (d, end_of (meeting [day 2024 1 2])) l Ended /\
  remaining (excluded_of (meeting [day 2024 1 2])) l = [january 3; january 4; january 5] /\ 1 <= r_interval four /\ tidy d /\ zone_fits E d /\
  exists occs, series (meeting [day 2024 1 2]) occs Ended /\ starts occs = [day 2024 1 1; day 2024 1 3; day 2024 1 4].
Proof.
  do 2 eexists. split; [reflexivity|]. split; [reflexivity|]. split; [exact four_walk|]. split; [vm_compute; reflexivity|]. split; [cbn; lia|]. split; [exact Logic.I|]. split; [exact Logic.I|].
  eexists. split; [eapply (collect_run _ 9 9); vm_compute; reflexivity|reflexivity].
Qed.
(** The 3rd cancelled: it alone is missing.  The 5th "cancelled": the 4th is lost. *)
Example C96_cancel_nonvacuous :
  more_excluded (meeting [day 2024 1 2]) (meeting [day 2024 1 2; day 2024 1 3]) [day 2024 1 3] /\ ~ In (fst (january 5)) [day 2024 1 3] /\
  more_excluded (meeting [day 2024 1 2]) (meeting [day 2024 1 2; day 2024 1 5]) [day 2024 1 5] /\ In (fst (january 5)) [day 2024 1 5] /\
  (exists occs, series (meeting [day 2024 1 2; day 2024 1 3]) occs Ended /\ starts occs = [day 2024 1 1; day 2024 1 4]) /\
  (exists occs, series (meeting [day 2024 1 2; day 2024 1 5]) occs Ended /\ starts occs = [day 2024 1 1; day 2024 1 3]).
Proof.
  split; [repeat split|]. split; [vm_compute; intuition discriminate|]. split; [repeat split|]. split; [left; reflexivity|].
  split; (eexists; split; [eapply (collect_run _ 9 9); vm_compute; reflexivity|reflexivity]).
Qed.
End Ex.
(** The line of such an exclusion in a file. *)
Example C96_line_nonvacuous : forall E : Env, exists l, line_exact (lit "EXDATE:20240103,20240105" ++ CRLF) l /\ cl_key l = lit "EXDATE" /\ parse_exdate l = Ok [day 2024 1 3; day 2024 1 5].
Proof.
  intros E. exists (mk_cl (lit "EXDATE") [] (lit "20240103,20240105")). split; [|split; [reflexivity|vm_compute; reflexivity]].
  apply (C95_plain_line (lit "EXDATE") (lit "20240103,20240105") CRLF).
  - unfold key_text. apply Forall_forall. intros c H. vm_compute in H. unfold key_char. repeat destruct H as [<-|H]; try lia.
  - vm_compute. discriminate.
  - vm_compute. discriminate.
  - split; intros X; vm_compute in X; intuition discriminate.
  - intros X; vm_compute in X; intuition discriminate.
  - now right.
Qed.
