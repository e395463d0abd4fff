(** * C94 on concrete series *)
From Verif Require Import Base Env Chrono Types Components Iter BaseFacts SpecCal SpecIter PropIterEx SpecKinds PropKinds SpecFinite PropFinite.
Section Ex.
Context {E : Env}.
Ltac runs := eapply (collect_run _ 19 19); vm_compute; reflexivity.
(** Daily without end from 29 December 262142: the last day is never shown, the call that should show it panics. *)
Definition at_the_end : item an_event := plain_event (day 262142 12 29) None (Some (plain_rule Daily None None 1)) [].
Example C94_nonvacuous : exists d r l, start_of at_the_end = Some d /\ rule_of at_the_end = Some r /\ open_ended r /\ 1 <= r_interval r <= 255 /\ tidy d /\ zone_fits E d /\ orderly r d /\
  series at_the_end l Panicked /\ starts l = [day 262142 12 29; day 262142 12 30].
Proof.
  eexists. eexists. eexists. split; [reflexivity|]. split; [reflexivity|]. split; [split; reflexivity|]. split; [cbn; lia|]. split; [exact Logic.I|]. split; [exact Logic.I|]. split; [exact Logic.I|].
  split; [runs|]. vm_compute. reflexivity.
Qed.
(** A window from 31 December panics; one up to 30 December ends. *)
Example C94_windows_nonvacuous : series_after (day 262142 12 31) at_the_end [] Panicked /\
  exists l, series_between (day 262142 12 29) (day 262142 12 30) at_the_end l Ended /\ starts l = [day 262142 12 29].
Proof. split; [runs|]. eexists. split; [runs|]. vm_compute. reflexivity. Qed.
(** INTERVAL=0. *)
Definition stuck : item an_event := plain_event (day 2024 1 1) (Some (day 2024 1 2)) (Some (plain_rule Daily None None 0)) [].
Example C94_zero_nonvacuous : (forall n, series stuck (repeat stuck n) Cut) /\ series_after (day 2024 1 2) stuck [] Hangs.
Proof.
  destruct (C94_zero_interval an_event stuck (day 2024 1 1) (plain_rule Daily None None 0) (day 2024 1 2) (day 2024 1 2)) as (A & _ & B); try reflexivity.
  - split; reflexivity.
  - split; [exact Logic.I|reflexivity].
  - intros e H. injection H as <-. split; [exact Logic.I|reflexivity].
  - intros [].
  - split; [exact A|]. exact (proj1 (B ltac:(vm_compute; reflexivity))).
Qed.
(** Every hour of 2024, two hours long. *)
Definition hours : item an_event := plain_event (clock 2024 1 1 0 0 0) (Some (clock 2024 1 1 2 0 0)) (Some (plain_rule Hourly (Some (day 2024 12 31)) None 1)) [].
Example C94_until_nonvacuous : exists l, series hours l Ended.
Proof.
  apply (C94_until_ends an_event hours (clock 2024 1 1 0 0 0) (plain_rule Hourly (Some (day 2024 12 31)) None 1) (day 2024 12 31) 3600); try reflexivity.
  - cbn. lia.
  - vm_compute. intuition discriminate.
  - vm_compute. intuition discriminate.
  - intros e H. injection H as <-. split; [vm_compute; intuition discriminate|]. split; [vm_compute; intuition discriminate|vm_compute; reflexivity].
Qed.
End Ex.
