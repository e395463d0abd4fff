(** * C93 on concrete series *)
From Verif Require Import Base Env Chrono Types Components Iter BaseFacts SpecCal SpecIter PropIterEx SpecKinds PropKinds SpecPages PropPages.
Section Ex.
Context {E : Env}.
Ltac runs := eapply (collect_run _ 19 19); vm_compute; reflexivity.
Definition daily5 : item an_event := plain_event (clock 2024 1 1 10 0 0) None (Some (plain_rule Daily None (Some 5) 1)) [].
(** Five days, looked at from 1 January in windows up to 2, 2, 4 January and on: pages of one, none and two, and two left. *)
Example C93_nonvacuous :
  let a := clock 2024 1 1 0 0 0 in let cuts := [clock 2024 1 2 0 0 0; clock 2024 1 2 0 0 0; clock 2024 1 4 0 0 0] in
  exists r l ps rest, rule_of daily5 = Some r /\ orderly r (clock 2024 1 1 10 0 0) /\ tidy (clock 2024 1 1 10 0 0) /\ 1 <= r_interval r /\
    ascending a cuts /\ series daily5 l Ended /\ pages daily5 a cuts ps /\ series_after (clock 2024 1 4 0 0 0) daily5 rest Ended /\ l = concat ps ++ rest /\
    map starts ps = [[clock 2024 1 1 10 0 0]; []; [clock 2024 1 2 10 0 0; clock 2024 1 3 10 0 0]] /\ starts rest = [clock 2024 1 4 10 0 0; clock 2024 1 5 10 0 0].
Proof.
  cbv zeta. eexists. eexists. eexists [_; _; _]. eexists. split; [reflexivity|]. split; [exact Logic.I|]. split; [vm_compute; intuition discriminate|]. split; [vm_compute; discriminate|].
  split. { cbn [ascending]. unfold not_after. split; [split; [vm_compute; discriminate|exact Logic.I]|]. split; [split; [vm_compute; discriminate|exact Logic.I]|]. split; [split; [vm_compute; discriminate|exact Logic.I]|exact Logic.I]. }
  split; [runs|]. split. { cbn [pages]. split; [runs|]. split; [runs|]. split; [runs|exact Logic.I]. }
  split; [runs|]. vm_compute. auto.
Qed.
(** Days in a row from 1 January. *)
Example C93_days_nonvacuous : days (day 2024 2 28) [day 2024 2 29; day 2024 3 1] /\ ascending (day 2024 2 28) [day 2024 2 29; day 2024 3 1].
Proof. assert (D : days (day 2024 2 28) [day 2024 2 29; day 2024 3 1]) by (cbn [days]; repeat split; vm_compute; reflexivity). split; [exact D|]. apply C93_days; [exact D|exact Logic.I|]. intros u X; discriminate. Qed.
(** With cuts of both kinds, none after the next by the crate's order, pages can overlap: 2 January, 10 am, is before
    noon of that day and not before the day. *)
Example C93_mixed_cuts :
  let a := clock 2024 1 2 0 0 0 in let b := clock 2024 1 2 12 0 0 in let c := day 2024 1 2 in let e := day 2024 1 3 in
  date_cmp a b <> Gt /\ date_cmp b c <> Gt /\ date_cmp c e <> Gt /\
  exists p q, pages daily5 a [b; c; e] [p; []; q] /\ starts p = [clock 2024 1 2 10 0 0] /\ starts q = [clock 2024 1 2 10 0 0].
Proof.
  cbv zeta. split; [vm_compute; discriminate|]. split; [vm_compute; discriminate|]. split; [vm_compute; discriminate|].
  eexists. eexists. split. { cbn [pages]. split; [runs|]. split; [runs|]. split; [runs|exact Logic.I]. } vm_compute. auto.
Qed.
End Ex.
