(** * Concrete runs: the hypotheses of C38-C52 are met, and what the code does with them *)
From Verif Require Import Base Env Chrono Types Components Iter BaseFacts SpecCal SpecIter.

Fixpoint collect {St A} (next : nat -> St -> ires St A) (fuel calls : nat) (s : St) : list A * fate :=
  match calls with
  | O => ([], Cut)
  | S c => match next fuel s with
           | IYield a s' => let (l, f) := collect next fuel c s' in (a :: l, f)
           | IDone _ => ([], Ended)
           | IPanic => ([], Panicked)
           | IFuel => ([], Cut)
           end
  end.
Lemma collect_run {St A} (next : nat -> St -> ires St A) fuel calls s l f : collect next fuel calls s = (l, f) -> run next s l f.
Proof.
  revert s l f. induction calls as [|c IH]; intros s l f; cbn; [intros H; inv H; constructor|].
  destruct (next fuel s) as [a s'|s'| |] eqn:N.
  - destruct (collect next fuel c s') as [l' f'] eqn:C. intros H; inv H. econstructor; eauto.
  - intros H; inv H. econstructor; eauto.
  - intros H; inv H. econstructor; eauto.
  - intros H; inv H. constructor.
Qed.

(** An event with nothing but times. *)
Definition plain_event (start : date) (fin : option date) (rule : option recur) (ex : list date) : vevent :=
  mk_vevent (Naive (mk_ndt 0 0 0)) (mk_text [] (lit "u")) start None None None None None None None None None None None None None None rule fin None
    [] [] [] [] [] ex [] [] [] [] [] [] [].
Definition plain_rule (f : freq) (until : option date) (count : option Z) (interval : Z) : recur :=
  mk_recur f until count interval [] [] [] [] [] [] [] [] [] None.
Definition day (y m d : Z) : date := DDate (days_of_ymd y m d).
Definition clock (y m d h mi s : Z) : date := DDateTime (Naive (mk_ndt (days_of_ymd y m d) (h * 3600 + mi * 60 + s) 0)).
Definition starts (l : list vevent) : list date := map ev_dtstart l.

Section Ex.
Context {E : Env}.
Ltac runs := eapply (collect_run _ 9 9); vm_compute; reflexivity.
(** Daily, COUNT=3, from 1 January, 1 and 2 January excluded: the excluded first is
    given out, the excluded second is not, three are given out in all (C40, C42, C44, C45). *)
Definition daily3 := plain_event (day 2024 1 1) None (Some (plain_rule Daily None (Some 3) 1)) [day 2024 1 1; day 2024 1 2].
Example C42_nonvacuous : exists l, run (recur_next rec_vevent) daily3 l Ended /\ starts l = [day 2024 1 1; day 2024 1 3; day 2024 1 4] /\ In (day 2024 1 1) (ev_exdate daily3).
Proof. eexists. split; [runs|]. split; [reflexivity|]. left. reflexivity. Qed.
Example C40_nonvacuous : exists r d, rc_rrule rec_vevent daily3 = Some r /\ r_count r = Some 3 /\ r_until r = None /\ 1 <= r_interval r /\ rc_dtstart rec_vevent daily3 = Some d /\ tidy d /\ zone_fits E d.
Proof. eexists. eexists. repeat split; try reflexivity; cbn; lia. Qed.
(** No rule: nothing, not even the event itself (C38). *)
Example C38_nonvacuous : run (recur_next rec_vevent) (plain_event (day 2024 1 1) None None []) [] Ended.
Proof. runs. Qed.
(** UNTIL=3 January: 1, 2, 3 January; the time of day of UNTIL does not matter; with 4
    January excluded, 3 January is lost (C41). *)
Example C41_nonvacuous :
  (exists l, run (recur_next rec_vevent) (plain_event (clock 2024 1 1 12 0 0) None (Some (plain_rule Daily (Some (clock 2024 1 3 0 0 0)) None 1)) []) l Ended /\
     starts l = [clock 2024 1 1 12 0 0; clock 2024 1 2 12 0 0; clock 2024 1 3 12 0 0]) /\
  (exists l, run (recur_next rec_vevent) (plain_event (day 2024 1 1) None (Some (plain_rule Daily (Some (day 2024 1 3)) None 1)) [day 2024 1 4]) l Ended /\
     starts l = [day 2024 1 1; day 2024 1 2]).
Proof. split; eexists; (split; [runs|reflexivity]). Qed.
(** INTERVAL=0 and the start excluded: the first call never returns (C44). *)
Example C44_nonvacuous : exists d r, let x := plain_event (day 2024 1 1) None (Some (plain_rule Daily None None 0)) [day 2024 1 1] in
  rc_dtstart rec_vevent x = Some d /\ rc_rrule rec_vevent x = Some r /\ r_interval r = 0 /\ standing r d /\ In d (rc_exdate rec_vevent x) /\ ~ past_until r d.
Proof. eexists. eexists. cbn. repeat split; auto. Qed.
(** Hourly from a date-time, every 36 hours: positions 0, 36, 72 (C39, C43, C47, C48). *)
Definition hourly36 := plain_event (clock 2024 2 28 18 0 0) (Some (clock 2024 2 28 20 0 0)) (Some (plain_rule Hourly None (Some 3) 36)) [].
Example C39_nonvacuous : exists l, run (recur_next rec_vevent) hourly36 l Ended /\
  map (fun y => (ev_dtstart y, ev_dtend y)) l =
    [(clock 2024 2 28 18 0 0, Some (clock 2024 2 28 20 0 0)); (clock 2024 3 1 6 0 0, Some (clock 2024 3 1 8 0 0)); (clock 2024 3 2 18 0 0, Some (clock 2024 3 2 20 0 0))].
Proof. eexists. split; [runs|reflexivity]. Qed.
Example C39_hypotheses : tidy (ev_dtstart hourly36) /\ unit_seconds Hourly = Some 3600 /\ rule_ok (plain_rule Hourly None (Some 3) 36).
Proof. unfold tidy, tidy_time, rule_ok. cbn. repeat split; lia. Qed.
(** Monthly: 30 and 31 January both go to 29 February, so the length shrinks (C47). *)
Example C47_monthly_changes_length : exists l,
  run (recur_next rec_vevent) (plain_event (day 2024 1 30) (Some (day 2024 1 31)) (Some (plain_rule Monthly None (Some 2) 1)) []) l Ended /\
  map (fun y => (ev_dtstart y, ev_dtend y)) l = [(day 2024 1 30, Some (day 2024 1 31)); (day 2024 2 29, Some (day 2024 2 29))].
Proof. eexists. split; [runs|reflexivity]. Qed.
(** 31 January drifts to the 29th and stays there (C49). *)
Example C49_nonvacuous : exists l,
  run (recur_next rec_vevent) (plain_event (day 2024 1 31) None (Some (plain_rule Monthly None (Some 4) 1)) []) l Ended /\
  starts l = [day 2024 1 31; day 2024 2 29; day 2024 3 29; day 2024 4 29].
Proof. eexists. split; [runs|reflexivity]. Qed.
(** 29 February, yearly: a panic and not even the first occurrence; every 4 years it works (C50). *)
Example C50_nonvacuous :
  run (recur_next rec_vevent) (plain_event (day 2024 2 29) None (Some (plain_rule Yearly None None 1)) []) [] Panicked /\
  exists l, run (recur_next rec_vevent) (plain_event (day 2024 2 29) None (Some (plain_rule Yearly None (Some 2) 4)) []) l Ended /\ starts l = [day 2024 2 29; day 2028 2 29].
Proof. split; [runs|]. eexists. split; [runs|reflexivity]. Qed.
(** Windows (C51). *)
Definition weekly5 := plain_event (day 2024 1 1) None (Some (plain_rule Weekly None (Some 5) 1)) [].
Example C51_nonvacuous :
  (exists l, run (between_next rec_vevent (day 2024 1 2) (day 2024 1 22)) (between_init weekly5) l Ended /\ starts l = [day 2024 1 8; day 2024 1 15]) /\
  (exists l, run (after_next rec_vevent (day 2024 1 16)) (after_init weekly5) l Ended /\ starts l = [day 2024 1 22; day 2024 1 29]) /\
  at_end (day 2024 1 8) = Ok (day 2024 1 9).
Proof. split; [|split; [|reflexivity]]; eexists; (split; [runs|reflexivity]). Qed.
(** A date with an hourly rule is followed by date-times: the date is not before
    2:00 of its day, so nothing is skipped and 0:00 + 1 h comes out of after(2:00). *)
Example C51_mixed_kinds : exists l,
  run (after_next rec_vevent (clock 2024 1 1 2 0 0)) (after_init (plain_event (day 2024 1 1) None (Some (plain_rule Hourly None (Some 2) 1)) [])) l Ended /\
  starts l = [day 2024 1 1; clock 2024 1 1 1 0 0] /\ start_before rec_vevent (clock 2024 1 1 2 0 0) (plain_event (clock 2024 1 1 1 0 0) None None []) = true.
Proof. eexists. split; [runs|]. split; reflexivity. Qed.
(** BY parts: BYMONTHDAY=15 changes nothing (C48). *)
Example C48_nonvacuous : same_but_by (plain_rule Daily None (Some 2) 1) (mk_recur Daily None (Some 2) 1 [] [] [] [] [15] [] [] [] [] (Some Sunday)).
Proof. repeat split. Qed.
End Ex.

(** A zone: 1 hour ahead of UTC, 2 hours from 31 March 2024, 01:00 UTC, 1 hour again from
    27 October, 01:00 UTC (Europe/Paris in 2024). *)
Definition spring : Z := days_of_ymd 2024 3 31 * 86400 + 3600.
Definition autumn : Z := days_of_ymd 2024 10 27 * 86400 + 3600.
Definition paris : Env := {|
  tz_offset := fun t => if (spring <=? t) && (t <? autumn) then 7200 else 3600;
  tz_local := fun l =>
    if (spring + 3600 <=? l) && (l <? spring + 7200) then MNone
    else if (autumn + 3600 <=? l) && (l <? autumn + 7200) then MAmbiguous 7200 3600
    else if (spring + 7200 <=? l) && (l <? autumn + 3600) then MSingle 7200 else MSingle 3600;
  f32_show := fun _ => []; f32_show1 := fun _ => []; f32_parse := fun _ => None; upper_nonascii := fun c => [c] |}.
Example paris_sane : sane_zone paris.
Proof.
  intros t. cbn [tz_offset tz_local paris]. split; [destruct (_ && _); lia|]. destruct (_ && _); auto. destruct (_ && _); auto. destruct (_ && _); lia.
Qed.
Definition utc (y m d h mi : Z) : ndt := mk_ndt (days_of_ymd y m d) (h * 3600 + mi * 60) 0.
(** Daily at 12:00 (11:00 UTC) on 30 March is 13:00 on the 31st (C52). *)
Example C52_nonvacuous : exists l,
  @run _ _ (@recur_next paris _ rec_vevent) (plain_event (DDateTime (Local (utc 2024 3 30 11 0))) None (Some (plain_rule Daily None (Some 2) 1)) []) l Ended /\
  map (fun y => match ev_dtstart y with DDateTime (Local u) => Some (@naive_local paris u) | _ => None end) l =
    [Some (utc 2024 3 30 12 0); Some (utc 2024 3 31 13 0)].
Proof. eexists. split; [eapply (collect_run _ 9 9); vm_compute; reflexivity|reflexivity]. Qed.
(** Hourly across the set-back of clocks: 2:30, 2:30 again, 3:30. The crate's order is that of
    the wall clock; between(2:30, 2:31) gives both. A half-hourly run is not in order:
    2:00, 2:30, 2:00, 2:30; after(2:30) lets the second 2:00 through. *)
Example C51_set_back : exists l,
  @run _ _ (@after_next paris _ rec_vevent (clock 2024 10 27 2 30 0))
    (after_init (plain_event (DDateTime (Local (utc 2024 10 27 0 0))) None (Some (plain_rule Minutely None (Some 4) 30)) [])) l Ended /\
  map (fun y => match ev_dtstart y with DDateTime (Local u) => Some (@naive_local paris u) | _ => None end) l =
    [Some (utc 2024 10 27 2 30); Some (utc 2024 10 27 2 0); Some (utc 2024 10 27 2 30)].
Proof. eexists. split; [eapply (collect_run _ 9 9); vm_compute; reflexivity|reflexivity]. Qed.
(** A monthly step into the gap of 31 March, 2:30, panics (C49, C43 in a zone). *)
Example C49_gap : @recur_add paris (plain_rule Monthly None None 1) (DDateTime (Local (utc 2024 2 29 1 30))) = Ok (DDateTime (Local (utc 2024 3 29 1 30))) /\
  @recur_add paris (plain_rule Monthly None None 2) (DDateTime (Local (utc 2024 1 31 1 30))) = Panic.
Proof. split; vm_compute; reflexivity. Qed.
