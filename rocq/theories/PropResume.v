(** * C72: an occurrence carries the rest of the series; C75: which excluded dates matter *)
From Verif Require Import Base Env Chrono Types Components Iter BaseFacts SpecCal SpecIter IterFacts PropIter PropIterEx.

Section Resume.
Context {E : Env}.
Lemma next_yields T (R : recurring T) n x a s : recur_next R n x = IYield a s -> a = x.
Proof. unfold recur_next. destruct (next_loop R n x); congruence. Qed.
(** The series from an occurrence on is the rest of the series it came from, with the same end. *)
Theorem C72_resume : forall T (R : recurring T) x l f i y, recurs R -> run (recur_next R) x l f -> nth_error l i = Some y -> run (recur_next R) y (skipn i l) f.
Proof.
  intros T R x l f i y _ H. revert i. induction H as [x|x s' n H|x n H|x H|x n a s' l f H Rn IH]; intros i Hi; try (destruct i; discriminate).
  pose proof (next_yields _ _ _ _ _ _ H) as ->. destruct i as [|i]; cbn in *; [injection Hi as <-; econstructor; eauto|auto].
Qed.
(** And any series from an occurrence on continues the series it came from. *)
Theorem C72_continue : forall T (R : recurring T) x l f i y l' f', recurs R -> run (recur_next R) x l f -> nth_error l i = Some y ->
  run (recur_next R) y l' f' -> run (recur_next R) x (firstn i l ++ l') f'.
Proof.
  intros T R x l f i y l' f' _ H. revert i. induction H as [x|x s' n H|x n H|x H|x n a s' l f H Rn IH]; intros i Hi Hy; try (destruct i; discriminate).
  pose proof (next_yields _ _ _ _ _ _ H) as ->. destruct i as [|i]; cbn in *; [now injection Hi as <-|]. econstructor; eauto.
Qed.
(** So every occurrence is the first of its own series. *)
Corollary C72_first : forall T (R : recurring T) x l f y, recurs R -> run (recur_next R) x l f -> In y l -> exists rest, run (recur_next R) y (y :: rest) f.
Proof.
  intros T R x l f y K H I. apply In_nth_error in I as [i Hi]. pose proof (C72_resume T R x l f i y K H Hi) as Q.
  destruct (skipn i l) as [|z r] eqn:S.
  - exfalso. assert (L : (length l <= i)%nat) by (rewrite <- (firstn_skipn i l), S, app_nil_r; apply firstn_le_length). apply nth_error_None in L. congruence.
  - pose proof (C42_first_always T R y r f z K Q) as ->. eauto.
Qed.

(** ** Excluded dates *)
(** Two components with the same start, end and rule, whose exclusions are the same among the dates the rule steps to. *)
Definition same_exclusions {T} (R : recurring T) (x x' : T) : Prop :=
  rc_dtstart R x = rc_dtstart R x' /\ rc_dtend R x = rc_dtend R x' /\ rc_rrule R x = rc_rrule R x' /\
  forall d r k d', rc_dtstart R x = Some d -> rc_rrule R x = Some r -> steps r (S k) d d' -> (In d' (rc_exdate R x) <-> In d' (rc_exdate R x')).
Section Ex.
Context {T : Type} (R : recurring T) (K : recurs R).
Lemma same_occ x x' d d1 e1 r r' : rc_dtstart R x = Some d -> rc_rrule R x = Some r -> recur_add r d = Ok d1 -> shaped R x e1 ->
  r' = r \/ (exists c, r' = set_count r c) -> same_exclusions R x x' -> same_exclusions R (occ R x d1 e1 r') (occ R x' d1 e1 r').
Proof.
  intros Hd Hr A Sh Q (S1 & S2 & S3 & S4). destruct (occ_fields R x d1 e1 r' K Sh) as (O1 & O2 & O3 & O4).
  assert (Sh' : shaped R x' e1) by (unfold shaped in *; now rewrite <- S2). destruct (occ_fields R x' d1 e1 r' K Sh') as (P1 & P2 & P3 & P4).
  unfold same_exclusions. rewrite O1, O2, O3, O4, P1, P2, P3, P4. repeat match goal with |- _ /\ _ => split end; auto.
  intros d0 r0 k d' X Y Z. injection X as <-. injection Y as <-. apply (S4 d r (S k) d' Hd Hr). econstructor; eauto. destruct Q as [->|[c ->]]; auto. now apply steps_set_count in Z.
Qed.
Definition same_res (a b : ires T unit) : Prop :=
  match a, b with IYield _ z, IYield _ z' => same_exclusions R z z' | IDone _, IDone _ => True | IPanic, IPanic => True | IFuel, IFuel => True | _, _ => False end.
Lemma same_loop n x x' : same_exclusions R x x' -> same_res (next_loop R n x) (next_loop R n x').
Proof.
  revert x x'. induction n as [|n IH]; intros x x' A; cbn [next_loop]; [exact I|]. pose proof A as (A1 & A2 & A3 & A4).
  destruct (rc_dtstart R x) as [d|] eqn:D; [|now rewrite !body_none by auto].
  destruct (rc_rrule R x) as [r|] eqn:Q; [|now rewrite !body_none by auto].
  rewrite (body_eq R x d r K D Q), (body_eq R x' d r K (eq_sym A1) (eq_sym A3)), <- A2.
  destruct (until_over r d); [exact I|]. destruct (recur_add r d) as [d1| |] eqn:A5; try exact I. destruct (add_opt r (rc_dtend R x)) as [e1| |] eqn:A'; try exact I.
  pose proof (steps_opt_shaped _ _ _ _ _ (add_opt_steps _ _ _ A')) as Sh.
  assert (X : existsb (date_eqb d1) (rc_exdate R x') = existsb (date_eqb d1) (rc_exdate R x)).
  { apply Bool.eq_iff_eq_true. rewrite !in_ex. symmetry. apply (A4 d r 0%nat d1); auto. econstructor; eauto. constructor. }
  rewrite X. clear X. destruct (existsb (date_eqb d1) (rc_exdate R x)); [apply IH; eapply same_occ; eauto|].
  destruct (r_count r) as [c|] eqn:Cr; [destruct (c =? 0); [exact I|]|]; eapply same_occ; eauto.
Qed.
Lemma same_run x x' l f : same_exclusions R x x' -> run (recur_next R) x l f -> exists l', run (recur_next R) x' l' f /\ Forall2 (same_exclusions R) l l'.
Proof.
  intros A H. revert x' A. induction H as [x|x s' n H|x n H|x H|x n a s' l f H Rn IH]; intros x' A.
  - exists []. split; constructor.
  - exists []. split; [|constructor]. pose proof (same_loop n x x' A) as L. unfold recur_next in H. destruct (next_loop R n x) eqn:N; inv H.
    apply (run_end _ _ x' n). unfold recur_next. destruct (next_loop R n x'); cbn in L; try contradiction; auto.
  - exists []. split; [|constructor]. pose proof (same_loop n x x' A) as L. unfold recur_next in H. destruct (next_loop R n x) eqn:N; inv H.
    apply (run_panic _ _ n). unfold recur_next. destruct (next_loop R n x'); cbn in L; try contradiction; auto.
  - exists []. split; [|constructor]. constructor. intros n. pose proof (same_loop n x x' A) as L. specialize (H n). unfold recur_next in *. destruct (next_loop R n x); inv H.
    destruct (next_loop R n x'); cbn in L; try contradiction; auto.
  - pose proof (same_loop n x x' A) as L. unfold recur_next in H. destruct (next_loop R n x) as [u z| | |] eqn:N; inv H.
    destruct (next_loop R n x') as [u' z'| | |] eqn:N'; cbn in L; try contradiction. destruct (IH z' L) as (l' & R' & F). exists (x' :: l'). split; [|constructor; auto].
    apply (run_more _ _ n x' z'); auto. unfold recur_next. now rewrite N'.
Qed.
End Ex.
Theorem C75_exclusions : forall T (R : recurring T) x x' l f, recurs R -> same_exclusions R x x' -> run (recur_next R) x l f ->
  exists l', run (recur_next R) x' l' f /\ map (rc_dtstart R) l' = map (rc_dtstart R) l /\ map (rc_dtend R) l' = map (rc_dtend R) l.
Proof.
  intros T R x x' l f K S H. destruct (same_run R K x x' l f S H) as (l' & R' & F). exists l'. split; auto.
  clear -F. induction F as [|a b l l' (A & B & _) F [IH1 IH2]]; cbn; auto. rewrite A, B, IH1, IH2. auto.
Qed.
(** The order and the repetitions of EXDATE do not matter: it is a set. *)
Corollary C75_a_set : forall T (R : recurring T) x x' l f, recurs R ->
  rc_dtstart R x = rc_dtstart R x' -> rc_dtend R x = rc_dtend R x' -> rc_rrule R x = rc_rrule R x' -> (forall d, In d (rc_exdate R x) <-> In d (rc_exdate R x')) ->
  run (recur_next R) x l f -> exists l', run (recur_next R) x' l' f /\ map (rc_dtstart R) l' = map (rc_dtstart R) l /\ map (rc_dtend R) l' = map (rc_dtend R) l.
Proof. intros T R x x' l f K A B C D. apply C75_exclusions; auto. unfold same_exclusions. auto. Qed.
(** A calendar date in EXDATE excludes no date-time: when the start has a time, or the rule steps by less than a day, the calendar dates in EXDATE
    change nothing; and when the start is a calendar date and the rule steps by days or more, the date-times in it change nothing. *)
Definition timed (r : recur) (d : date) : Prop := match d with DDate _ => ~ daily_or_slower (r_freq r) | DDateTime _ => True end.
Lemma add_kind r d d' : recur_add r d = Ok d' -> match d' with DDate _ => ~ timed r d | DDateTime _ => timed r d end.
Proof.
  unfold recur_add, timed, daily_or_slower. destruct d as [n|t].
  - destruct (r_freq r) eqn:F; cbn [freq_rank]; cbn [Z.leb Z.compare Pos.compare Pos.compare_cont];
      (destruct (recur_add_date r n) eqn:A, (recur_add_ndt r (midnight n)) eqn:B; cbn; intros H; try discriminate; injection H as <-; tauto).
  - destruct (recur_add_dt r t); cbn; intros H; try discriminate. injection H as <-. exact I.
Qed.
Lemma steps_kind r k d d' : steps r (S k) d d' -> match d' with DDate _ => ~ timed r d | DDateTime _ => timed r d end.
Proof.
  revert d. induction k as [|k IH]; intros d H; inversion H as [|k0 d0 d1 d2 A B]; subst.
  - inversion B; subst. now apply add_kind.
  - apply add_kind in A. specialize (IH _ B). destruct d1 as [m|t]; cbn [timed] in *.
    + destruct d as [n|t]; cbn [timed] in *; destruct d'; tauto.
    + destruct d'; [tauto|]. exact A.
Qed.
Definition is_day (d : date) : Prop := match d with DDate _ => True | DDateTime _ => False end.
Corollary C75_other_kind : forall T (R : recurring T) x x' l f d r, recurs R -> rc_dtstart R x = Some d -> rc_rrule R x = Some r ->
  rc_dtstart R x' = Some d -> rc_dtend R x = rc_dtend R x' -> rc_rrule R x' = Some r ->
  (forall t, (timed r d <-> ~ is_day t) -> In t (rc_exdate R x) <-> In t (rc_exdate R x')) ->
  run (recur_next R) x l f -> exists l', run (recur_next R) x' l' f /\ map (rc_dtstart R) l' = map (rc_dtstart R) l /\ map (rc_dtend R) l' = map (rc_dtend R) l.
Proof.
  intros T R x x' l f d r K A B C D F G. apply C75_exclusions; auto. unfold same_exclusions. repeat match goal with |- _ /\ _ => split end; try congruence.
  intros d0 r0 k d' X Y Z. rewrite A in X. rewrite B in Y. injection X as <-. injection Y as <-. apply steps_kind in Z. apply G. destruct d'; cbn [is_day]; tauto.
Qed.
End Resume.
(** Non-trivial instances: the second occurrence of a daily series with an excluded day continues it; excluding a calendar date does not
    remove the occurrence at noon of that day. *)
Example C72_nonvacuous : forall E : Env, exists l y, run (recur_next rec_vevent) daily3 l Ended /\ nth_error l 1 = Some y /\ ev_dtstart y = day 2024 1 3 /\ length l = 3%nat.
Proof. intros E. eexists. eexists. split; [eapply (collect_run _ 9 9); vm_compute; reflexivity|]. split; [reflexivity|]. split; reflexivity. Qed.
Definition noon (ex : list date) : vevent := plain_event (clock 2024 1 1 12 0 0) None (Some (plain_rule Daily None (Some 2) 1)) ex.
Example C75_nonvacuous : forall E : Env, (exists l, run (recur_next rec_vevent) (noon [day 2024 1 2]) l Ended /\ starts l = [clock 2024 1 1 12 0 0; clock 2024 1 2 12 0 0]) /\
  (exists l, run (recur_next rec_vevent) (noon [clock 2024 1 2 12 0 0]) l Ended /\ starts l = [clock 2024 1 1 12 0 0; clock 2024 1 3 12 0 0]) /\
  same_exclusions rec_vevent (noon [day 2024 1 2]) (noon []) /\ timed (plain_rule Daily None (Some 2) 1) (clock 2024 1 1 12 0 0).
Proof.
  intros E. split; [|split; [|split; [|exact I]]].
  - eexists. split; [eapply (collect_run _ 9 9); vm_compute; reflexivity|reflexivity].
  - eexists. split; [eapply (collect_run _ 9 9); vm_compute; reflexivity|reflexivity].
  - unfold same_exclusions. repeat match goal with |- _ /\ _ => split end; try reflexivity. intros d r k d' A B S. injection A as <-. injection B as <-.
    apply steps_kind in S. destruct d' as [n|t]; [exfalso; apply S; exact I|]. cbn. split; [intros [X|[]]; discriminate|intros []].
Qed.
