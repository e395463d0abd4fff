(** * C81: which fields decide the occurrences *)
From Verif Require Import Base Env Chrono Types Components Iter BaseFacts ChronoFacts SpecCal PropDate SpecIter IterFacts PropIter PropIterEx TimeFacts PropTime SpecKinds PropKinds.

Section Two.
Context {E : Env} {T T' : Type} (R : recurring T) (R' : recurring T') (K : recurs R) (K' : recurs R') (strict : bool).
(** The second has the end of the first, or (unless [strict]) none. *)
Definition ends_ok (e e' : option date) : Prop := e' = e \/ strict = false /\ e' = None.
Definition akin (x : T) (x' : T') : Prop :=
  rc_dtstart R x = rc_dtstart R' x' /\ ends_ok (rc_dtend R x) (rc_dtend R' x') /\ rc_exdate R x = rc_exdate R' x' /\
  match rc_rrule R x, rc_rrule R' x' with Some r, Some r' => same_but_by r r' | None, None => True | _, _ => False end.
Lemma akin_occ x x' d e e' r r' : akin x x' -> same_but_by r r' -> shaped R x e -> shaped R' x' e' -> ends_ok e e' -> akin (occ R x d e r) (occ R' x' d e' r').
Proof.
  intros (A & B & C & D) S0 Sh Sh' He. destruct (occ_fields R x d e r K Sh) as (O1 & O2 & O3 & O4).
  destruct (occ_fields R' x' d e' r' K' Sh') as (P1 & P2 & P3 & P4).
  unfold akin. rewrite O1, O2, O3, O4, P1, P2, P3, P4. auto.
Qed.
Definition akin_res (a : ires T unit) (b : ires T' unit) : Prop :=
  match a, b with IYield _ z, IYield _ z' => akin z z' | IDone _, IDone _ => True | IFuel, IFuel => True | IPanic, IPanic => True | IPanic, _ => strict = false | _, _ => False end.
Lemma akin_loop n x x' : akin x x' -> akin_res (next_loop R n x) (next_loop R' n x').
Proof.
  revert x x'. induction n as [|n IH]; intros x x' A; cbn [next_loop]; [exact I|]. pose proof A as (A1 & A2 & A3 & A4).
  destruct (rc_dtstart R x) as [d|] eqn:D; [|now rewrite !body_none by auto].
  destruct (rc_rrule R x) as [r|] eqn:Q, (rc_rrule R' x') as [r'|] eqn:Q'; try contradiction; [|now rewrite !body_none by auto].
  rewrite (body_eq R x d r K D Q), (body_eq R' x' d r' K' (eq_sym A1) Q'). destruct A4 as (F & U & C & I).
  unfold until_over. rewrite U. destruct (match r_until r' with Some u => date_naive u <? date_naive d | None => false end); [exact Logic.I|].
  rewrite <- A3, <- C, <- (add_ext r r') by auto. destruct (recur_add r d) as [d1| |]; try exact Logic.I.
  assert (Es : add_opt r' (rc_dtend R x) = add_opt r (rc_dtend R x)) by (destruct (rc_dtend R x); cbn; [now rewrite (add_ext r r')|auto]).
  destruct (add_opt r (rc_dtend R x)) as [e1| |] eqn:A'.
  2,3: destruct A2 as [-> | [Hs ->]]; [rewrite Es; exact Logic.I|]; cbn [add_opt]; destruct (existsb _ _); [|destruct (r_count r) as [c|]; [destruct (c =? 0)|]]; cbn; auto; destruct (next_loop R' n _); auto.
  assert (exists e', add_opt r' (rc_dtend R' x') = Ok e' /\ ends_ok e1 e') as (e' & Ea & He).
  { destruct A2 as [-> | [Hs ->]]; [exists e1; split; [auto|now left]|exists None; split; [reflexivity|now right]]. }
  rewrite Ea.
  pose proof (steps_opt_shaped _ _ _ _ _ (add_opt_steps _ _ _ A')) as Sh. pose proof (steps_opt_shaped _ _ _ _ _ (add_opt_steps _ _ _ Ea)) as Sh'.
  assert (S0 : same_but_by r r') by (repeat split; auto).
  destruct (existsb _ _); [apply IH, akin_occ; auto|].
  destruct (r_count r) as [c|] eqn:Cr; [destruct (c =? 0); [exact Logic.I|]|]; apply akin_occ; auto. unfold same_but_by, set_count. cbn. auto.
Qed.
Definition fate_after (f : fate) : fate := match f with Panicked => if strict then Panicked else Cut | _ => f end.
Lemma akin_run x x' l f : akin x x' -> run (recur_next R) x l f -> exists l', run (recur_next R') x' l' (fate_after f) /\ Forall2 akin l l'.
Proof.
  intros A H. revert x' A. induction H as [x|x s' n H|x n H|x H|x n a s' l f H Rn IH]; intros x' A.
  - exists []. split; [apply run_cut|constructor].
  - exists []. split; [|constructor]. pose proof (akin_loop n x x' A) as L. unfold recur_next in H. destruct (next_loop R n x) eqn:N; inv H.
    apply (run_end _ _ x' n). unfold recur_next. destruct (next_loop R' n x'); cbn in L; try contradiction; auto.
  - exists []. split; [|constructor]. unfold fate_after. pose proof (akin_loop n x x' A) as L. destruct strict eqn:Hs; [|constructor].
    unfold recur_next in H. destruct (next_loop R n x) eqn:N; inv H. apply (run_panic _ _ n). unfold recur_next. destruct (next_loop R' n x'); cbn in L; try congruence; auto.
  - exists []. split; [|constructor]. constructor. intros n. pose proof (akin_loop n x x' A) as L. specialize (H n). unfold recur_next in *. destruct (next_loop R n x); inv H.
    destruct (next_loop R' n x'); cbn in L; try contradiction; auto.
  - pose proof (akin_loop n x x' A) as L. unfold recur_next in H. destruct (next_loop R n x) as [u z| | |] eqn:N; inv H.
    destruct (next_loop R' n x') as [u' z'| | |] eqn:N'; cbn in L; try contradiction. destruct (IH z' L) as (l' & Rn' & F). exists (x' :: l'). split; [|constructor; auto].
    apply (run_more _ _ n x' z'); auto. unfold recur_next. now rewrite N'.
Qed.
End Two.
(** Two iterators in step: related states give related answers. *)
Section Sim.
Context {St St' A A' : Type} (RS : St -> St' -> Prop) (RA : A -> A' -> Prop).
Definition ires_rel (x : ires St A) (y : ires St' A') : Prop :=
  match x, y with IYield a s, IYield a' s' => RA a a' /\ RS s s' | IDone s, IDone s' => RS s s' | IPanic, IPanic => True | IFuel, IFuel => True | _, _ => False end.
Definition in_step (next : nat -> St -> ires St A) (next' : nat -> St' -> ires St' A') : Prop := forall n s s', RS s s' -> ires_rel (next n s) (next' n s').
Lemma step_run next next' s s' l f : in_step next next' -> RS s s' -> run next s l f -> exists l', run next' s' l' f /\ Forall2 RA l l'.
Proof.
  intros H R0 Rn. revert s' R0. induction Rn as [s|s s1 n Q|s n Q|s Q|s n a s1 l f Q Rn IH]; intros s' R0.
  - exists []. split; constructor.
  - pose proof (H n s s' R0) as L. rewrite Q in L. exists []. split; [|constructor]. destruct (next' n s') eqn:Q'; cbn in L; try contradiction. eapply run_end; eauto.
  - pose proof (H n s s' R0) as L. rewrite Q in L. exists []. split; [|constructor]. destruct (next' n s') eqn:Q'; cbn in L; try contradiction. eapply run_panic; eauto.
  - exists []. split; [|constructor]. constructor. intros n. pose proof (H n s s' R0) as L. rewrite Q in L. destruct (next' n s') eqn:Q'; cbn in L; try contradiction. auto.
  - pose proof (H n s s' R0) as L. rewrite Q in L. destruct (next' n s') as [a' s1'| | |] eqn:Q'; cbn in L; try contradiction. destruct L as [La Ls].
    destruct (IH s1' Ls) as (l' & R' & F). exists (a' :: l'). split; [eapply run_more; eauto|constructor; auto].
Qed.
End Sim.
Section Wrap.
Context {St St' A A' : Type} (RS : St -> St' -> Prop) (RA : A -> A' -> Prop) (next : nat -> St -> ires St A) (next' : nat -> St' -> ires St' A') (H : in_step RS RA next next').
Context (p : A -> option bool) (p' : A' -> option bool) (P : forall a a', RA a a' -> p a = p' a').
Definition flagged (x : bool * St) (y : bool * St') : Prop := fst x = fst y /\ RS (snd x) (snd y).
Lemma step_skip_loop m n s s' : RS s s' -> ires_rel flagged RA (skip_loop next p m n s) (skip_loop next' p' m n s').
Proof.
  revert s s'. induction m as [|m IH]; intros s s' R0; cbn [skip_loop]; [exact I|]. pose proof (H n s s' R0) as L.
  destruct (next n s) as [a s1|s1| |], (next' n s') as [a' s1'|s1'| |]; cbn in L; try contradiction; cbn; try exact I.
  - destruct L as [La Ls]. specialize (IH s1 s1' Ls). rewrite <- (P a a' La). destruct (p a) as [[|]|]; [exact IH| |exact I]. unfold flagged. cbn. auto.
  - unfold flagged. cbn. auto.
Qed.
Lemma step_skip : in_step flagged RA (skip_while next p) (skip_while next' p').
Proof.
  intros n [b s] [b' s'] [Q R0]. cbn [fst snd] in *. subst b'. cbn [skip_while]. destruct b; [|now apply step_skip_loop]. pose proof (H n s s' R0) as L.
  destruct (next n s) as [a s1|s1| |], (next' n s') as [a' s1'|s1'| |]; cbn in L; try contradiction; cbn; unfold flagged; cbn; auto. destruct L; auto.
Qed.
Lemma step_take : in_step flagged RA (take_while_it next p) (take_while_it next' p').
Proof.
  intros n [b s] [b' s'] [Q R0]. cbn [fst snd] in *. subst b'. unfold take_while_it. destruct b; [cbn; unfold flagged; cbn; auto|]. pose proof (H n s s' R0) as L.
  destruct (next n s) as [a s1|s1| |], (next' n s') as [a' s1'|s1'| |]; cbn in L; try contradiction; cbn; auto.
  - destruct L as [La Ls]. rewrite <- (P a a' La). destruct (p a) as [[|]|]; cbn; unfold flagged; cbn; auto.
  - unfold flagged. cbn. auto.
Qed.
End Wrap.
Section Kinds.
Context {E : Env}.
(** The same rule, BY parts and WKST aside, or no rule in both. *)
Definition same_rule (o o' : option recur) : Prop :=
  match o, o' with Some r, Some r' => same_but_by r r' | None, None => True | _, _ => False end.
Lemma starts_same k k' b (l : list (item k)) (l' : list (item k')) : Forall2 (akin (code k) (code k') b) l l' ->
  map start_of l' = map start_of l /\ (b = true -> map end_of l' = map end_of l).
Proof.
  induction 1 as [|x x' l l' (A & B & _) F [IH1 IH2]]; [auto|]. cbn [map]. rewrite !code_start in A. rewrite !code_end in B. rewrite A, IH1. split; auto. intros ->. rewrite IH2 by auto.
  destruct B as [-> | [B _]]; [auto|discriminate].
Qed.
(** The occurrences of an event, a to-do or a journal depend on DTSTART, DTEND (of an event), EXDATE and RRULE only: RDATE, DURATION, STATUS, DUE, the BY
    parts and everything else have no part in it, not even the kind of the component. *)
Theorem C81_schedule_fields : forall k k' (x : item k) (x' : item k') l f,
  start_of x = start_of x' -> end_of x = end_of x' -> excluded_of x = excluded_of x' -> same_rule (rule_of x) (rule_of x') -> series x l f ->
  exists l', series x' l' f /\ map start_of l' = map start_of l /\ map end_of l' = map end_of l.
Proof.
  intros k k' x x' l f A B C D H.
  destruct (akin_run (code k) (code k') (code_recurs k) (code_recurs k') true x x' l f) as (l' & R & F); [|exact H|].
  - unfold akin, ends_ok. rewrite !code_start, !code_end, !code_excluded, !code_rule. repeat match goal with |- _ /\ _ => split end; auto.
  - exists l'. apply starts_same in F as [F1 F2]. repeat match goal with |- _ /\ _ => split end; auto. destruct f; exact R.
Qed.
(** The same for [after], [between] and [at]: a window of two components with the same schedule shows the same. *)
Lemma akin_step k k' : in_step (akin (code k) (code k') true) (akin (code k) (code k') true) (recur_next (code k)) (recur_next (code k')).
Proof.
  intros n x x' A. pose proof (akin_loop (code k) (code k') (code_recurs k) (code_recurs k') true n x x' A) as L. unfold recur_next.
  destruct (next_loop (code k) n x), (next_loop (code k') n x'); cbn in L; try contradiction; try discriminate; cbn; auto.
Qed.
Lemma akin_before k k' a (y : item k) (y' : item k') : akin (code k) (code k') true y y' -> starts_before (code k) a y = starts_before (code k') a y'.
Proof. intros (A & _). unfold starts_before. now rewrite A. Qed.
Lemma akin_kinds k k' (x : item k) (x' : item k') : start_of x = start_of x' -> end_of x = end_of x' -> excluded_of x = excluded_of x' -> same_rule (rule_of x) (rule_of x') ->
  akin (code k) (code k') true x x'.
Proof. intros A B C D. unfold akin, ends_ok. rewrite !code_start, !code_end, !code_excluded, !code_rule. repeat match goal with |- _ /\ _ => split end; auto. Qed.
Theorem C81_after : forall k k' (x : item k) (x' : item k') a l f,
  start_of x = start_of x' -> end_of x = end_of x' -> excluded_of x = excluded_of x' -> same_rule (rule_of x) (rule_of x') -> series_after a x l f ->
  exists l', series_after a x' l' f /\ map start_of l' = map start_of l /\ map end_of l' = map end_of l.
Proof.
  intros k k' x x' a l f A B C D H. unfold series_after in H.
  assert (I0 : flagged (akin (code k) (code k') true) (after_init x) (after_init x')) by (split; [reflexivity|exact (akin_kinds k k' x x' A B C D)]).
  destruct (step_run _ _ _ _ _ _ _ _ (step_skip _ _ _ _ (akin_step k k') _ _ (akin_before k k' a)) I0 H) as (l' & R & F).
  exists l'. split; [exact R|]. apply starts_same in F as [F1 F2]. auto.
Qed.
Theorem C81_between : forall k k' (x : item k) (x' : item k') a b l f,
  start_of x = start_of x' -> end_of x = end_of x' -> excluded_of x = excluded_of x' -> same_rule (rule_of x) (rule_of x') -> series_between a b x l f ->
  exists l', series_between a b x' l' f /\ map start_of l' = map start_of l /\ map end_of l' = map end_of l.
Proof.
  intros k k' x x' a b l f A B C D H. unfold series_between in H.
  assert (I0 : flagged (flagged (akin (code k) (code k') true)) (between_init x) (between_init x')) by (split; [reflexivity|split; [reflexivity|exact (akin_kinds k k' x x' A B C D)]]).
  destruct (step_run _ _ _ _ _ _ _ _
    (step_take _ _ _ _ (step_skip _ _ _ _ (akin_step k k') _ _ (akin_before k k' a)) _ _ (akin_before k k' b)) I0 H) as (l' & R & F).
  exists l'. split; [exact R|]. apply starts_same in F as [F1 F2]. auto.
Qed.
(** DTEND decides no start; it can only make the series panic earlier. *)
Theorem C81_end_decides_no_start : forall (x x' : vevent) l f,
  ev_dtstart x = ev_dtstart x' -> ev_dtend x' = None -> ev_exdate x = ev_exdate x' -> same_rule (ev_rrule x) (ev_rrule x') -> series (k := an_event) x l f ->
  exists l', series (k := an_event) x' l' (match f with Panicked => Cut | _ => f end) /\ map ev_dtstart l' = map ev_dtstart l.
Proof.
  intros x x' l f A B C D H.
  destruct (akin_run rec_vevent rec_vevent (code_recurs an_event) (code_recurs an_event) false x x' l f) as (l' & R & F); [|exact H|].
  - unfold akin, ends_ok. cbn. rewrite A. repeat match goal with |- _ /\ _ => split end; auto.
  - exists l'. split; [exact R|]. apply (starts_same an_event an_event) in F as [F _]. clear - F. revert l F. induction l' as [|a l' IH]; intros [|b l] F; try discriminate; auto. cbn in *. inv F. f_equal; auto.
Qed.
(** A to-do and a journal with the same schedule, the to-do due once and with an RDATE. *)
Definition busy_todo (start : date) (rule : recur) (ex : list date) (due : date) (more : rdate) : item a_todo :=
  mk_vtodo (Naive (mk_ndt 0 0 0)) (mk_text [] (lit "t")) None None None (Some start) None None None None None None None None (Some Cancelled) None None (Some rule) (Some due) None
    [] [] [] [] [] ex [] [] [] [more] [] [].
End Kinds.
Example C81_nonvacuous : forall E : Env,
  let x := busy_todo (day 2024 1 31) (plain_rule Monthly None (Some 3) 1) [day 2024 2 29] (day 2024 2 1) (RDates [day 2024 5 5]) in
  let x' := plain_journal (day 2024 1 31) (plain_rule Monthly None (Some 3) 1) [day 2024 2 29] in
  start_of x = start_of x' /\ end_of x = end_of x' /\ excluded_of x = excluded_of x' /\ same_rule (rule_of x) (rule_of x') /\
  exists l l', series x l Ended /\ series x' l' Ended /\ map start_of l = map start_of l' /\ length l = 3%nat.
Proof. intros E x x'. repeat match goal with |- _ /\ _ => split end; try reflexivity; [cbn; unfold same_but_by; auto|]. do 2 eexists. split; [runs|]. split; [runs|]. split; reflexivity. Qed.
