(** * Facts about the iterator *)
From Verif Require Import Base Env Chrono Types Components Iter BaseFacts ChronoFacts SpecCal SpecIter.

(** ** Generic *)
Definition mono {St A} (next : nat -> St -> ires St A) : Prop :=
  forall n m s, (n <= m)%nat -> next n s <> IFuel -> next m s = next n s.
Lemma mono_det {St A} (next : nat -> St -> ires St A) n m s : mono next -> next n s <> IFuel -> next m s <> IFuel -> next n s = next m s.
Proof. intros M A1 A2. destruct (Nat.le_ge_cases n m) as [L|L]; [symmetry|]; now apply M. Qed.
Lemma run_det {St A} (next : nat -> St -> ires St A) s l f l' f' : mono next -> run next s l f -> run next s l' f' ->
  (l = l' /\ f = f') \/ (f = Cut /\ exists r, l' = l ++ r) \/ (f' = Cut /\ exists r, l = l' ++ r).
Proof.
  intros M R. revert l' f'.
  assert (Q : forall n m s (r1 r2 : ires St A), next n s = r1 -> next m s = r2 -> r1 <> IFuel -> r2 <> IFuel -> r1 = r2).
  { intros n m s0 r1 r2 <- <- ? ?. now apply mono_det. }
  induction R as [s|s s' n H|s n H|s H|s n a s' l f H R IH]; intros l' f' R';
    [right; left; split; auto; exists l'; auto| | | |];
    (inversion R' as [|? s2 n2 H2|? n2 H2|? H2|? n2 a2 s2 l2 f2 H2 R2]; subst;
     [right; right; split; auto; eexists; reflexivity|..]; auto;
     try (exfalso; first [rewrite H2 in H; discriminate H | rewrite H in H2; discriminate H2 |
       pose proof (Q _ _ _ _ _ H H2 ltac:(discriminate) ltac:(discriminate)); discriminate])).
  pose proof (Q _ _ _ _ _ H H2 ltac:(discriminate) ltac:(discriminate)) as X. inv X.
  destruct (IH _ _ R2) as [[-> ->]|[[-> [r ->]]|[-> [r ->]]]]; [auto|right; left|right; right]; split; auto; exists r; reflexivity.
Qed.
Lemma run_prefix {St A} (next : nat -> St -> ires St A) s l r f : run next s (l ++ r) f -> run next s l Cut.
Proof.
  revert s. induction l as [|a l IH]; intros s H; [constructor|]. cbn in H. inversion H; subst. econstructor; eauto.
Qed.

Section IterFacts.
Context {E : Env}.
Section Next.
Context {T : Type} (R : recurring T).
Lemma next_loop_mono n m x : (n <= m)%nat -> next_loop R n x <> IFuel -> next_loop R m x = next_loop R n x.
Proof.
  revert m x. induction n as [|n IH]; intros m x L H; [now cbn in H|]. destruct m as [|m]; [lia|]. cbn [next_loop] in *.
  destruct (loop_body R x); auto. apply IH; auto. lia.
Qed.
Lemma recur_next_mono : mono (recur_next R).
Proof.
  intros n m x L H. unfold recur_next in *. rewrite (next_loop_mono n m x L); auto. intros X. rewrite X in H. now apply H.
Qed.
End Next.
(** ** Setters *)
Definition occ {T} (R : recurring T) (x : T) (d : date) (e : option date) (r : recur) : T :=
  rc_set_rrule R (match e with Some e => rc_set_dtend R (rc_set_dtstart R x d) e | None => rc_set_dtstart R x d end) r.
Definition shaped {T} (R : recurring T) (x : T) (e : option date) : Prop :=
  match rc_dtend R x, e with Some _, Some _ | None, None => True | _, _ => False end.
Lemma occ_fields {T} (R : recurring T) x d e r : recurs R -> shaped R x e ->
  rc_dtstart R (occ R x d e r) = Some d /\ rc_dtend R (occ R x d e r) = e /\ rc_rrule R (occ R x d e r) = Some r /\
  rc_exdate R (occ R x d e r) = rc_exdate R x.
Proof. intros K; revert x; destruct K; intros x H; unfold shaped, occ in *; destruct x, e; cbn in *; try contradiction; auto; destruct ev_dtend; try contradiction; auto. Qed.
Lemma occ_occ {T} (R : recurring T) x d e r d' e' r' : recurs R -> shaped R x e -> shaped R x e' ->
  occ R (occ R x d e r) d' e' r' = occ R x d' e' r'.
Proof. intros K; revert x; destruct K; intros x H H'; unfold shaped, occ in *; destruct x, e, e'; cbn in *; try contradiction; auto; destruct ev_dtend; try contradiction; auto. Qed.
Lemma occ_self {T} (R : recurring T) x d r : recurs R -> rc_dtstart R x = Some d -> rc_rrule R x = Some r -> occ R x d (rc_dtend R x) r = x.
Proof. intros K; revert x; destruct K; intros x H H'; unfold occ in *; destruct x; cbn in *; try match goal with |- context [match ?e with Some _ => _ | None => _ end] => destruct e end; subst; try (injection H as <-); reflexivity. Qed.
Lemma occ_shaped {T} (R : recurring T) x d e r e' : recurs R -> shaped R x e -> shaped R x e' -> shaped R (occ R x d e r) e'.
Proof. intros K H H'. unfold shaped. destruct (occ_fields R x d e r K H) as (_ & -> & _). unfold shaped in *. destruct (rc_dtend R x), e, e'; auto. Qed.
Definition until_over (r : recur) (d : date) : bool := match r_until r with Some u => date_naive u <? date_naive d | None => false end.
Lemma until_over_iff r d : until_over r d = true <-> past_until r d.
Proof. unfold until_over, past_until. destruct (r_until r); [apply Z.ltb_lt|]. split; [discriminate|contradiction]. Qed.
Definition add_opt (r : recur) (e : option date) : outcome (option date) :=
  match e with Some e => omap Some (recur_add r e) | None => Ok None end.
(** One turn of the loop, on start, end and rule. *)
Lemma body_eq {T} (R : recurring T) x d r : recurs R -> rc_dtstart R x = Some d -> rc_rrule R x = Some r ->
  loop_body R x =
  if until_over r d then TNone else
  match recur_add r d with
  | Ok d' =>
      match add_opt r (rc_dtend R x) with
      | Ok e' =>
          if existsb (date_eqb d') (rc_exdate R x) then TContinue (occ R x d' e' r)
          else match r_count r with
               | Some c => if c =? 0 then TNone else TBreak (occ R x d' e' (set_count r (Some (c - 1))))
               | None => TBreak (occ R x d' e' r)
               end
      | _ => TPanic
      end
  | _ => TPanic
  end.
Proof.
  intros K; revert x; destruct K; intros x Hd Hr; unfold loop_body; rewrite Hd, Hr; fold (until_over r d); destruct (until_over r d); auto;
  destruct (recur_add r d) as [d'| |]; auto; destruct x; cbn in *.
  destruct ev_dtend as [e|]; cbn.
  - destruct (recur_add r e) as [e'| |]; cbn; auto.
  - destruct (existsb _ _); cbn; auto; destruct (r_count r) as [c|]; auto; destruct (c =? 0); auto.
Qed.
Lemma body_none {T} (R : recurring T) x : rc_dtstart R x = None \/ rc_rrule R x = None -> loop_body R x = TNone.
Proof. intros [H|H]; unfold loop_body; rewrite H; auto. destruct (rc_dtstart R x); auto. Qed.
(** ** Equality of dates *)
Lemma ndt_eqb_eq a b : ndt_eqb a b = true <-> a = b.
Proof.
  destruct a as [a1 a2 a3], b as [b1 b2 b3]. unfold ndt_eqb. cbn. rewrite !andb_true_iff, !Z.eqb_eq. split; [intros [[-> ->] ->]; auto|]. intros H. inv H. auto.
Qed.
Lemma date_eqb_eq a b : date_eqb a b = true <-> a = b.
Proof.
  destruct a as [a|[a|a]], b as [b|[b|b]]; cbn; rewrite ?ndt_eqb_eq, ?Z.eqb_eq; split; try discriminate; try congruence.
Qed.
Lemma in_ex d l : existsb (date_eqb d) l = true <-> In d l.
Proof.
  rewrite existsb_exists. split.
  - intros (y & H & K). apply date_eqb_eq in K. now subst.
  - intros H. exists d. split; auto. now apply date_eqb_eq.
Qed.
(** ** [k] steps *)
Lemma steps_app r j k a b c : steps r j a b -> steps r k b c -> steps r (j + k) a c.
Proof. induction 1; cbn; auto. intros. econstructor; eauto. Qed.
Lemma steps_split r j k a c : steps r (j + k) a c -> exists b, steps r j a b /\ steps r k b c.
Proof.
  revert a. induction j as [|j IH]; cbn; intros a H; [exists a; split; auto; constructor|]. inversion H; subst.
  destruct (IH _ H2) as (b & B & C). exists b. split; auto. econstructor; eauto.
Qed.
Lemma steps_det r k a b c : steps r k a b -> steps r k a c -> b = c.
Proof. intros H. revert c. induction H; intros c H'; inversion H'; subst; auto. apply IHsteps. congruence. Qed.
Lemma steps_opt_app r j k a b c : steps_opt r j a b -> steps_opt r k b c -> steps_opt r (j + k) a c.
Proof. destruct a, b, c; cbn; try contradiction; auto. apply steps_app. Qed.
Lemma add_set_count r c d : recur_add (set_count r c) d = recur_add r d.
Proof. reflexivity. Qed.
Lemma steps_set_count r c k a b : steps (set_count r c) k a b <-> steps r k a b.
Proof. split; induction 1; econstructor; eauto; rewrite add_set_count in *; auto. Qed.
Lemma steps_opt_set_count r c k a b : steps_opt (set_count r c) k a b <-> steps_opt r k a b.
Proof. destruct a, b; cbn; try tauto. apply steps_set_count. Qed.
Lemma past_set_count r c d : past_until (set_count r c) d <-> past_until r d.
Proof. reflexivity. Qed.
Lemma add_opt_steps r e e' : add_opt r e = Ok e' -> steps_opt r 1 e e'.
Proof. destruct e as [e|]; cbn; [|intros H; inv H; exact I]. destruct (recur_add r e) as [w| |] eqn:W; cbn; intros H; inv H. econstructor; eauto. constructor. Qed.
Lemma steps_opt_shaped {T} (R : recurring T) x r k e : steps_opt r k (rc_dtend R x) e -> shaped R x e.
Proof. unfold shaped. destruct (rc_dtend R x), e; cbn; auto. Qed.
(** ** One call *)
Definition next_count (r : recur) : recur := match r_count r with Some c => set_count r (Some (c - 1)) | None => r end.
Section Call.
Context {T : Type} (R : recurring T) (K : recurs R).
(** [m] excluded positions after [x]. *)
Definition skipped (x : T) (d : date) (r : recur) (m : nat) (dm : date) (em : option date) : Prop :=
  steps r m d dm /\ steps_opt r m (rc_dtend R x) em /\
  (forall j dj, (0 < j <= m)%nat -> steps r j d dj -> In dj (rc_exdate R x)) /\
  (forall j dj, (j < m)%nat -> steps r j d dj -> ~ past_until r dj).
Lemma skipped_0 x d r : skipped x d r 0 d (rc_dtend R x).
Proof. repeat split; try (intros; lia); try constructor. destruct (rc_dtend R x); cbn; auto. constructor. Qed.
Lemma skipped_S x d r d1 e1 m dm em : rc_dtstart R x = Some d -> rc_rrule R x = Some r ->
  ~ past_until r d -> recur_add r d = Ok d1 -> add_opt r (rc_dtend R x) = Ok e1 -> In d1 (rc_exdate R x) ->
  skipped (occ R x d1 e1 r) d1 r m dm em -> skipped x d r (S m) dm em.
Proof.
  intros Hd Hr Hu A1 A2 Hx (S1 & S2 & S3 & S4). pose proof (add_opt_steps _ _ _ A2) as A3. pose proof (steps_opt_shaped _ _ _ _ _ A3) as Sh.
  destruct (occ_fields R x d1 e1 r K Sh) as (_ & O2 & _ & O4). rewrite O2, O4 in *. split; [econstructor; eauto|]. split; [apply (steps_opt_app r 1 m _ e1); auto|]. split.
  - intros j dj Hj Hs. inversion Hs; subst; [lia|]. rewrite A1 in H. inv H. destruct k; [inversion H0; subst; auto|]. eapply S3; [|eauto]. lia.
  - intros j dj Hj Hs. inversion Hs; subst; auto. rewrite A1 in H. inv H. eapply S4; [|eauto]. lia.
Qed.
Lemma recur_add_not_err r d e : recur_add r d <> Err e.
Proof.
  assert (U : forall A (o : option A), unwrap o <> Err e) by (intros A []; discriminate).
  assert (C : forall n A (f : tdelta -> outcome A), (forall t, f t <> Err e) -> obind (td_check n) f <> Err e) by (intros n A f H; unfold td_check; destruct (td_ok n); cbn; [apply H|discriminate]).
  assert (D1 : forall d t, date_add_td d t <> Err e) by (intros; unfold date_add_td; destruct (date_ok _); discriminate).
  assert (D2 : forall d t, ndt_add_td d t <> Err e).
  { intros. unfold ndt_add_td. repeat match goal with |- context [if ?b then _ else _] => destruct b end; discriminate. }
  assert (D3 : forall d t, date_add_months d t <> Err e).
  { intros. unfold date_add_months. destruct (_ =? 0); [discriminate|]. destruct (ymd_of_days d0) as [[y m] dd]. destruct (from_ymd_opt _ _ _); discriminate. }
  assert (D4 : forall d t, ndt_add_months d t <> Err e).
  { intros. unfold ndt_add_months. specialize (D3 (nd_date d0) t). destruct (date_add_months _ _); cbn; congruence. }
  assert (M : forall A B (f : A -> B) o, o <> Err e -> omap f o <> Err e) by (intros A B f []; cbn; congruence).
  assert (X1 : forall n, recur_add_ndt r n <> Err e).
  { intros n. unfold recur_add_ndt, td_seconds, td_minutes, td_hours, td_days, td_weeks. destruct (r_freq r); auto. }
  assert (X2 : forall n, recur_add_local r n <> Err e).
  { intros n. unfold recur_add_local, td_seconds, td_minutes, td_hours, td_days, td_weeks, local_add_td. destruct (r_freq r); auto.
    unfold local_add_months. specialize (D4 (naive_local n) (r_interval r)). destruct (ndt_add_months _ _); cbn; auto; congruence. }
  destruct d as [n|[n|n]]; cbn [recur_add]; auto.
  - destruct (_ <=? _); auto. apply M. unfold recur_add_date, td_days, td_weeks. destruct (r_freq r); auto; discriminate.
  - apply M. cbn. auto.
  - apply M. cbn. auto.
Qed.
Lemma add_opt_not_err r d e : add_opt r d <> Err e.
Proof. destruct d as [d|]; cbn; [|discriminate]. pose proof (recur_add_not_err r d e). destruct (recur_add r d); cbn; congruence. Qed.
(** What one call does, exactly. *)
Inductive call (x : T) (d : date) (r : recur) : nat -> ires T T -> Prop :=
| call_over m dm em : skipped x d r m dm em -> past_until r dm -> call x d r m (IDone x)
| call_count m dm em d' e' : skipped x d r m dm em -> ~ past_until r dm -> recur_add r dm = Ok d' -> add_opt r em = Ok e' ->
    ~ In d' (rc_exdate R x) -> r_count r = Some 0 -> call x d r m (IDone x)
| call_panic m dm em : skipped x d r m dm em -> ~ past_until r dm ->
    (recur_add r dm = Panic \/ add_opt r em = Panic) -> call x d r m IPanic
| call_yield m dm em d' e' : skipped x d r m dm em -> ~ past_until r dm -> recur_add r dm = Ok d' -> add_opt r em = Ok e' ->
    ~ In d' (rc_exdate R x) -> r_count r <> Some 0 -> call x d r m (IYield x (occ R x d' e' (next_count r))).
Lemma next_call n x d r : rc_dtstart R x = Some d -> rc_rrule R x = Some r -> recur_next R n x <> IFuel ->
  exists m, (m < n)%nat /\ call x d r m (recur_next R n x).
Proof.
  intros Hd Hr. unfold recur_next.
  assert (G : forall n x d, rc_dtstart R x = Some d -> rc_rrule R x = Some r -> next_loop R n x <> IFuel ->
    exists m, (m < n)%nat /\ call x d r m (match next_loop R n x with IYield _ z => IYield x z | IDone _ => IDone x | IPanic => IPanic | IFuel => IFuel end)).
  { clear n x d Hd Hr. induction n as [|n IH]; intros x d Hd Hr H; [now cbn in H|]. cbn [next_loop] in *. pose proof (body_eq R x d r K Hd Hr) as B.
    destruct (until_over r d) eqn:U.
    { apply until_over_iff in U. rewrite B. exists 0%nat. split; [lia|]. econstructor; eauto. apply skipped_0. }
    assert (U' : ~ past_until r d) by (rewrite <- until_over_iff; congruence).
    destruct (recur_add r d) as [d1|e|] eqn:A1; [|now apply recur_add_not_err in A1|].
    2:{ rewrite B. exists 0%nat. split; [lia|]. eapply call_panic; eauto using skipped_0. }
    destruct (add_opt r (rc_dtend R x)) as [e1|e|] eqn:A2; [|now apply add_opt_not_err in A2|].
    2:{ rewrite B. exists 0%nat. split; [lia|]. eapply call_panic; eauto using skipped_0. }
    destruct (existsb (date_eqb d1) (rc_exdate R x)) eqn:X.
    - apply in_ex in X. rewrite B in *. pose proof (steps_opt_shaped _ _ _ _ _ (add_opt_steps _ _ _ A2)) as Sh.
      destruct (occ_fields R x d1 e1 r K Sh) as (O1 & O2 & O3 & O4). destruct (IH _ d1 O1 O3 H) as (m & Hm & C). exists (S m). split; [lia|].
      destruct (next_loop R n (occ R x d1 e1 r)); try congruence; inversion C; subst; try (match goal with Q : skipped _ _ _ _ _ _ |- _ => eapply skipped_S in Q; eauto end).
      + match goal with N : ~ In _ (rc_exdate R (occ _ _ _ _ _)), Q : skipped _ _ _ _ _ _, A3 : add_opt r _ = Ok _ |- _ => rewrite O4 in N; pose proof Q as (_ & S2 & _); apply add_opt_steps in A3 as A4 end.
        rewrite occ_occ; eauto using call_yield. eapply steps_opt_shaped. eapply steps_opt_app; eauto.
      + eauto using call_over.
      + match goal with N : ~ In _ (rc_exdate R (occ _ _ _ _ _)) |- _ => rewrite O4 in N end. eauto using call_count.
      + eauto using call_panic.
    - assert (X' : ~ In d1 (rc_exdate R x)) by (rewrite <- in_ex; congruence). rewrite B. exists 0%nat. split; [lia|]. destruct (r_count r) as [c|] eqn:C.
      + destruct (c =? 0) eqn:Z0.
        * apply Z.eqb_eq in Z0. subst. eapply call_count; eauto. apply skipped_0.
        * apply Z.eqb_neq in Z0. replace (set_count r (Some (c - 1))) with (next_count r) by (unfold next_count; now rewrite C). eapply call_yield; eauto using skipped_0; congruence.
      + replace (occ R x d1 e1 r) with (occ R x d1 e1 (next_count r)) by (unfold next_count; now rewrite C). eapply call_yield; eauto using skipped_0; congruence. }
  intros H. apply G; auto. intros X. rewrite X in H. now apply H.
Qed.
End Call.
End IterFacts.
