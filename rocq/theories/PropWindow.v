(** * C51 (and C45): the windows [after], [between] and [at] *)
From Verif Require Import Base Env Chrono Types Components Iter BaseFacts ChronoFacts SpecCal PropDate PropList SpecIter IterFacts PropIter TimeFacts PropTime.

(** ** [skip_while] and [take_while] on runs *)
Fixpoint drop_while {A} (p : A -> bool) (l : list A) : list A :=
  match l with [] => [] | a :: l' => if p a then drop_while p l' else l end.
Fixpoint take_until {A} (p : A -> bool) (l : list A) : list A :=
  match l with [] => [] | a :: l' => if p a then a :: take_until p l' else [] end.

Section Skip.
Context {St A : Type} (next : nat -> St -> ires St A) (p : A -> option bool) (M : mono next).
Lemma skip_loop_mono m : forall m' n n' s, (m <= m')%nat -> (n <= n')%nat -> skip_loop next p m n s <> IFuel -> skip_loop next p m' n' s = skip_loop next p m n s.
Proof.
  induction m as [|m IH]; intros m' n n' s Lm Ln H; [now cbn in H|]. destruct m' as [|m']; [lia|]. cbn [skip_loop] in *.
  assert (N : next n s <> IFuel) by (intros X; rewrite X in H; now apply H). rewrite (M n n' s Ln N).
  destruct (next n s) as [a s'|s'| |]; auto. destruct (p a) as [[|]|]; auto. apply IH; auto. lia.
Qed.
Lemma skip_while_mono : mono (skip_while next p).
Proof.
  intros n m [[|] s] L H; cbn [skip_while] in *.
  - rewrite (M n m s L); auto. intros X. rewrite X in H. now apply H.
  - now apply skip_loop_mono.
Qed.
Lemma take_while_mono : mono (take_while_it next p).
Proof.
  intros n m [[|] s] L H; cbn [take_while_it] in *; auto.
  rewrite (M n m s L); auto. intros X. rewrite X in H. now apply H.
Qed.
Lemma run_skip_on s l f : run next s l f -> run (skip_while next p) (true, s) l f.
Proof.
  induction 1 as [s|s s' n H|s n H|s H|s n a s' l f H R IH].
  - constructor.
  - apply (run_end _ _ (true, s') n). cbn. now rewrite H.
  - apply (run_panic _ _ n). cbn. now rewrite H.
  - constructor. intros n. cbn. now rewrite H.
  - apply (run_more _ _ n a (true, s')); auto. cbn. now rewrite H.
Qed.
Lemma skip_first s n a s' : next n s = IYield a s' -> p a = Some true -> forall l f, run (skip_while next p) (false, s') l f -> run (skip_while next p) (false, s) l f.
Proof.
  intros H P l f R.
  assert (Q : forall k r, skip_while next p k (false, s') = r -> r <> IFuel -> skip_while next p (S (Nat.max k n)) (false, s) = r).
  { intros k r Hk Hr. cbn [skip_while] in *. cbn [skip_loop]. rewrite (M n _ s), H, P by (rewrite ?H; try discriminate; lia).
    rewrite <- Hk. apply skip_loop_mono; rewrite ?Hk; auto; lia. }
  inversion R as [|? s2 k H2|? k H2|? H2|? k a2 s2 l2 f2 H2 R2]; subst.
  - constructor.
  - eapply run_end. apply (Q k); [exact H2|discriminate].
  - eapply run_panic. apply (Q k); [exact H2|discriminate].
  - constructor. intros k. cbn [skip_while]. destruct k as [|k]; auto. cbn [skip_loop]. destruct (next (S k) s) as [a3 s3|s3| |] eqn:N.
    + assert (X : next (S k) s = next n s) by (apply mono_det; auto; rewrite ?N, ?H; discriminate). rewrite N, H in X. inv X. rewrite P.
      specialize (H2 (S k)). cbn [skip_while] in H2. destruct (skip_loop next p k (S k) s') eqn:Y; auto; exfalso;
      rewrite (skip_loop_mono k (S k) (S k) (S k) s') in H2; auto; rewrite Y in *; try discriminate; lia.
    + assert (X : next (S k) s = next n s) by (apply mono_det; auto; rewrite ?N, ?H; discriminate). rewrite N, H in X. discriminate.
    + assert (X : next (S k) s = next n s) by (apply mono_det; auto; rewrite ?N, ?H; discriminate). rewrite N, H in X. discriminate.
    + reflexivity.
  - eapply run_more; [|exact R2]. apply (Q k); [exact H2|discriminate].
Qed.
Lemma run_skip (b : A -> bool) s l f : run next s l f -> Forall (fun y => p y = Some (b y)) l -> run (skip_while next p) (false, s) (drop_while b l) f.
Proof.
  induction 1 as [s|s s' n H|s n H|s H|s n a s' l f H R IH]; intros Fa.
  - constructor.
  - apply (run_end _ _ (false, s') (S n)). cbn. rewrite (M n (S n) s), H by (rewrite ?H; try discriminate; lia). reflexivity.
  - apply (run_panic _ _ (S n)). cbn. rewrite (M n (S n) s), H by (rewrite ?H; try discriminate; lia). reflexivity.
  - constructor. intros [|n]; auto. cbn. now rewrite H.
  - inversion Fa as [|? ? P F']; subst. cbn [drop_while]. destruct (b a) eqn:B.
    + apply (skip_first s n a s' H P). auto.
    + apply (run_more _ _ (S n) a (true, s')); [|now apply run_skip_on]. cbn. rewrite (M n (S n) s), H, P by (rewrite ?H; try discriminate; lia). reflexivity.
Qed.
Lemma run_take (b : A -> bool) s l f : run next s l f -> Forall (fun y => p y = Some (b y)) l ->
  run (take_while_it next p) (false, s) (take_until b l) (if forallb b l then f else Ended).
Proof.
  induction 1 as [s|s s' n H|s n H|s H|s n a s' l f H R IH]; intros Fa.
  - constructor.
  - apply (run_end _ _ (false, s') n). cbn. now rewrite H.
  - apply (run_panic _ _ n). cbn. now rewrite H.
  - constructor. intros n. cbn. now rewrite H.
  - inversion Fa as [|? ? P F']; subst. cbn [take_until forallb]. destruct (b a) eqn:B; cbn.
    + apply (run_more _ _ n a (false, s')); auto. cbn. now rewrite H, P.
    + apply (run_end _ _ (true, s') n). cbn. now rewrite H, P.
Qed.
(** Ended windows stay ended. *)
Lemma skip_ended st st' n : (forall s s' n, next n s = IDone s' -> forall m, (n <= m)%nat -> next m s' = IDone s') ->
  skip_while next p n st = IDone st' -> forall m, (n <= m)%nat -> skip_while next p m st' = IDone st'.
Proof.
  intros D. destruct st as [[|] s]; cbn [skip_while].
  - destruct (next n s) as [| s'| |] eqn:N; intros H; inv H. intros m L. cbn. now rewrite (D _ _ _ N m L).
  - intros H m L. destruct n as [|n]; [discriminate|]. destruct m as [|m]; [lia|].
    assert (G : forall k s, skip_loop next p k (S n) s = IDone st' -> exists s0 s', st' = (false, s') /\ next (S n) s0 = IDone s').
    { clear H s. induction k as [|k IH]; intros s H; cbn in H; [discriminate|]. destruct (next (S n) s) as [a s'|s'| |] eqn:N; try discriminate.
      - destruct (p a) as [[|]|]; try discriminate. eauto.
      - inv H. eauto. }
    apply G in H as (s0 & s' & -> & H). cbn. now rewrite (D _ _ _ H (S m) L).
Qed.
Lemma take_ended st st' n : (forall s s' n, next n s = IDone s' -> forall m, (n <= m)%nat -> next m s' = IDone s') ->
  take_while_it next p n st = IDone st' -> forall m, (n <= m)%nat -> take_while_it next p m st' = IDone st'.
Proof.
  intros D. destruct st as [[|] s]; cbn [take_while_it]; [intros H m _; now inv H|].
  destruct (next n s) as [a s'|s'| |] eqn:N; intros H m L; try discriminate.
  - destruct (p a) as [[|]|]; try discriminate. inv H. reflexivity.
  - inv H. cbn. now rewrite (D _ _ _ N m L).
Qed.
End Skip.

(** ** Lists *)
Definition once_out {A} (b : A -> bool) (l : list A) : Prop :=
  forall before x between y after, l = before ++ x :: between ++ y :: after -> b y = true -> b x = true.
Lemma once_out_tail {A} (b : A -> bool) a l : once_out b (a :: l) -> once_out b l.
Proof. intros H before x between y after ->. apply (H (a :: before) x between y after). reflexivity. Qed.
Lemma once_out_rest {A} (b : A -> bool) a l : once_out b (a :: l) -> b a = false -> Forall (fun y => b y = false) l.
Proof.
  intros H B. apply Forall_forall. intros y Hy. apply in_split in Hy as (l1 & l2 & ->). destruct (b y) eqn:Y; auto.
  rewrite (H [] a l1 y l2 eq_refl Y) in B. discriminate.
Qed.
Lemma drop_filter {A} (b : A -> bool) l : once_out b l -> drop_while b l = filter (fun y => negb (b y)) l.
Proof.
  induction l as [|a l IH]; intros H; cbn; auto. destruct (b a) eqn:B; cbn; [apply IH; eapply once_out_tail; eauto|].
  f_equal. pose proof (once_out_rest _ _ _ H B) as F. clear -F. induction F as [|y l Y F IH]; cbn; auto. rewrite Y. cbn. now f_equal.
Qed.
Lemma take_filter {A} (b : A -> bool) l : once_out b l -> take_until b l = filter b l.
Proof.
  induction l as [|a l IH]; intros H; cbn; auto. destruct (b a) eqn:B; [f_equal; apply IH; eapply once_out_tail; eauto|].
  pose proof (once_out_rest _ _ _ H B) as F. clear -F. induction F as [|y l Y F IH]; cbn; auto. now rewrite Y.
Qed.
Lemma once_out_filter {A} (b q : A -> bool) l : once_out b l -> once_out b (filter q l).
Proof.
  induction l as [|a l IH]; intros H; cbn; [intros [|? ?]; intros; discriminate|]. destruct (q a); [|apply IH; eapply once_out_tail; eauto].
  intros before x between y after Eq Y. destruct before as [|z before]; cbn in Eq; inv Eq.
  - destruct (b x) eqn:B; auto. pose proof (once_out_rest _ _ _ H B) as F. assert (In y (filter q l)) by (rewrite H2; apply in_elt).
    apply filter_In in H0 as [I _]. rewrite Forall_forall in F. rewrite (F y I) in Y. discriminate.
  - apply (IH (once_out_tail _ _ _ H) before x between y after); auto.
Qed.

Section Window.
Context {E : Env}.
Lemma yields_start {T} (R : recurring T) n x y s : recur_next R n x = IYield y s -> exists d, rc_dtstart R y = Some d.
Proof.
  unfold recur_next. destruct n as [|n]; [discriminate|]. cbn [next_loop]. destruct (rc_dtstart R x) as [d|] eqn:D; [|rewrite body_none by auto; discriminate].
  destruct (loop_body R x) as [n0| |n0|]; try discriminate; [intros H; inv H; eauto|]. destruct (next_loop R n n0); intros H; inv H. eauto.
Qed.
Lemma run_starts {T} (R : recurring T) a x l f : run (recur_next R) x l f -> Forall (fun y => starts_before R a y = Some (start_before R a y)) l.
Proof.
  induction 1 as [| | | |s n y s' l f H Rn IH]; constructor; auto. apply yields_start in H as [d D]. unfold starts_before, start_before. now rewrite D.
Qed.

(** [after]: the occurrences not before [a]; what comes after them is unchanged. *)
Theorem C51_after : forall T (R : recurring T) x a l f,
  run (recur_next R) x l f -> stays_out R a l ->
  run (after_next R a) (after_init x) (filter (fun y => negb (start_before R a y)) l) f.
Proof.
  intros T R x a l f H S. rewrite <- drop_filter by exact S. apply run_skip; auto; [apply recur_next_mono|]. eapply run_starts; eauto.
Qed.
(** [between]: those of them that are before [b]; it ends at the first that is not. *)
Theorem C51_between : forall T (R : recurring T) x a b l f,
  run (recur_next R) x l f -> stays_out R a l -> stays_out R b l ->
  exists g, run (between_next R a b) (between_init x) (filter (fun y => negb (start_before R a y) && start_before R b y) l) g /\
    ((exists y, In y l /\ start_before R a y = false /\ start_before R b y = false) /\ g = Ended \/
     (forall y, In y l -> start_before R a y = true \/ start_before R b y = true) /\ g = f).
Proof.
  intros T R x a b l f H Sa Sb. pose proof (C51_after T R x a l f H Sa) as Ha. set (la := filter (fun y => negb (start_before R a y)) l) in *.
  assert (Fb : Forall (fun y => starts_before R b y = Some (start_before R b y)) la).
  { apply Forall_forall. intros y Hy. apply filter_In in Hy as [Hy _]. pose proof (run_starts R b x l f H) as F. rewrite Forall_forall in F. auto. }
  pose proof (run_take (after_next R a) (starts_before R b) (start_before R b) _ la f Ha Fb) as Ht.
  rewrite take_filter in Ht by (apply once_out_filter; exact Sb).
  assert (Q : filter (start_before R b) la = filter (fun y => negb (start_before R a y) && start_before R b y) l).
  { unfold la. clear. induction l as [|y l IH]; cbn; auto. destruct (start_before R a y); cbn; auto. destruct (start_before R b y); cbn; auto. now f_equal. }
  rewrite Q in Ht. eexists. split; [exact Ht|]. destruct (forallb (start_before R b) la) eqn:Fa.
  - right. split; auto. intros y Hy. destruct (start_before R a y) eqn:A; auto. right. rewrite forallb_forall in Fa. apply Fa, filter_In. now rewrite A.
  - left. split; auto. assert (X : exists y, In y la /\ start_before R b y = false).
    { clear -Fa. induction la as [|y la IH]; cbn in Fa; [discriminate|]. destruct (start_before R b y) eqn:B; [|exists y; split; auto; now left].
      destruct (IH Fa) as (z & I & Z). exists z. split; auto. now right. }
    destruct X as (y & I & B). exists y. apply filter_In in I as [I A]. destruct (start_before R a y); [discriminate|]. auto.
Qed.
(** The results are the only ones. *)
Theorem C51_unique : forall T (R : recurring T) x a b,
  (forall l f l' f', run (after_next R a) (after_init x) l f -> run (after_next R a) (after_init x) l' f' ->
     (l = l' /\ f = f') \/ (f = Cut /\ exists r, l' = l ++ r) \/ (f' = Cut /\ exists r, l = l' ++ r)) /\
  (forall l f l' f', run (between_next R a b) (between_init x) l f -> run (between_next R a b) (between_init x) l' f' ->
     (l = l' /\ f = f') \/ (f = Cut /\ exists r, l' = l ++ r) \/ (f' = Cut /\ exists r, l = l' ++ r)).
Proof.
  intros T R x a b. assert (M : mono (after_next R a)) by (apply skip_while_mono, recur_next_mono).
  split; intros l f l' f'; apply run_det; auto. apply take_while_mono; auto.
Qed.
(** When the starts are [stays_out]. *)
Lemma before_mono r d a ka kb da db : orderly r d -> tidy d -> zone_fits E d -> 1 <= r_interval r -> (ka < kb)%nat -> steps r ka d da -> steps r kb d db ->
  date_ltb db a = true -> date_ltb da a = true.
Proof.
  intros Or Ht Hz Hi L Sa Sb. replace kb with (ka + (kb - ka))%nat in Sb by lia. apply steps_split in Sb as (m & S1 & S2). rewrite <- (steps_det _ _ _ _ _ Sa S1) in S2.
  destruct (steps_increase r ka d da Ht Hz Hi Sa) as (T1 & Z1 & _). destruct (steps_increase r _ _ _ T1 Z1 Hi S2) as (T2 & _ & _ & G). specialize (G ltac:(lia)).
  assert (Ka : match d, da, db with DDate _, DDate _, DDate _ => True | DDateTime (Naive _), DDateTime (Naive _), DDateTime (Naive _) => True
    | DDateTime (Local _), DDateTime (Local _), DDateTime (Local _) => True | _, _, _ => False end).
  { assert (Kk : forall k e e', orderly r e -> steps r k e e' -> match e, e' with DDate _, DDate _ | DDateTime (Naive _), DDateTime (Naive _) | DDateTime (Local _), DDateTime (Local _) => True | _, _ => False end).
    { intros k e e' O St. induction St as [e|k e e1 e2 A St IH]; [destruct e as [|[|]]; auto|].
      destruct e as [n|[n|n]]; cbn [recur_add] in A.
      - apply daily_dec in O. rewrite O in A. apply omap_Ok in A as (w & _ & ->). apply IH. now apply daily_dec.
      - apply omap_Ok in A as (w & A & ->). cbn [recur_add_dt] in A. apply omap_Ok in A as (v & _ & ->). apply IH; exact O.
      - apply omap_Ok in A as (w & A & ->). cbn [recur_add_dt] in A. apply omap_Ok in A as (v & _ & ->). apply IH; exact O. }
    pose proof (Kk ka d da Or Sa) as K1. assert (Sb : steps r (ka + (kb - ka)) d db) by (eapply steps_app; [exact Sa|exact S2]). pose proof (Kk (ka + (kb - ka))%nat d db Or Sb) as K2. clear -K1 K2.
    destruct d as [|[|]], da as [|[|]], db as [|[|]]; try contradiction; exact I. }
  assert (W : forall x y z, tidy_time x -> tidy_time y -> seconds x < seconds y -> ndt_cmp y z = Lt -> ndt_cmp x z = Lt).
  { intros x y z [Hx _] [Hy _] L1 L2. pose proof (ndt_cmp_spec y z) as Q. rewrite L2 in Q. pose proof (ndt_cmp_spec x z) as Q'. unfold seconds in L1.
    destruct (ndt_cmp x z); auto; exfalso; unfold ndt_before in *; subst; lia. }
  assert (D : forall x y, tidy_time x -> tidy_time y -> seconds x < seconds y -> nd_date x <= nd_date y) by (unfold tidy_time, seconds; lia).
  unfold date_ltb. destruct d as [d0|[d0|d0]], da as [x|[x|x]], db as [y|[y|y]]; try contradiction; clear Ka; cbn [second_of orderly tidy] in *.
  - destruct a as [z|t]; cbn [date_cmp]; intros H.
    + destruct (Z.compare_spec y z); try discriminate. destruct (Z.compare_spec x z); auto; lia.
    + destruct (Z.compare_spec y (dt_date_naive t)); try discriminate. destruct (Z.compare_spec x (dt_date_naive t)); auto; lia.
  - destruct a as [z|t]; cbn [date_cmp]; unfold dt_cmp, dt_date_naive; cbn [dt_naive]; intros H.
    + specialize (D x y T1 T2 G). destruct (Z.compare_spec (nd_date y) z); try discriminate. destruct (Z.compare_spec (nd_date x) z); auto; lia.
    + destruct (ndt_cmp y (dt_naive t)) eqn:Q; try discriminate. now rewrite (W x y _ T1 T2 G Q).
  - assert (G' : seconds (naive_local x) < seconds (naive_local y)).
    { unfold naive_local. rewrite !shift_seconds. change (ndt_ts x) with (seconds x). change (ndt_ts y) with (seconds y). now apply Or. }
    apply shift_tidy with (o := tz_offset (ndt_ts x)) in T1. apply shift_tidy with (o := tz_offset (ndt_ts y)) in T2. fold (naive_local x) in T1. fold (naive_local y) in T2.
    destruct a as [z|t]; cbn [date_cmp]; unfold dt_cmp, dt_date_naive; cbn [dt_naive]; intros H.
    + specialize (D _ _ T1 T2 G'). destruct (Z.compare_spec (nd_date (naive_local y)) z); try discriminate. destruct (Z.compare_spec (nd_date (naive_local x)) z); auto; lia.
    + destruct (ndt_cmp (naive_local y) (dt_naive t)) eqn:Q; try discriminate. now rewrite (W _ _ _ T1 T2 G' Q).
Qed.
Lemma orderly_stays {T} (R : recurring T) x d r a l f :
  recurs R -> rc_dtstart R x = Some d -> rc_rrule R x = Some r -> orderly r d -> tidy d -> zone_fits E d -> 1 <= r_interval r ->
  run (recur_next R) x l f -> stays_out R a l.
Proof.
  intros K Hd Hr Or Ht Hz Hi H before y between z after -> Bz. destruct (run_track R x d r _ f K Hd Hr H) as (kz & w & Tr & _).
  destruct (track_positions R x d r 0 0 _ kz w K Tr (length before) (length before + S (length between)) y z) as (ka & kb & da & db & Lk & A & B & Sa & Sb); [lia| | |].
  - rewrite nth_error_app2, Nat.sub_diag by lia. reflexivity.
  - rewrite nth_error_app2 by lia. replace (length before + S (length between) - length before)%nat with (S (length between)) by lia. cbn [nth_error].
    rewrite nth_error_app2, Nat.sub_diag by lia. reflexivity.
  - unfold start_before in *. rewrite A. rewrite B in Bz. eapply before_mono; eauto.
Qed.
(** The window theorem: one kind of start, a positive interval, any bounds. *)
Theorem C51_window : forall T (R : recurring T) x d r a b l f,
  recurs R -> rc_dtstart R x = Some d -> rc_rrule R x = Some r -> orderly r d -> tidy d -> zone_fits E d -> 1 <= r_interval r ->
  run (recur_next R) x l f ->
  run (after_next R a) (after_init x) (filter (fun y => negb (start_before R a y)) l) f /\
  exists g, run (between_next R a b) (between_init x) (filter (fun y => negb (start_before R a y) && start_before R b y) l) g /\
    ((exists y, In y l /\ start_before R a y = false /\ start_before R b y = false) /\ g = Ended \/
     (forall y, In y l -> start_before R a y = true \/ start_before R b y = true) /\ g = f).
Proof.
  intros. split; [apply C51_after; auto; eapply orderly_stays; eauto|]. apply C51_between; auto; eapply orderly_stays; eauto.
Qed.
(** [at(d)] is [between(d, d + 1 day)]: the end is 86400 seconds later. *)
Theorem C51_at_end : forall d b, tidy d -> at_end d = Ok b -> moved Daily 1 86400 d b.
Proof.
  intros d b Ht H. unfold at_end in H. cbn [obind] in H.
  change (td_days 1) with (@Ok tdelta (86400 * NANOS)) in H. cbn [obind] in H. destruct d as [n|[n|n]]; cbn [date_plus_td] in H.
  - apply omap_Ok in H as (w & H & ->). cbn [moved]. split; [right; exact I|]. unfold date_add_td in H. replace (Z.quot (86400 * NANOS) (86400 * NANOS)) with 1 in H by reflexivity. destruct (date_ok _); inv H. lia.
  - apply omap_Ok in H as (w & H & ->). cbn [dt_add_td] in H. apply omap_Ok in H as (v & H & ->). cbn [moved]. apply (add_td_later n 86400 v Ht ltac:(lia) H).
  - apply omap_Ok in H as (w & H & ->). cbn [dt_add_td] in H. apply omap_Ok in H as (v & H & ->). cbn [moved]. apply (add_td_later n 86400 v Ht ltac:(lia) H).
Qed.
Theorem C51_at : forall T (R : recurring T) x d r a b l f,
  recurs R -> rc_dtstart R x = Some d -> rc_rrule R x = Some r -> orderly r d -> tidy d -> zone_fits E d -> 1 <= r_interval r ->
  tidy a -> at_end a = Ok b -> run (recur_next R) x l f ->
  moved Daily 1 86400 a b /\
  exists g, run (between_next R a b) (between_init x) (filter (fun y => negb (start_before R a y) && start_before R b y) l) g /\
    ((exists y, In y l /\ start_before R a y = false /\ start_before R b y = false) /\ g = Ended \/
     (forall y, In y l -> start_before R a y = true \/ start_before R b y = true) /\ g = f).
Proof.
  intros T R x d r a b l f K Hd Hr Or Ht Hz Hi Ta Ha H. split; [now apply C51_at_end|]. exact (proj2 (C51_window T R x d r a b l f K Hd Hr Or Ht Hz Hi H)).
Qed.
(** ** C45 for the windows *)
Theorem C45_windows_stay_ended : forall T (R : recurring T) a b n,
  (forall st st', after_next R a n st = IDone st' -> forall m, (n <= m)%nat -> after_next R a m st' = IDone st') /\
  (forall st st', between_next R a b n st = IDone st' -> forall m, (n <= m)%nat -> between_next R a b m st' = IDone st').
Proof.
  intros T R a b n. assert (N : forall s s' n, recur_next R n s = IDone s' -> forall m, (n <= m)%nat -> recur_next R m s' = IDone s').
  { intros s s' k H. apply (C45_ended_stays_ended T R s k s' H). }
  assert (A : forall st st' n, after_next R a n st = IDone st' -> forall m, (n <= m)%nat -> after_next R a m st' = IDone st').
  { intros st st' k. apply skip_ended; auto. }
  split; [intros st st'; apply A|]. intros st st'. apply take_ended. exact A.
Qed.
End Window.
