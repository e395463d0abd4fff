(** * C96: the whole series in one formula *)
From Verif Require Import Base Env Chrono Types Components Iter BaseFacts ChronoFacts SpecCal PropDate SpecIter IterFacts PropIter TimeFacts PropTime SpecKinds PropKinds SpecFinite PropFinite SpecWhole.
Section Env.
Context {E : Env}.
Section Generic.
Context {T : Type} (R : recurring T) (K : recurs R).
Definition at_slot (x : T) (a : slot) (r : recur) (c : option Z) : Prop :=
  rc_dtstart R x = Some (fst a) /\ rc_dtend R x = snd a /\ rc_rrule R x = Some (set_count r c).
Lemma until_over_count r c d : until_over (set_count r c) d = until_over r d. Proof. reflexivity. Qed.
Lemma next_add r c a b : next_slot r a b -> recur_add (set_count r c) (fst a) = Ok (fst b) /\ add_opt (set_count r c) (snd a) = Ok (snd b).
Proof.
  intros [A B]. split; [exact A|]. unfold add_opt. destruct (snd a) as [e|], (snd b) as [e'|]; try contradiction; auto.
  change (recur_add (set_count r c) e) with (recur_add r e). rewrite B. reflexivity.
Qed.
Lemma next_shaped r x a b c : at_slot x a r c -> next_slot r a b -> shaped R x (snd b).
Proof. intros (_ & Y & _) [_ B]. unfold shaped. rewrite Y. destruct (snd a), (snd b); auto. Qed.
Lemma at_occ r x a b c c' : at_slot x a r c -> next_slot r a b -> at_slot (occ R x (fst b) (snd b) (set_count r c')) b r c' /\ rc_exdate R (occ R x (fst b) (snd b) (set_count r c')) = rc_exdate R x.
Proof.
  intros A N. destruct (occ_fields R x (fst b) (snd b) (set_count r c') K (next_shaped _ _ _ _ _ A N)) as (F1 & F2 & F3 & F4). repeat split; auto.
Qed.
Definition less (c : option Z) : option Z := option_map (fun n => n - 1) c.
Lemma existsb_false d X : existsb (date_eqb d) X = false <-> ~ In d X.
Proof. rewrite <- in_ex. destruct (existsb _ _); split; congruence. Qed.
(** One call of the loop, from a slot with the walk before it. *)
Inductive called (r : recur) (x : T) (c : option Z) (l : list slot) (f : fate) : Prop :=
| called_none n s : remaining (rc_exdate R x) l = [] -> f = Ended -> next_loop R n x = IDone s -> called r x c l f
| called_panic n : remaining (rc_exdate R x) l = [] -> f = Panicked -> next_loop R n x = IPanic -> called r x c l f
| called_over n s b rest : remaining (rc_exdate R x) l = b :: rest -> c = Some 0 -> next_loop R n x = IDone s -> called r x c l f
| called_more n z b l' : remaining (rc_exdate R x) l = b :: remaining (rc_exdate R x) l' -> c <> Some 0 -> next_loop R n x = IYield tt z ->
    at_slot z b r (less c) -> rc_exdate R z = rc_exdate R x -> walk r b l' f -> (length l' < length l)%nat -> called r x c l f.
Lemma loop_walk r a l f : walk r a l f -> forall x c, at_slot x a r c -> called r x c l f.
Proof.
  induction 1 as [a Hp|a Hp Hn|a b l f Hp Hn W IH]; intros x c A; pose proof A as (A1 & A2 & A3).
  - apply (called_none r x c _ _ 1 x); auto. cbn [next_loop]. rewrite (body_eq R x _ _ K A1 A3), until_over_count, (proj2 (until_over_iff r (fst a)) Hp). reflexivity.
  - apply (called_panic r x c _ _ 1); auto. cbn [next_loop]. rewrite (body_eq R x _ _ K A1 A3), until_over_count.
    destruct (until_over r (fst a)) eqn:U; [apply until_over_iff in U; contradiction|]. change (recur_add (set_count r c) (fst a)) with (recur_add r (fst a)). rewrite A2.
    destruct Hn as [-> |Hn]; [reflexivity|]. destruct (recur_add r (fst a)); auto. unfold some_such in Hn. destruct (snd a) as [e|]; [|contradiction]. unfold add_opt.
    change (recur_add (set_count r c) e) with (recur_add r e). rewrite Hn. reflexivity.
  - assert (B : loop_body R x = if existsb (date_eqb (fst b)) (rc_exdate R x) then TContinue (occ R x (fst b) (snd b) (set_count r c))
      else match c with Some n => if n =? 0 then TNone else TBreak (occ R x (fst b) (snd b) (set_count r (Some (n - 1)))) | None => TBreak (occ R x (fst b) (snd b) (set_count r None)) end).
    { rewrite (body_eq R x _ _ K A1 A3), until_over_count. destruct (until_over r (fst a)) eqn:U; [apply until_over_iff in U; contradiction|]. rewrite A2. destruct (next_add r c a b Hn) as [-> ->]. destruct c; reflexivity. }
    unfold remaining in *. cbn [filter]. destruct (existsb (date_eqb (fst b)) (rc_exdate R x)) eqn:X; cbn [negb].
    + destruct (at_occ r x a b c c A Hn) as [A' X']. specialize (IH _ c A'). unfold remaining in IH.
      assert (L : forall n q, next_loop R n (occ R x (fst b) (snd b) (set_count r c)) = q -> next_loop R (S n) x = q) by (intros n q Q; cbn [next_loop]; rewrite B; exact Q).
      inversion IH as [n s Q1 Q2 Q3|n Q1 Q2 Q3|n s b' rest Q1 Q2 Q3|n z b' l' Q1 Q2 Q3 Q4 Q5 Q6 Q7]; rewrite X' in *; apply L in Q3.
      * eapply called_none; eauto. unfold remaining. cbn [filter]. rewrite X. exact Q1.
      * eapply called_panic; eauto. unfold remaining. cbn [filter]. rewrite X. exact Q1.
      * eapply called_over; eauto. unfold remaining. cbn [filter]. rewrite X. exact Q1.
      * eapply (called_more _ _ _ _ _ _ _ _ l'); eauto; [unfold remaining; cbn [filter]; rewrite X; exact Q1|cbn [length]; lia].
    + assert (Rm : remaining (rc_exdate R x) (b :: l) = b :: remaining (rc_exdate R x) l) by (unfold remaining; cbn [filter]; rewrite X; reflexivity).
      destruct c as [n|].
      * destruct (n =? 0) eqn:N; [apply Z.eqb_eq in N as ->; eapply (called_over _ _ _ _ _ 1); eauto; cbn [next_loop]; rewrite B; reflexivity|].
        apply Z.eqb_neq in N. destruct (at_occ r x a b (Some n) (Some (n - 1)) A Hn) as [A' X']. eapply (called_more _ _ _ _ _ 1 _ _ l); eauto; [congruence|cbn [next_loop]; rewrite B; reflexivity].
      * destruct (at_occ r x a b None None A Hn) as [A' X']. eapply (called_more _ _ _ _ _ 1 _ _ l); eauto; [congruence|cbn [next_loop]; rewrite B; reflexivity].
Qed.
Definition allowed (c : option Z) (n : nat) : nat := match c with Some c => Nat.min (Z.to_nat c) n | None => n end.
Definition ending (c : option Z) (n : nat) (f : fate) : fate := match c with Some c => if c <? Z.of_nat n then Ended else f | None => f end.
Lemma series_walk r m : forall a l f x c, (length l < m)%nat -> walk r a l f -> at_slot x a r c -> (forall n, c = Some n -> 0 <= n) ->
  let kept := remaining (rc_exdate R x) l in
  exists occs, run (recur_next R) x occs (ending c (length kept) f) /\
    map (fun y => (rc_dtstart R y, rc_dtend R y)) occs = as_found (firstn (allowed c (length kept)) (a :: kept)).
Proof.
  induction m as [|m IH]; intros a l f x c Lm W A C kept; [lia|]. unfold kept. clear kept. destruct (loop_walk r a l f W x c A) as [n s Q1 Q2 Q3|n Q1 Q2 Q3|n s b' rest Q1 Q2 Q3|n z b' l' Q1 Q2 Q3 Q4 Q5 Q6 Q7]; rewrite Q1.
  - subst f. exists []. assert (F : ending c (length (@nil slot)) Ended = Ended) by (destruct c; cbn; [destruct (_ <? _)|]; reflexivity). rewrite F. split.
    + eapply (run_end _ _ x n). unfold recur_next. now rewrite Q3.
    + replace (allowed c (length (@nil slot))) with 0%nat by (destruct c; cbn; lia). reflexivity.
  - subst f. exists []. assert (F : ending c (length (@nil slot)) Panicked = Panicked) by (destruct c as [n0|]; cbn; auto; specialize (C n0 eq_refl); destruct (n0 <? 0) eqn:Q; auto; lia). rewrite F. split.
    + eapply (run_panic _ _ n). unfold recur_next. now rewrite Q3.
    + replace (allowed c (length (@nil slot))) with 0%nat by (destruct c; cbn; lia). reflexivity.
  - subst c. exists []. cbn [ending allowed length]. replace (0 <? Z.of_nat (S (length rest))) with true by (symmetry; apply Z.ltb_lt; lia). split.
    + eapply (run_end _ _ x n). unfold recur_next. now rewrite Q3.
    + reflexivity.
  - assert (C' : forall n0, less c = Some n0 -> 0 <= n0) by (intros n0 H; destruct c as [c0|]; cbn in H; [|discriminate]; injection H as <-; specialize (C c0 eq_refl); assert (c0 <> 0) by congruence; lia).
    destruct (IH b' l' f z (less c) ltac:(lia) Q6 Q4 C') as (occs & O1 & O2). rewrite Q5 in O1, O2. set (rest := remaining (rc_exdate R x) l') in *.
    assert (F : ending c (length (b' :: rest)) f = ending (less c) (length rest) f).
    { destruct c as [c0|]; cbn [ending less option_map length]; auto. replace (c0 <? Z.of_nat (S (length rest))) with (c0 - 1 <? Z.of_nat (length rest)); auto.
      destruct (Z.ltb_spec (c0 - 1) (Z.of_nat (length rest))), (Z.ltb_spec c0 (Z.of_nat (S (length rest)))); auto; lia. }
    exists (x :: occs). rewrite F. split.
    + econstructor; [|exact O1]. instantiate (1 := n). unfold recur_next. now rewrite Q3.
    + assert (G : allowed c (length (b' :: rest)) = S (allowed (less c) (length rest))).
      { destruct c as [c0|]; cbn [allowed less option_map length]; auto. specialize (C c0 eq_refl). assert (c0 <> 0) by congruence. lia. }
      rewrite G. cbn [map firstn as_found]. destruct A as (A1 & A2 & _). rewrite A1, A2. f_equal. exact O2.
Qed.
End Generic.
(** The occurrences are the start and the slots after it that are not excluded, up to one before the
    last of them, or up to COUNT. *)
Theorem C96_series : forall k (x : item k) d r l f,
  start_of x = Some d -> rule_of x = Some r -> (forall c, r_count r = Some c -> 0 <= c) -> walk r (d, end_of x) l f ->
  let kept := remaining (excluded_of x) l in
  exists occs, series x occs (fate_of r (length kept) f) /\ slots_of occs = as_found (firstn (limit r (length kept)) ((d, end_of x) :: kept)).
Proof.
  intros k x d r l f Hd Hr Hc W kept. rewrite <- code_start in Hd. rewrite <- code_rule in Hr.
  destruct (series_walk (code k) (code_recurs k) r (S (length l)) (d, end_of x) l f x (r_count r) ltac:(lia) W) as (occs & O1 & O2); auto.
  - split; [exact Hd|]. split; [apply code_end|]. rewrite Hr. f_equal. destruct r; reflexivity.
  - rewrite code_excluded in O1, O2. exists occs. split; [exact O1|]. unfold slots_of, kept. rewrite <- O2 at 1. apply map_ext. intros y. now rewrite code_start, code_end.
Qed.
(** There is always a walk, but for an interval of zero. *)
Theorem C96_walk : forall r d e, 1 <= r_interval r -> tidy d -> zone_fits E d -> exists l f, walk r (d, e) l f /\ (f = Ended \/ f = Panicked).
Proof.
  intros r d e Hi. remember (Z.to_nat (calendar_end - second_of d + 1)) as n eqn:N. revert d e N. induction n as [n IH] using lt_wf_ind. intros d e N Ht Hz.
  assert (D : past_until r d \/ ~ past_until r d) by (destruct (until_over r d) eqn:U; [left; now apply until_over_iff|right; intros X; apply until_over_iff in X; congruence]).
  destruct D as [D|D]; [exists [], Ended; split; [now constructor|auto]|].
  destruct (recur_add r d) as [d'|er|] eqn:A; [|now apply recur_add_not_err in A|exists [], Panicked; split; [constructor 2; auto; now left|auto]].
  assert (B : (exists e', match e, e' with Some a, Some b => recur_add r a = Ok b | None, None => True | _, _ => False end) \/ some_such e (fun e => recur_add r e = Panic)).
  { destruct e as [e|]; [|left; exists None; exact Logic.I]. cbn. destruct (recur_add r e) as [e'|er|] eqn:B; [left; now exists (Some e')|now apply recur_add_not_err in B|auto]. }
  destruct B as [[e' B]|B]; [|exists [], Panicked; split; [constructor 2; auto; now right|auto]].
  destruct (recur_add_increases r d d' Ht Hz Hi A) as (I1 & I2 & I3). pose proof (step_ends r d d' Ht Hz Hi A) as I4.
  destruct (IH (Z.to_nat (calendar_end - second_of d' + 1)) ltac:(lia) d' e' eq_refl I2) as (l & f & W & F); auto.
  exists ((d', e') :: l), f. split; auto. econstructor; eauto. split; auto.
Qed.
(** Those that remain are the slots whose start is not excluded, in their order. *)
Theorem C96_remaining : forall ts l,
  (forall s, In s (remaining ts l) <-> In s l /\ ~ In (fst s) ts) /\
  (forall a b, l = a ++ b -> remaining ts l = remaining ts a ++ remaining ts b) /\ (NoDup l -> NoDup (remaining ts l)).
Proof.
  intros ts l. split; [|split].
  - intros s. unfold remaining. rewrite filter_In, Bool.negb_true_iff, existsb_false. tauto.
  - intros a b ->. apply filter_app.
  - apply NoDup_filter.
Qed.
Lemma remaining_more X ts l : remaining (X ++ ts) l = remaining ts (remaining X l).
Proof.
  unfold remaining. induction l as [|s l IH]; [reflexivity|]. cbn [filter]. rewrite existsb_app. destruct (existsb (date_eqb (fst s)) X); cbn [orb negb]; [exact IH|].
  cbn [filter]. destruct (existsb (date_eqb (fst s)) ts); cbn [negb]; [exact IH|]. f_equal. exact IH.
Qed.
Lemma remaining_le ts l : (length (remaining ts l) <= length l)%nat.
Proof. unfold remaining. induction l as [|b l IH]; [auto|]. cbn [filter]. destruct (negb _); cbn [length]; lia. Qed.
(** No other outcome, and nothing but the beginnings of it, is ever seen. *)
Theorem C96_only : forall k (x : item k) d r l f occs f',
  start_of x = Some d -> rule_of x = Some r -> (forall c, r_count r = Some c -> 0 <= c) -> walk r (d, end_of x) l f -> series x occs f' ->
  let kept := remaining (excluded_of x) l in
  let all := as_found (firstn (limit r (length kept)) ((d, end_of x) :: kept)) in
  (f' = Cut /\ slots_of occs = firstn (length occs) all) \/ (f' = fate_of r (length kept) f /\ slots_of occs = all).
Proof.
  intros k x d r l f occs f' Hd Hr Hc W H kept all. destruct (C96_series k x d r l f Hd Hr Hc W) as (l' & H' & F). fold kept in F, H'. fold all in F.
  assert (NC : fate_of r (length kept) f <> Cut).
  { assert (f <> Cut) by (clear - W; induction W; congruence). unfold fate_of. destruct (r_count r); auto. destruct (_ <? _); [discriminate|auto]. }
  destruct (C44_outcome_unique _ _ _ _ _ _ _ H H') as [[-> ->]|[[-> [rest ->]]|[B _]]]; [right; auto| |contradiction].
  left. split; auto. rewrite <- F. unfold slots_of. rewrite map_app, firstn_app, map_length, Nat.sub_diag. cbn [firstn]. rewrite app_nil_r, firstn_all2; auto. rewrite map_length. lia.
Qed.
Lemma firstn_removelast {A} (a : A) l : firstn (length l) (a :: l) = removelast (a :: l).
Proof. revert a. induction l as [|b l IH]; intros a; [reflexivity|]. cbn [length]. rewrite firstn_cons, IH. reflexivity. Qed.
(** Without COUNT: all but the last of them, the start among them. *)
Theorem C96_no_count : forall k (x : item k) d r l f,
  start_of x = Some d -> rule_of x = Some r -> r_count r = None -> walk r (d, end_of x) l f ->
  exists occs, series x occs f /\ slots_of occs = as_found (removelast ((d, end_of x) :: remaining (excluded_of x) l)).
Proof.
  intros k x d r l f Hd Hr Hc W. destruct (C96_series k x d r l f Hd Hr) as (occs & H & F); [congruence|exact W|]. cbv zeta in F, H. unfold fate_of, limit in *. rewrite Hc in *.
  rewrite firstn_removelast in F. eauto.
Qed.
(** The slots are at different times, all later than the start, unless the interval is zero. *)
Theorem C96_distinct : forall r a l f, walk r a l f -> 1 <= r_interval r -> tidy (fst a) -> zone_fits E (fst a) -> Forall (fun s => second_of (fst a) < second_of (fst s)) l /\ NoDup (map fst l).
Proof.
  intros r a l f W Hi. induction W as [a|a|a b l f Hp [N1 N2] W IH]; intros Ht Hz; [split; constructor|split; constructor|]. destruct (recur_add_increases r _ _ Ht Hz Hi N1) as (I1 & I2 & I3).
  destruct (IH I2 I3) as [L D]. split.
  - constructor; auto. eapply Forall_impl; [|exact L]. cbn. intros s Hs. lia.
  - cbn [map]. constructor; auto. intros X. apply in_map_iff in X as (s & Hs & Is). rewrite Forall_forall in L. specialize (L _ Is). rewrite Hs in L. lia.
Qed.
(** ** Cancelling occurrences *)
Lemma struck_found ts l : struck ts (as_found l) = as_found (remaining ts l).
Proof. unfold struck, as_found, remaining. induction l as [|s l IH]; [reflexivity|]. cbn [map filter fst]. destruct (negb _); cbn [map]; now rewrite IH. Qed.
Lemma removelast_filter {A} (g : A -> bool) l z : g z = true -> filter g (removelast (l ++ [z])) = removelast (filter g (l ++ [z])).
Proof. intros G. rewrite removelast_last, filter_app. cbn [filter]. rewrite G, removelast_last. reflexivity. Qed.
(** Without COUNT, what is struck out are the occurrences at those times, except the first, if the one
    after the last occurrence is not among them. *)
Theorem C96_cancel : forall k (x y : item k) d r l f ts before s,
  start_of x = Some d -> rule_of x = Some r -> r_count r = None -> walk r (d, end_of x) l f -> more_excluded x y ts ->
  remaining (excluded_of x) l = before ++ [s] -> ~ In (fst s) ts ->
  exists occs occs' head tail, series x occs f /\ series y occs' f /\ slots_of occs = head :: tail /\ slots_of occs' = head :: struck ts tail.
Proof.
  intros k x y d r l f ts before s Hd Hr Hc W (Y1 & Y2 & Y3 & Y4) K N.
  destruct (C96_no_count k x d r l f Hd Hr Hc W) as (occs & H & F). destruct (C96_no_count k y d r l f) as (occs' & H' & F'); try congruence.
  rewrite Y4, remaining_more, K in F'. rewrite Y2 in F'. rewrite K in F.
  exists occs, occs', (Some d, end_of x), (as_found before). split; [exact H|]. split; [exact H'|].
  rewrite app_comm_cons, removelast_last in F. split; [exact F|]. rewrite F', struck_found.
  assert (R : remaining ts (before ++ [s]) = remaining ts before ++ [s]).
  { unfold remaining. rewrite filter_app. cbn [filter]. apply existsb_false in N. rewrite N. reflexivity. }
  rewrite R, app_comm_cons, removelast_last. reflexivity.
Qed.
(** If it is (and the others are not), the last occurrence is lost in its place. *)
Theorem C96_lost : forall k (x y : item k) d r l f ts before s,
  start_of x = Some d -> rule_of x = Some r -> r_count r = None -> walk r (d, end_of x) l f -> more_excluded x y ts ->
  remaining (excluded_of x) l = before ++ [s] -> In (fst s) ts -> (forall b, In b before -> ~ In (fst b) ts) ->
  exists occs occs', series x occs f /\ series y occs' f /\ slots_of occs' = removelast (slots_of occs).
Proof.
  intros k x y d r l f ts before s Hd Hr Hc W (Y1 & Y2 & Y3 & Y4) K N Nb.
  destruct (C96_no_count k x d r l f Hd Hr Hc W) as (occs & H & F). destruct (C96_no_count k y d r l f) as (occs' & H' & F'); try congruence.
  rewrite Y4, remaining_more, K in F'. rewrite Y2 in F'. rewrite K in F.
  exists occs, occs'. split; [exact H|]. split; [exact H'|]. rewrite F, F', app_comm_cons, removelast_last.
  assert (R : remaining ts (before ++ [s]) = before).
  { unfold remaining. rewrite filter_app. cbn [filter]. apply in_ex in N. rewrite N. cbn [negb]. rewrite app_nil_r. clear - Nb. induction before as [|b l IH]; [reflexivity|]. cbn [filter].
    rewrite (proj2 (existsb_false (fst b) ts)) by (apply Nb; now left). cbn [negb]. f_equal. apply IH. intros c Hc. apply Nb. now right. }
  rewrite R. unfold as_found. generalize (d, end_of x). clear. induction before as [|b l IH]; intros a; [reflexivity|]. cbn [removelast map]. cbn [removelast map] in IH. destruct l; [reflexivity|]. f_equal. apply (IH b).
Qed.
(** With COUNT, the later ones move up: there are as many as before while there are dates left. *)
Theorem C96_count : forall k (x y : item k) d r c l f ts,
  start_of x = Some d -> rule_of x = Some r -> r_count r = Some c -> 0 <= c -> walk r (d, end_of x) l f -> more_excluded x y ts ->
  c <= Z.of_nat (length (remaining ts (remaining (excluded_of x) l))) ->
  exists occs occs' f' f'', series x occs f' /\ series y occs' f'' /\ length occs = Z.to_nat c /\ length occs' = Z.to_nat c /\
    slots_of occs' = as_found (firstn (Z.to_nat c) ((d, end_of x) :: remaining ts (remaining (excluded_of x) l))).
Proof.
  intros k x y d r c l f ts Hd Hr Hc C W (Y1 & Y2 & Y3 & Y4) L.
  destruct (C96_series k x d r l f Hd Hr) as (occs & H & F); [congruence|exact W|]. destruct (C96_series k y d r l f) as (occs' & H' & F'); try congruence. cbv zeta in *.
  rewrite Y4, Y2, remaining_more in *. assert (Lk : (length (remaining ts (remaining (excluded_of x) l)) <= length (remaining (excluded_of x) l))%nat) by apply remaining_le.
  unfold limit in F, F'. rewrite Hc in F, F'. rewrite Nat.min_l in F, F' by lia.
  exists occs, occs'. do 2 eexists. split; [exact H|]. split; [exact H'|].
  assert (LL : forall (o : list (item k)) m, slots_of o = as_found (firstn (Z.to_nat c) m) -> (Z.to_nat c <= length m)%nat -> length o = Z.to_nat c).
  { intros o m Q Lm. apply (f_equal (@length _)) in Q. unfold slots_of, as_found in Q. rewrite !map_length, firstn_length in Q. lia. }
  split; [apply (LL _ _ F); cbn [length]; lia|]. split; [apply (LL _ _ F'); cbn [length]; lia|exact F'].
Qed.
End Env.
