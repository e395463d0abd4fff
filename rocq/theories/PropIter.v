(** * C38-C46, C48: the runs of the iterator *)
From Verif Require Import Base Env Chrono Types Components Iter BaseFacts ChronoFacts SpecCal SpecIter IterFacts.

(** ** States reached *)
Inductive reaches {St A} (next : nat -> St -> ires St A) : St -> list A -> St -> Prop :=
| rs_nil s : reaches next s [] s
| rs_cons s n a s' l z : next n s = IYield a s' -> reaches next s' l z -> reaches next s (a :: l) z.
Lemma run_reaches {St A} (next : nat -> St -> ires St A) s l f : run next s l f <-> exists z, reaches next s l z /\ run next z [] f.
Proof.
  split.
  - induction 1; try (eexists; split; [constructor|econstructor; eauto]; fail). destruct IHrun as (z & R & F). exists z. split; auto. econstructor; eauto.
  - intros (z & R & F). revert F. induction R; intros; auto. econstructor; eauto.
Qed.

Section PropIter.
Context {E : Env}.
Section Track.
Context {T : Type} (R : recurring T) (K : recurs R) (x0 : T) (d0 : date) (r0 : recur).
Let X := rc_exdate R x0.
Let e0 := rc_dtend R x0.
(** The item of index [i], at position [k], is [x]. *)
Definition item_at (i k : nat) (x : T) : Prop :=
  exists d e, steps r0 k d0 d /\ steps_opt r0 k e0 e /\ x = occ R x0 d e (count_down r0 i).
(** From position [k] to the next retained one [k']. *)
Definition hop (k k' : nat) : Prop :=
  (k < k')%nat /\ (forall j dj, (k < j < k')%nat -> steps r0 j d0 dj -> In dj X) /\
  (forall dk, steps r0 k' d0 dk -> ~ In dk X) /\
  (forall j dj, (k <= j < k')%nat -> steps r0 j d0 dj -> ~ past_until r0 dj).
Inductive track : nat -> nat -> list T -> nat -> T -> Prop :=
| tr_nil i k z : item_at i k z -> track i k [] k z
| tr_cons i k k' y l kz z : item_at i k y -> r_count (count_down r0 i) <> Some 0 -> hop k k' -> track (S i) k' l kz z -> track i k (y :: l) kz z.
Lemma count_down_S i : r_count (count_down r0 i) <> Some 0 -> next_count (count_down r0 i) = count_down r0 (S i).
Proof.
  unfold next_count, count_down. destruct (r_count r0) as [c|] eqn:C; cbn; auto. intros _. unfold set_count. cbn. f_equal. f_equal. lia.
Qed.
Lemma item_fields i k x : item_at i k x -> exists d e, steps r0 k d0 d /\ steps_opt r0 k e0 e /\ x = occ R x0 d e (count_down r0 i) /\ shaped R x0 e /\
  rc_dtstart R x = Some d /\ rc_dtend R x = e /\ rc_rrule R x = Some (count_down r0 i) /\ rc_exdate R x = X.
Proof.
  intros (d & e & S1 & S2 & ->). exists d, e. pose proof (steps_opt_shaped _ _ _ _ _ S2) as Sh.
  destruct (occ_fields R x0 d e (count_down r0 i) K Sh) as (A & B & C & D). auto 10.
Qed.
(** Positions relative to an item are positions relative to the origin. *)
Lemma skipped_from i k x d m dm em : item_at i k x -> rc_dtstart R x = Some d -> skipped R x d (count_down r0 i) m dm em ->
  steps r0 (k + m) d0 dm /\ steps_opt r0 (k + m) e0 em /\
  (forall j dj, (k < j <= k + m)%nat -> steps r0 j d0 dj -> In dj X) /\ (forall j dj, (k <= j < k + m)%nat -> steps r0 j d0 dj -> ~ past_until r0 dj).
Proof.
  intros It Hd (S1 & S2 & S3 & S4). apply item_fields in It as (d' & e' & A1 & A2 & _ & _ & B1 & B2 & B3 & B4). rewrite Hd in B1. injection B1 as ->. rewrite B2 in S2. rewrite B4 in S3.
  unfold count_down in *. rewrite steps_set_count in S1. rewrite steps_opt_set_count in S2.
  assert (P : forall j dj, (k <= j)%nat -> steps r0 j d0 dj -> steps r0 (j - k) d' dj).
  { intros j dj L H. replace j with (k + (j - k))%nat in H by lia. apply steps_split in H as (b & Y & Z). now rewrite (steps_det _ _ _ _ _ A1 Y). }
  split; [eapply steps_app; eauto|]. split; [eapply steps_opt_app; eauto|]. split.
  - intros j dj L H. apply (S3 (j - k)%nat); [lia|]. apply steps_set_count. apply P; auto. lia.
  - intros j dj L H. apply (S4 (j - k)%nat); [lia|]. apply steps_set_count. apply P; auto. lia.
Qed.
Lemma reaches_track i k x l z : item_at i k x -> reaches (recur_next R) x l z -> exists kz, track i k l kz z.
Proof.
  intros It H. revert i k It. induction H as [x|x n a x' l z N H IH]; intros i k It; [exists k; now constructor|].
  pose proof It as It'. apply item_fields in It' as (d & e & A1 & A2 & A3 & A4 & B1 & B2 & B3 & B4).
  destruct (next_call R K n x d _ B1 B3) as (m & _ & C); [congruence|]. rewrite N in C. inversion C as [| | |m' dm em d' e' Sk Np Ad Ae Nx Nc Eq1 Eq2]; subst a x' m'.
  destruct (skipped_from i k x d m dm em It B1 Sk) as (S1 & S2 & S3 & S4). change (recur_add r0 dm = Ok d') in Ad. change (add_opt r0 em = Ok e') in Ae. rewrite B4 in Nx.
  assert (St : steps r0 (k + m + 1) d0 d') by (eapply steps_app; [exact S1|econstructor; [exact Ad|constructor]]).
  assert (Se : steps_opt r0 (k + m + 1) e0 e').
  { eapply steps_opt_app; [exact S2|]. apply add_opt_steps. exact Ae. }
  destruct (IH (S i) (k + m + 1)%nat) as (kz & Tz).
  { exists d', e'. split; auto. split; auto. rewrite count_down_S by auto. rewrite A3. apply occ_occ; auto. eapply steps_opt_shaped; eauto. }
  exists kz. econstructor; [exact It|auto| |exact Tz]. split; [lia|]. split; [intros j dj L; apply S3; lia|]. split.
  - intros dk Hk. rewrite <- (steps_det _ _ _ _ _ St Hk). auto.
  - intros j dj L Hj. destruct (Nat.eq_dec j (k + m)) as [->|]; [|apply (S4 j); [lia|auto]]. rewrite <- (steps_det _ _ _ _ _ S1 Hj). auto.
Qed.
End Track.
Lemma item_start {T} (R : recurring T) x d r : recurs R -> rc_dtstart R x = Some d -> rc_rrule R x = Some r -> item_at R x d r 0 0 x.
Proof.
  intros K Hd Hr. exists d, (rc_dtend R x). split; [constructor|]. split; [destruct (rc_dtend R x); cbn; [constructor|exact I]|].
  replace (count_down r 0) with r; [now rewrite occ_self|]. unfold count_down, set_count. destruct r; cbn. f_equal. destruct r_count; cbn; f_equal. lia.
Qed.
Lemma run_track {T} (R : recurring T) x d r l f : recurs R -> rc_dtstart R x = Some d -> rc_rrule R x = Some r -> run (recur_next R) x l f ->
  exists kz z, track R x d r 0 0 l kz z /\ run (recur_next R) z [] f.
Proof.
  intros K Hd Hr H. apply run_reaches in H as (z & H & F). destruct (reaches_track R K x d r 0 0 x l z) as (kz & Tz); auto using item_start. eauto.
Qed.
Lemma track_item {T} (R : recurring T) x d r i k l kz z : track R x d r i k l kz z -> item_at R x d r (i + length l) kz z.
Proof. induction 1; cbn [length]; [now rewrite Nat.add_0_r|]. now rewrite Nat.add_succ_r. Qed.
Lemma track_le {T} (R : recurring T) x d r i k l kz z : track R x d r i k l kz z -> (k <= kz)%nat.
Proof. induction 1 as [|i k k' y l kz z It C (H1 & _) Tr IH]; lia. Qed.
Lemma track_nth {T} (R : recurring T) x d r i k l kz z : track R x d r i k l kz z -> forall n y, nth_error l n = Some y ->
  exists kn, (k + n <= kn < kz)%nat /\ (n = O -> kn = k) /\ item_at R x d r (i + n) kn y /\
    (n <> O -> forall dn, steps r kn d dn -> ~ In dn (rc_exdate R x)) /\ (forall dn, steps r kn d dn -> ~ past_until r dn).
Proof.
  induction 1 as [|i k k' y l kz z It C (H1 & H2 & H3 & H4) Tr IH]; intros n w Hn; [destruct n; discriminate|].
  pose proof (track_le _ _ _ _ _ _ _ _ _ Tr) as L.
  destruct n as [|n]; cbn in Hn.
  - inv Hn. exists k. rewrite !Nat.add_0_r. split; [lia|]. split; auto. split; auto. split; [congruence|]. intros dn Hd. apply (H4 k); auto.
  - destruct (IH n w Hn) as (kn & A & A' & B & C' & D). exists kn. split; [lia|]. split; [discriminate|]. split; [now rewrite Nat.add_succ_r|]. split; auto.
    intros _ dn Hd. destruct n; auto. rewrite (A' eq_refl) in *. auto.
Qed.
Lemma track_count {T} (R : recurring T) x d r i k l kz z : track R x d r i k l kz z -> forall n, (n < length l)%nat -> r_count (count_down r (i + n)) <> Some 0.
Proof.
  induction 1 as [|i k k' y l kz z It C Hp Tr IH]; intros n Hn; cbn in Hn; [lia|]. destruct n; [now rewrite Nat.add_0_r|]. rewrite Nat.add_succ_r. apply IH. lia.
Qed.
(** The call after a run. *)
Lemma track_end {T} (R : recurring T) x d r l kz z n res : recurs R -> track R x d r 0 0 l kz z -> recur_next R n z = res -> res <> IFuel ->
  exists dz m, rc_dtstart R z = Some dz /\ call R z dz (count_down r (length l)) m res.
Proof.
  intros K Tr N F. apply track_item in Tr. cbn in Tr. apply item_fields in Tr as (dz & ez & _ & _ & _ & _ & B1 & _ & B3 & _); auto.
  destruct (next_call R K n z dz _ B1 B3) as (m & _ & C); [congruence|]. rewrite N in C. eauto.
Qed.

(** ** C38 *)
(** The components that recur, and where their schedule is: see [event_fields], [journal_fields] and [todo_fields]. *)
Theorem C38_three_kinds : recurs rec_vevent /\ recurs rec_vjournal /\ recurs rec_vtodo.
Proof. split; [exact recurs_event|split; [exact recurs_journal|exact recurs_todo]]. Qed.
Theorem C38_no_rule : forall T (R : recurring T) x l f,
  recurs R -> rc_rrule R x = None \/ rc_dtstart R x = None -> run (recur_next R) x l f -> l = [] /\ (f = Ended \/ f = Cut).
Proof.
  intros T R x l f K H Hr.
  assert (N : forall n, recur_next R (S n) x = IDone x) by (intros n; unfold recur_next; cbn [next_loop]; rewrite body_none; tauto).
  assert (M : forall n r, recur_next R n x = r -> r <> IFuel -> r = IDone x) by (intros [|n] r Q F; [cbn in Q; congruence|rewrite N in Q; congruence]).
  inversion Hr as [|? s' n Q|? n Q|? Q|? n a s' l' f' Q]; subst; auto; exfalso.
  - apply M in Q; discriminate.
  - specialize (Q 1%nat). rewrite N in Q. discriminate.
  - apply M in Q; discriminate.
Qed.

(** ** Every number of calls has an outcome, and only one *)
Theorem C44_outcome_unique : forall T (R : recurring T) x l f l' f',
  run (recur_next R) x l f -> run (recur_next R) x l' f' ->
  (l = l' /\ f = f') \/ (f = Cut /\ exists rest, l' = l ++ rest) \/ (f' = Cut /\ exists rest, l = l' ++ rest).
Proof. intros. eapply run_det; eauto. apply recur_next_mono. Qed.

(** ** C42 *)
Theorem C42_exdates_skipped : forall T (R : recurring T) x l f i y d,
  recurs R -> run (recur_next R) x l f -> nth_error l i = Some y -> i <> O -> rc_dtstart R y = Some d -> ~ In d (rc_exdate R x).
Proof.
  intros T R x l f i y d K H Hi Hn Hd.
  destruct (rc_dtstart R x) as [d0|] eqn:D0; [|apply C38_no_rule in H as [-> _]; auto; destruct i; discriminate].
  destruct (rc_rrule R x) as [r|] eqn:R0; [|apply C38_no_rule in H as [-> _]; auto; destruct i; discriminate].
  destruct (run_track R x d0 r l f K D0 R0 H) as (kz & z & Tr & _). destruct (track_nth _ _ _ _ _ _ _ _ _ Tr _ _ Hi) as (kn & _ & _ & It & Nx & _).
  apply item_fields in It as (d' & e & S1 & _ & _ & _ & B1 & _); auto. rewrite B1 in Hd. inv Hd. auto.
Qed.
Theorem C42_first_always : forall T (R : recurring T) x l f y, recurs R -> run (recur_next R) x (y :: l) f -> y = x.
Proof.
  intros T R x l f y K H. inversion H; subst. unfold recur_next in *. destruct (next_loop R n x); congruence.
Qed.
(** Exactly the excluded positions are left out: the occurrences are at increasing
    positions (numbers of steps from the start), the first at 0, and every position
    passed over is excluded. *)
Theorem C42_only_exdates_skipped : forall T (R : recurring T) x l f d r,
  recurs R -> rc_dtstart R x = Some d -> rc_rrule R x = Some r -> run (recur_next R) x l f ->
  exists ks, length ks = length l /\ (l <> [] -> nth_error ks 0 = Some O) /\
    (forall i k y, nth_error ks i = Some k -> nth_error l i = Some y ->
       exists d', rc_dtstart R y = Some d' /\ steps r k d d' /\ steps_opt r k (rc_dtend R x) (rc_dtend R y)) /\
    (forall i k k', nth_error ks i = Some k -> nth_error ks (S i) = Some k' ->
       (k < k')%nat /\ forall j dj, (k < j < k')%nat -> steps r j d dj -> In dj (rc_exdate R x)).
Proof.
  intros T R x l f d r K Hd Hr H. destruct (run_track R x d r l f K Hd Hr H) as (kz & z & Tr & _). clear H f.
  assert (G : forall i k l kz z, track R x d r i k l kz z -> exists ks, length ks = length l /\ (l <> [] -> nth_error ks 0 = Some k) /\
    (forall i k y, nth_error ks i = Some k -> nth_error l i = Some y -> exists d', rc_dtstart R y = Some d' /\ steps r k d d' /\ steps_opt r k (rc_dtend R x) (rc_dtend R y)) /\
    (forall i k k', nth_error ks i = Some k -> nth_error ks (S i) = Some k' -> (k < k')%nat /\ forall j dj, (k < j < k')%nat -> steps r j d dj -> In dj (rc_exdate R x)));
  [clear l kz z Tr|apply (G _ _ _ _ _ Tr)].
  induction 1 as [|i k k' y l kz z It C (H1 & H2 & H3 & H4) Tr (ks & L & F & N & P)].
  - exists []. split; auto. split; [congruence|]. split; intros [|i0]; discriminate.
  - exists (k :: ks). split; [cbn; congruence|]. split; [auto|]. split.
    + intros [|n] kn w A B; cbn in *; [|eauto]. inv A. inv B. apply item_fields in It as (d' & e & S1 & S2 & _ & _ & B1 & B2 & _); auto. exists d'. rewrite B2. auto.
    + intros [|n] a b A B; cbn in *; [|eauto]. inv A. destruct l as [|w l]; [destruct ks; discriminate|]. rewrite F in B by discriminate. inv B. auto.
Qed.

(** ** C46 *)
Lemma occurrence_form {T} (R : recurring T) x l f d r i y : recurs R -> rc_dtstart R x = Some d -> rc_rrule R x = Some r ->
  run (recur_next R) x l f -> nth_error l i = Some y -> exists d' e', y = occ R x d' e' (count_down r i) /\ shaped R x e'.
Proof.
  intros K Hd Hr H Hi. destruct (run_track R x d r l f K Hd Hr H) as (kz & z & Tr & _). destruct (track_nth _ _ _ _ _ _ _ _ _ Tr _ _ Hi) as (kn & _ & _ & It & _).
  apply item_fields in It as (d' & e & _ & _ & Y & Sh & _); auto. eauto.
Qed.
Theorem C46_event_unchanged : forall (x : vevent) l f r i y,
  ev_rrule x = Some r -> run (recur_next rec_vevent) x l f -> nth_error l i = Some y ->
  exists start fin, y = set_ev_rrule (set_ev_dtend (set_ev_dtstart x start) fin) (Some (count_down r i)) /\ (fin = None <-> ev_dtend x = None).
Proof.
  intros x l f r i y Hr H Hi. destruct (occurrence_form rec_vevent x l f (ev_dtstart x) r i y) as (d' & e' & -> & Sh); auto; [constructor|].
  exists d', e'. unfold shaped, occ in *. cbn in *. destruct e' as [e'|], (ev_dtend x) as [e|] eqn:D; try contradiction.
  - split; [reflexivity|split; discriminate].
  - split; [|tauto]. destruct x; cbn in *. now subst.
Qed.
Theorem C46_journal_unchanged : forall (x : vjournal) l f r i y,
  jo_rrule x = Some r -> run (recur_next rec_vjournal) x l f -> nth_error l i = Some y ->
  exists start, y = set_jo_rrule (set_jo_dtstart x start) (Some (count_down r i)).
Proof.
  intros x l f r i y Hr H Hi. destruct (occurrence_form rec_vjournal x l f (jo_dtstart x) r i y) as (d' & e' & -> & Sh); auto; [constructor|].
  exists d'. unfold shaped, occ in *. cbn in *. destruct e'; [contradiction|reflexivity].
Qed.
Theorem C46_todo_unchanged : forall (x : vtodo) l f r i y,
  to_rrule x = Some r -> run (recur_next rec_vtodo) x l f -> nth_error l i = Some y ->
  exists start, y = set_to_rrule (set_to_dtstart x (Some start)) (Some (count_down r i)) /\ to_due y = to_due x.
Proof.
  intros x l f r i y Hr H Hi.
  destruct (to_dtstart x) as [d|] eqn:D; [|apply C38_no_rule in H as [-> _]; [destruct i; discriminate|constructor|cbn; auto]].
  destruct (occurrence_form rec_vtodo x l f d r i y) as (d' & e' & -> & Sh); auto; [constructor|].
  exists d'. unfold shaped, occ in *. cbn in *. destruct e'; [contradiction|split; reflexivity].
Qed.

(** ** C40 *)
Theorem C40_at_most_count : forall T (R : recurring T) x l f r c,
  recurs R -> rc_rrule R x = Some r -> r_count r = Some c -> 0 <= c -> run (recur_next R) x l f -> Z.of_nat (length l) <= c.
Proof.
  intros T R x l f r c K Hr Hc Hp H. destruct (rc_dtstart R x) as [d|] eqn:D; [|apply C38_no_rule in H as [-> _]; auto].
  destruct (run_track R x d r l f K D Hr H) as (kz & z & Tr & _). destruct (Z.le_gt_cases (Z.of_nat (length l)) c); auto. exfalso.
  apply (track_count _ _ _ _ _ _ _ _ _ Tr (Z.to_nat c)); [lia|]. unfold count_down. cbn [set_count r_count]. rewrite Hc. cbn. f_equal. lia.
Qed.
Theorem C40_exactly_count : forall T (R : recurring T) x l r c d,
  recurs R -> rc_dtstart R x = Some d -> rc_rrule R x = Some r -> r_count r = Some c -> 0 <= c -> r_until r = None ->
  run (recur_next R) x l Ended -> Z.of_nat (length l) = c.
Proof.
  intros T R x l r c d K Hd Hr Hc Hp Hu H. destruct (run_track R x d r l Ended K Hd Hr H) as (kz & z & Tr & F). inversion F as [|? s' n N| | |]; subst.
  destruct (track_end R x d r l kz z n _ K Tr N ltac:(discriminate)) as (dz & m & _ & C). inversion C; subst.
  - exfalso. match goal with P : past_until _ _ |- _ => unfold past_until, count_down in P; cbn [set_count r_until] in P; now rewrite Hu in P end.
  - match goal with Q : r_count (count_down _ _) = _ |- _ => unfold count_down in Q; cbn [set_count r_count] in Q; rewrite Hc in Q; cbn in Q; inv Q end. lia.
Qed.

(** ** C41 *)
Theorem C41_until_bounds : forall T (R : recurring T) x l f i y d r u,
  recurs R -> rc_rrule R x = Some r -> r_until r = Some u -> run (recur_next R) x l f -> nth_error l i = Some y -> rc_dtstart R y = Some d ->
  date_naive d <= date_naive u.
Proof.
  intros T R x l f i y d r u K Hr Hu H Hi Hd. destruct (rc_dtstart R x) as [d0|] eqn:D0; [|apply C38_no_rule in H as [-> _]; auto; destruct i; discriminate].
  destruct (run_track R x d0 r l f K D0 Hr H) as (kz & z & Tr & _). destruct (track_nth _ _ _ _ _ _ _ _ _ Tr _ _ Hi) as (kn & _ & _ & It & _ & P).
  apply item_fields in It as (d' & e & S1 & _ & _ & _ & B1 & _); auto. rewrite B1 in Hd. inv Hd. specialize (P _ S1). unfold past_until in P. rewrite Hu in P. lia.
Qed.
(** Without exclusions the [i]-th occurrence is at position [i]. *)
Lemma track_plain {T} (R : recurring T) x d r i k l kz z : rc_exdate R x = [] -> track R x d r i k l kz z -> (forall j, (j < kz)%nat -> exists dj, steps r j d dj) -> kz = (k + length l)%nat.
Proof.
  intros Hx. induction 1 as [|i k k' y l kz z It C (H1 & H2 & H3 & H4) Tr IH]; intros St; cbn [length]; [lia|].
  pose proof (track_le _ _ _ _ _ _ _ _ _ Tr) as L.
  assert (k' = S k).
  { destruct (Nat.eq_dec k' (S k)); auto. exfalso. destruct (St (S k)) as (dj & Hj); [lia|]. apply (H2 (S k)) in Hj; [|lia]. now rewrite Hx in Hj. }
  rewrite IH; auto. lia.
Qed.
Lemma steps_prefix r j k a c : (j <= k)%nat -> steps r k a c -> exists b, steps r j a b.
Proof. intros L H. replace k with (j + (k - j))%nat in H by lia. apply steps_split in H as (b & B & _). eauto. Qed.
Lemma plain_nth {T} (R : recurring T) x d r l kz z : recurs R -> rc_exdate R x = [] -> track R x d r 0 0 l kz z -> kz = length l /\
  forall i y, nth_error l i = Some y -> item_at R x d r i i y.
Proof.
  intros K Hx Tr. pose proof (track_item _ _ _ _ _ _ _ _ _ Tr) as Iz. apply item_fields in Iz as (dz & ez & Sz & _); auto.
  assert (St : forall j, (j < kz)%nat -> exists dj, steps r j d dj) by (intros j L; eapply steps_prefix; [|eauto]; lia).
  split; [apply (track_plain R x d r 0 0 l kz z Hx Tr St)|].
  assert (G : forall i k l kz z, track R x d r i k l kz z -> (forall j, (j < kz)%nat -> exists dj, steps r j d dj) -> forall n y, nth_error l n = Some y -> item_at R x d r (i + n) (k + n) y).
  { clear l kz z Tr dz ez Sz St. induction 1 as [|i k k' y l kz z It C (H1 & H2 & H3 & H4) Tr IH]; intros St n w Hn; [destruct n; discriminate|].
    pose proof (track_le _ _ _ _ _ _ _ _ _ Tr) as L.
    assert (k' = S k).
    { destruct (Nat.eq_dec k' (S k)); auto. exfalso. destruct (St (S k)) as (dj & Hj); [lia|]. apply (H2 (S k)) in Hj; [|lia]. now rewrite Hx in Hj. }
    subst. destruct n; cbn in Hn; [inv Hn; now rewrite !Nat.add_0_r|]. rewrite !Nat.add_succ_r. apply (IH St n w Hn). }
  intros i y Hi. apply (G 0%nat 0%nat l kz z Tr St i y Hi).
Qed.
(** Without exclusions and COUNT an ended run is cut by UNTIL only: the first start
    left out is past it, and all the ones before it are there. *)
Theorem C41_until_complete : forall T (R : recurring T) x l d r,
  recurs R -> rc_dtstart R x = Some d -> rc_rrule R x = Some r -> rc_exdate R x = [] -> r_count r = None -> run (recur_next R) x l Ended ->
  (exists d', steps r (length l) d d' /\ past_until r d') /\
  (forall k y, nth_error l k = Some y -> exists d', rc_dtstart R y = Some d' /\ steps r k d d' /\ ~ past_until r d').
Proof.
  intros T R x l d r K Hd Hr Hx Hc H. destruct (run_track R x d r l Ended K Hd Hr H) as (kz & z & Tr & F). destruct (plain_nth R x d r l kz z K Hx Tr) as (Kz & P). split.
  - inversion F as [|z1 s' n N| | |]; subst z1. rewrite Kz in Tr. destruct (track_end R x d r l _ z n _ K Tr N ltac:(discriminate)) as (dz & m & Hz & C).
    apply track_item in Tr. cbn in Tr. pose proof Tr as Tr'. apply item_fields in Tr' as (dz' & ez & S1 & _ & _ & _ & B1 & B2 & _ & B4); auto. rewrite B1 in Hz. injection Hz as <-.
    inversion C as [m1 dm em Sk Pu Eq1 Eq2|m1 dm em d1 e1 Sk Np Ad Ae Nx Nc Eq1 Eq2| |]; try subst m1; subst s'.
    + destruct (skipped_from R K x d r _ _ z dz' m dm em Tr B1 Sk) as (Q1 & _ & Q3 & _). destruct m as [|m].
      * rewrite Nat.add_0_r in Q1. exists dm. split; auto.
      * exfalso. destruct (steps_prefix r (length l + 1) (length l + S m) d dm) as (b & Hb); [lia|auto|]. apply (Q3 (length l + 1)%nat) in Hb; [|lia]. now rewrite Hx in Hb.
    + exfalso. unfold count_down in Nc; cbn [set_count r_count] in Nc; rewrite Hc in Nc; discriminate.
  - intros k y Hy. pose proof (P k y Hy) as It. destruct (track_nth _ _ _ _ _ _ _ _ _ Tr _ _ Hy) as (kn & Q1 & _ & It' & _ & Q).
    apply item_fields in It as (d' & e & S1 & _ & _ & _ & B1 & _); auto. exists d'. split; auto. split; auto.
    apply item_fields in It' as (d2 & e2 & S2 & _ & _ & _ & B2 & _); auto. rewrite B1 in B2. inv B2. eauto.
Qed.
(** An occurrence is lost when the next date is excluded and past UNTIL. *)
Theorem C41_last_lost : forall T (R : recurring T) x d r d' fuel,
  recurs R -> rc_dtstart R x = Some d -> rc_rrule R x = Some r -> ~ past_until r d -> recur_add r d = Ok d' -> past_until r d' -> In d' (rc_exdate R x) ->
  (forall e, rc_dtend R x = Some e -> recur_add r e <> Panic) -> (2 <= fuel)%nat ->
  recur_next R fuel x = IDone x.
Proof.
  intros T R x d r d' fuel K Hd Hr Hp Ha Hp' Hx He L. destruct fuel as [|[|n]]; try lia. unfold recur_next. cbn [next_loop]. rewrite (body_eq R x d r K Hd Hr).
  destruct (until_over r d) eqn:U; [apply until_over_iff in U; contradiction|]. rewrite Ha.
  assert (A : exists e', add_opt r (rc_dtend R x) = Ok e').
  { destruct (rc_dtend R x) as [e|]; cbn; eauto. specialize (He e eq_refl). destruct (recur_add r e) as [w|er|] eqn:W; cbn; eauto; [now apply recur_add_not_err in W|congruence]. }
  destruct A as (e' & A). rewrite A. apply in_ex in Hx. rewrite Hx.
  pose proof (steps_opt_shaped _ _ _ _ _ (add_opt_steps _ _ _ A)) as Sh. destruct (occ_fields R x d' e' r K Sh) as (O1 & O2 & O3 & O4).
  rewrite (body_eq R _ d' r K O1 O3). apply until_over_iff in Hp'. now rewrite Hp'.
Qed.

(** ** C45 *)
Theorem C45_ended_stays_ended : forall T (R : recurring T) x n s,
  recur_next R n x = IDone s -> s = x /\ forall m, (n <= m)%nat -> recur_next R m s = IDone s.
Proof.
  intros T R x n s H. assert (s = x) by (unfold recur_next in H; destruct (next_loop R n x); congruence). subst. split; auto.
  intros m L. rewrite (recur_next_mono R n m x L); auto. congruence.
Qed.
Theorem C45_run_stays_ended : forall T (R : recurring T) x f,
  run (recur_next R) x [] Ended -> run (recur_next R) x [] f -> f = Ended \/ f = Cut.
Proof. intros T R x f H H'. destruct (run_det _ _ _ _ _ _ (recur_next_mono R) H H') as [[_ ->]|[[X _]|[-> _]]]; auto; discriminate. Qed.
End PropIter.
