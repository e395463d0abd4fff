(** * C36: what is left of an order between dates and date-times *)
From Verif Require Import Base Env Chrono Types BaseFacts ChronoFacts SpecCal SpecDur SpecIter PropDate PropList PropArith.

(** [a] and [b] are times of one day, and [a] is the earlier. *)
Definition earlier_that_day {E : Env} (a b : date) : Prop :=
  exists x y, a = DDateTime x /\ b = DDateTime y /\ nd_date (wall x) = nd_date (wall y) /\
    (nd_secs (wall x) < nd_secs (wall y) \/ nd_secs (wall x) = nd_secs (wall y) /\ nd_nano (wall x) < nd_nano (wall y)).
(** The local day of a date or a date-time. *)
Definition day_of {E : Env} (a : date) : ndate := match a with DDate n => n | DDateTime t => nd_date (wall t) end.

Section WithEnv.
Context {E : Env}.
(** Exactly when: an earlier day, or two times of one day. *)
Theorem C36_mixed_before : forall a b, date_cmp a b = Lt <-> day_of a < day_of b \/ earlier_that_day a b.
Proof.
  intros a b. unfold earlier_that_day. destruct a as [n|x], b as [m|y]; cbn [date_cmp day_of].
  - rewrite Z.compare_lt_iff. split; [auto|]. intros [H|(u & v & A & _)]; [exact H|discriminate].
  - unfold dt_date_naive. change (dt_naive y) with (wall y). rewrite Z.compare_lt_iff. split; [auto|]. intros [H|(u & v & A & _)]; [exact H|discriminate].
  - unfold dt_date_naive. change (dt_naive x) with (wall x). rewrite Z.compare_lt_iff. split; [auto|]. intros [H|(u & v & _ & A & _)]; [exact H|discriminate].
  - unfold dt_cmp. change (dt_naive x) with (wall x). change (dt_naive y) with (wall y). pose proof (ndt_cmp_spec (wall x) (wall y)) as P. unfold ndt_before in P. split.
    + intros C. rewrite C in P. destruct P as [P|[P Q]]; [left; exact P|right; exists x, y; auto].
    + intros H. assert (G : ndt_before (wall x) (wall y)).
      { unfold ndt_before. destruct H as [H|(u & v & A & B & H)]; [left; exact H|]. injection A as <-. injection B as <-. right. exact H. }
      unfold ndt_before in G. destruct (ndt_cmp (wall x) (wall y)); [rewrite P in G; lia|reflexivity|lia].
Qed.
Lemma opposite a b : date_cmp b a = CompOpp (date_cmp a b).
Proof.
  destruct a as [n|x], b as [m|y]; cbn [date_cmp]; try apply Z.compare_antisym.
  destruct (C35_datetime_order E) as [(A & _) _]. exact (A x y Logic.I Logic.I).
Qed.
(** Whatever is compared: the comparison the other way round is the opposite; before is transitive and irreflexive; and what is not after
    something before [c] is not after [c] (nor is it before what was not before). *)
Theorem C36_mixed_laws :
  (forall a b, date_cmp b a = CompOpp (date_cmp a b)) /\ (forall a, date_cmp a a = Eq) /\
  (forall a b c, date_cmp a b = Lt -> date_cmp b c = Lt -> date_cmp a c = Lt) /\
  (forall a b c, date_cmp a b <> Gt -> date_cmp b c = Lt -> date_cmp a c <> Gt) /\
  (forall a b c, date_cmp a b = Lt -> date_cmp b c <> Gt -> date_cmp a c <> Gt).
Proof.
  assert (N : forall a b, date_cmp a b <> Gt <-> ~ (day_of b < day_of a \/ earlier_that_day b a)).
  { intros a b. rewrite <- C36_mixed_before, (opposite a b). destruct (date_cmp a b); cbn [CompOpp]; intuition congruence. }
  assert (L : forall a b, earlier_that_day a b -> day_of a = day_of b) by (intros a b (x & y & -> & -> & D & _); exact D).
  split; [exact opposite|]. split.
  { intros a. pose proof (opposite a a) as O. destruct (date_cmp a a); [reflexivity|discriminate|discriminate]. }
  split; [|split].
  - intros a b c. rewrite !C36_mixed_before. intros [A|A] [B|B]; try (pose proof (L _ _ A)); try (pose proof (L _ _ B)); try (left; lia).
    right. destruct A as (x & y & -> & -> & D & S), B as (y' & z & Y & -> & D' & S'). injection Y as <-. exists x, z. repeat split; lia.
  - intros a b c. rewrite !N, C36_mixed_before. intros A [B|B] [C|C].
    + apply A. left. lia.
    + pose proof (L _ _ C). apply A. left. lia.
    + pose proof (L _ _ B). apply A. left. lia.
    + destruct B as (x & y & -> & -> & D & S), C as (y' & z & Y & -> & D' & S'). injection Y as <-. apply A. right. exists x, z. repeat split; lia.
  - intros a b c. rewrite !N, C36_mixed_before. intros [A|A] B [C|C].
    + apply B. left. lia.
    + pose proof (L _ _ C). apply B. left. lia.
    + pose proof (L _ _ A). apply B. left. lia.
    + destruct A as (x & y & -> & -> & D & S), C as (y' & z & -> & Y & D' & S'). injection Y as <-. apply B. right. exists y', y. repeat split; lia.
Qed.
(** Equal is transitive through [b] unless [b] is a date and the others are two different times of it. *)
Theorem C36_mixed_equal : forall a b c, date_cmp a b = Eq -> date_cmp b c = Eq ->
  date_cmp a c = Eq \/ exists n x z, a = DDateTime x /\ b = DDate n /\ c = DDateTime z /\ nd_date (wall x) = n /\ nd_date (wall z) = n /\ wall x <> wall z.
Proof.
  intros a b c A B. destruct a as [n|x], b as [m|y], c as [k|z]; cbn [date_cmp] in *; unfold dt_date_naive in *; rewrite ?Z.compare_eq_iff in *.
  all: try (left; congruence).
  - left. unfold dt_cmp in B. pose proof (ndt_cmp_spec (dt_naive y) (dt_naive z)) as P. rewrite B in P. congruence.
  - destruct (dt_cmp x z) eqn:C; [auto|right..]; exists m, x, z; change (dt_naive x) with (wall x) in *; change (dt_naive z) with (wall z) in *;
      (split; [reflexivity|split; [reflexivity|split; [reflexivity|split; [lia|split; [lia|]]]]]); intros W; unfold dt_cmp in C; change (dt_naive x) with (wall x) in C;
      change (dt_naive z) with (wall z) in C; rewrite W in C; pose proof (ndt_cmp_spec (wall z) (wall z)) as P; rewrite C in P; unfold ndt_before in P; lia.
  - left. unfold dt_cmp in A. pose proof (ndt_cmp_spec (dt_naive x) (dt_naive y)) as P. rewrite A in P. congruence.
  - left. unfold dt_cmp in *. pose proof (ndt_cmp_spec (dt_naive x) (dt_naive y)) as P. rewrite A in P. rewrite P. exact B.
Qed.
(** So the first of a list, by [<], is on the first day. *)
Theorem C36_mixed_minimum : forall (l : list date) a, In a l -> (forall b, In b l -> date_cmp b a <> Lt) -> forall b, In b l -> day_of a <= day_of b.
Proof.
  intros l a _ H b Hb. specialize (H b Hb). rewrite C36_mixed_before in H. destruct (Z.lt_ge_cases (day_of b) (day_of a)); [exfalso; auto|lia].
Qed.
End WithEnv.
Example C36_nonvacuous_mixed : forall E : Env, let noon := DDateTime (Naive (mk_ndt 19782 43200 0)) in let six := DDateTime (Naive (mk_ndt 19782 64800 0)) in
  date_cmp noon six = Lt /\ earlier_that_day noon six /\ date_cmp noon (DDate 19782) = Eq /\ date_cmp (DDate 19782) six = Eq /\ date_cmp six (DDate 19783) = Lt /\ day_of six = 19782.
Proof.
  intros E noon six. split; [reflexivity|]. split; [exists (Naive (mk_ndt 19782 43200 0)), (Naive (mk_ndt 19782 64800 0)); cbn; repeat split; lia|]. repeat split.
Qed.
