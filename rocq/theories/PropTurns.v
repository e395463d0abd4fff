(** * C44: how many turns a call of next() takes, kind by kind *)
From Verif Require Import Base Env Chrono Types Components Iter BaseFacts ChronoFacts SpecCal PropDate SpecIter IterFacts PropIter PropIterEx TimeFacts PropTime SpecKinds PropKinds.

Section Turns.
Context {E : Env}.
Lemma occurrence_rule k (x : item k) l f r i y : rule_of x = Some r -> series x l f -> nth_error l i = Some y ->
  rule_of y = Some (count_down r i) /\ excluded_of y = excluded_of x.
Proof.
  destruct k; cbn [rule_of excluded_of item]; intros Hr H N.
  - destruct (C46_event_unchanged x l f r i y Hr H N) as (s & e & -> & _). split; reflexivity.
  - destruct (C46_journal_unchanged x l f r i y Hr H N) as (s & ->). split; reflexivity.
  - destruct (C46_todo_unchanged x l f r i y Hr H N) as (s & -> & _). split; reflexivity.
Qed.
(** Every call, the first and any later one, needs one turn of its loop more than there are excluded dates, or fewer. *)
Theorem C44_turns_kind : forall k (x : item k) l f y fuel,
  (forall d r, start_of x = Some d -> rule_of x = Some r -> 1 <= r_interval r /\ tidy d /\ zone_fits E d) ->
  series x l f -> y = x \/ In y l -> (length (excluded_of x) < fuel)%nat -> recur_next (code k) fuel y <> IFuel.
Proof.
  intros k x l f y fuel W H Hy L. assert (G : excluded_of y = excluded_of x /\
    (forall d r, start_of y = Some d -> rule_of y = Some r -> 1 <= r_interval r /\ tidy d /\ zone_fits E d)).
  { destruct Hy as [->|Hy]; [auto|]. destruct (In_nth_error l y Hy) as [i N].
    destruct (rule_of x) as [r|] eqn:Hr; [|destruct (C38_kind k x l f (or_introl Hr) H) as [-> _]; contradiction].
    destruct (start_of x) as [d|] eqn:Hd; [|destruct (C38_kind k x l f (or_intror Hd) H) as [-> _]; contradiction].
    destruct (occurrence_rule k x l f r i y Hr H N) as [A B]. split; [exact B|]. intros d' r' D' R'. rewrite A in R'. injection R' as <-.
    destruct (W d r eq_refl eq_refl) as (I & Td & Zf). split; [exact I|].
    destruct (C42_kind k x l f H) as (_ & _ & C). destruct (C d r Hd Hr) as (ks & Len & _ & P & _).
    destruct (nth_error ks i) as [n|] eqn:Ni; [|apply nth_error_None in Ni; assert (i < length l)%nat by (apply nth_error_Some; congruence); lia].
    destruct (P i n y Ni N) as (d2 & D2 & St & _). rewrite D' in D2. injection D2 as <-.
    destruct (steps_increase r n d d' Td Zf I St) as (T & Z' & _). auto. }
  destruct G as [Gx Gw]. apply (C44_returns _ (code k) y fuel (code_recurs k)).
  - intros d r. rewrite code_start, code_rule. apply Gw.
  - rewrite code_excluded, Gx. exact L.
Qed.
End Turns.
(** Four days excluded in a row: the fifth turn finds the next occurrence, four do not. *)
Example C44_turns_nonvacuous : forall E : Env,
  let x := plain_event (day 2024 1 1) None (Some (plain_rule Daily None None 1)) [day 2024 1 2; day 2024 1 3; day 2024 1 4; day 2024 1 5] in
  length (@excluded_of an_event x) = 4%nat /\ recur_next (code an_event) 4 x = IFuel /\ recur_next (code an_event) 5 x <> IFuel /\
  exists y z, recur_next (code an_event) 5 x = IYield y z.
Proof. intros E x. split; [reflexivity|]. split; [vm_compute; reflexivity|]. split; [vm_compute; discriminate|]. eexists. eexists. vm_compute. reflexivity. Qed.
