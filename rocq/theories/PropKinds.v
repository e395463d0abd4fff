(** * C38-C44, C48-C52, C69, C72, C75 for each kind of component, in terms of its own fields *)
From Verif Require Import Base Env Chrono Types Components Iter BaseFacts ChronoFacts SpecCal PropDate SpecIter IterFacts PropIter PropIterEx TimeFacts PropTime PropWindow PropResume SpecZone PropZone SpecKinds.

Section Kinds.
Context {E : Env}.
Lemma code_recurs k : recurs (code k).
Proof. destruct k; apply C38_three_kinds. Qed.
Lemma code_start k (x : item k) : rc_dtstart (code k) x = start_of x.
Proof. destruct k; reflexivity. Qed.
Lemma code_end k (x : item k) : rc_dtend (code k) x = end_of x.
Proof. destruct k; reflexivity. Qed.
Lemma code_rule k (x : item k) : rc_rrule (code k) x = rule_of x.
Proof. destruct k; reflexivity. Qed.
Lemma code_excluded k (x : item k) : rc_exdate (code k) x = excluded_of x.
Proof. destruct k; reflexivity. Qed.
Lemma code_with k (x : item k) r : rc_set_rrule (code k) x r = with_rule x r.
Proof. destruct k; reflexivity. Qed.
Lemma code_early k a (x : item k) : start_before (code k) a x = starts_early a x.
Proof. unfold start_before, starts_early. now rewrite code_start. Qed.

(** No rule, or no start: nothing. *)
Theorem C38_kind : forall k (x : item k) l f, rule_of x = None \/ start_of x = None -> series x l f -> l = [] /\ (f = Ended \/ f = Cut).
Proof. intros k x l f H. rewrite <- code_rule, <- code_start in H. exact (C38_no_rule _ (code k) x l f (code_recurs k) H). Qed.
(** The k-th occurrence, without exclusions, is k steps from the first. *)
Theorem C39_kind : forall k (x : item k) l f d r u n y,
  start_of x = Some d -> rule_of x = Some r -> excluded_of x = [] -> rule_ok r -> unit_seconds (r_freq r) = Some u ->
  tidy d -> (forall e, end_of x = Some e -> tidy e) ->
  series x l f -> nth_error l n = Some y ->
  (exists d', start_of y = Some d' /\ moved (r_freq r) n (Z.of_nat n * (r_interval r * u)) d d') /\
  match end_of x with
  | Some e => exists e', end_of y = Some e' /\ moved (r_freq r) n (Z.of_nat n * (r_interval r * u)) e e'
  | None => end_of y = None
  end.
Proof.
  intros k x l f d r u n y. repeat rewrite <- code_start. repeat rewrite <- code_end. rewrite <- code_rule, <- code_excluded. intros.
  pose proof (C39_kth_occurrence _ (code k) x l f d r u n y (code_recurs k)) as G. repeat setoid_rewrite <- code_start. repeat setoid_rewrite <- code_end. auto.
Qed.
(** COUNT. *)
Theorem C40_kind : forall k (x : item k) d r c,
  start_of x = Some d -> rule_of x = Some r -> r_count r = Some c -> 0 <= c ->
  (forall l f, series x l f -> Z.of_nat (length l) <= c) /\
  (forall l, r_until r = None -> series x l Ended -> Z.of_nat (length l) = c) /\
  (r_until r = None -> 1 <= r_interval r -> tidy d -> zone_fits E d ->
   exists l f, series x l f /\ (f = Ended /\ Z.of_nat (length l) = c \/ f = Panicked /\ Z.of_nat (length l) <= c)).
Proof.
  intros k x d r c. rewrite <- code_start, <- code_rule. intros Hd Hr Hc Hp. split; [|split].
  - intros l f. exact (C40_at_most_count _ (code k) x l f r c (code_recurs k) Hr Hc Hp).
  - intros l U H. exact (C40_exactly_count _ (code k) x l r c d (code_recurs k) Hd Hr Hc Hp U H).
  - intros. exact (C40_count_complete _ (code k) x d r c (code_recurs k) Hd Hr Hc Hp H H0 H1 H2).
Qed.
(** UNTIL. *)
Theorem C41_kind : forall k (x : item k) d r u,
  start_of x = Some d -> rule_of x = Some r -> r_until r = Some u ->
  (forall l f i y dy, series x l f -> nth_error l i = Some y -> start_of y = Some dy -> date_naive dy <= date_naive u) /\
  (forall l, excluded_of x = [] -> r_count r = None -> series x l Ended ->
     (exists d', steps r (length l) d d' /\ past_until r d') /\
     (forall n y, nth_error l n = Some y -> exists d', start_of y = Some d' /\ steps r n d d' /\ ~ past_until r d')).
Proof.
  intros k x d r u. rewrite <- code_start, <- code_rule, <- code_excluded. intros Hd Hr U. split.
  - intros l f i y dy S N. rewrite <- code_start. intros D. exact (C41_until_bounds _ (code k) x l f i y dy r u (code_recurs k) Hr U S N D).
  - intros l X C S. destruct (C41_until_complete _ (code k) x l d r (code_recurs k) Hd Hr X C S) as [A B]. split; [exact A|].
    intros n y N. rewrite <- code_start. exact (B n y N).
Qed.
(** EXDATE. *)
Theorem C42_kind : forall k (x : item k) l f,
  series x l f ->
  (forall y l', l = y :: l' -> y = x) /\
  (forall i y dy, nth_error l i = Some y -> i <> O -> start_of y = Some dy -> ~ In dy (excluded_of x)) /\
  (forall d r, start_of x = Some d -> rule_of x = Some r ->
     exists ks, length ks = length l /\ (l <> [] -> nth_error ks 0 = Some O) /\
       (forall i n y, nth_error ks i = Some n -> nth_error l i = Some y ->
          exists d', start_of y = Some d' /\ steps r n d d' /\ steps_opt r n (end_of x) (end_of y)) /\
       (forall i n n', nth_error ks i = Some n -> nth_error ks (S i) = Some n' ->
          (n < n')%nat /\ forall j dj, (n < j < n')%nat -> steps r j d dj -> In dj (excluded_of x))).
Proof.
  intros k x l f H. split; [|split].
  - intros y l' ->. exact (C42_first_always _ (code k) x l' f y (code_recurs k) H).
  - intros i y dy N I. rewrite <- code_start, <- code_excluded. exact (C42_exdates_skipped _ (code k) x l f i y dy (code_recurs k) H N I).
  - intros d r. rewrite <- code_start, <- code_rule. intros Hd Hr.
    destruct (C42_only_exdates_skipped _ (code k) x l f d r (code_recurs k) Hd Hr H) as (ks & A & B & C & D). exists ks. split; [exact A|]. split; [exact B|]. split.
    + intros i n y P Q. rewrite <- code_start, <- !code_end. exact (C i n y P Q).
    + intros i n n' P Q. rewrite <- code_excluded. exact (D i n n' P Q).
Qed.
(** Order. *)
Theorem C43_kind : forall k (x : item k) l f d r i j y z dy dz,
  start_of x = Some d -> rule_of x = Some r -> 1 <= r_interval r -> tidy d -> zone_fits E d ->
  series x l f -> (i < j)%nat -> nth_error l i = Some y -> nth_error l j = Some z -> start_of y = Some dy -> start_of z = Some dz ->
  second_of dy < second_of dz.
Proof.
  intros k x l f d r i j y z dy dz. rewrite <- !code_start, <- code_rule. exact (C43_strictly_increasing _ (code k) x l f d r i j y z dy dz (code_recurs k)).
Qed.
(** Every call returns, unless the interval is zero and the start excluded. *)
Theorem C44_kind : forall k (x : item k),
  (forall d r, start_of x = Some d -> rule_of x = Some r -> 1 <= r_interval r /\ tidy d /\ zone_fits E d) ->
  forall n, exists l f, series x l f /\ (length l <= n)%nat /\ (length l = n \/ f = Ended \/ f = Panicked) /\ f <> Hangs.
Proof.
  intros k x H n. apply (C44_any_number_of_calls _ (code k) x n (code_recurs k)). intros d r. rewrite code_start, code_rule. apply H.
Qed.
Theorem C44_hang_kind : forall k (x : item k) d r,
  start_of x = Some d -> rule_of x = Some r -> r_interval r = 0 -> standing r d -> (forall e, end_of x = Some e -> standing r e) ->
  In d (excluded_of x) -> ~ past_until r d -> series x [] Hangs.
Proof.
  intros k x d r. rewrite <- code_start, <- code_rule, <- code_end, <- code_excluded. exact (C44_zero_interval_hangs _ (code k) x d r (code_recurs k)).
Qed.
(** The BY parts and WKST do nothing. *)
Theorem C48_kind : forall k (x : item k) r r' l f,
  rule_of x = Some r -> same_but_by r r' -> series x l f ->
  exists l', series (with_rule x r') l' f /\ map start_of l' = map start_of l /\ map end_of l' = map end_of l.
Proof.
  intros k x r r' l f. rewrite <- code_rule. intros Hr B H.
  destruct (C48_by_parts_ignored _ (code k) x r r' l f (code_recurs k) Hr B H) as (l' & A & C & D). exists l'. rewrite code_with in A. split; [exact A|].
  split.
  - rewrite <- (map_ext _ _ (code_start k)). rewrite <- (map_ext _ _ (code_start k)) at 1. exact C.
  - rewrite <- (map_ext _ _ (code_end k)). rewrite <- (map_ext _ _ (code_end k)) at 1. exact D.
Qed.
(** Windows. *)
Theorem C51_kind : forall k (x : item k) d r a b l f,
  start_of x = Some d -> rule_of x = Some r -> orderly r d -> tidy d -> zone_fits E d -> 1 <= r_interval r ->
  series x l f ->
  series_after a x (filter (fun y => negb (starts_early a y)) l) f /\
  exists g, series_between a b x (filter (fun y => negb (starts_early a y) && starts_early b y) l) g /\
    ((exists y, In y l /\ starts_early a y = false /\ starts_early b y = false) /\ g = Ended \/
     (forall y, In y l -> starts_early a y = true \/ starts_early b y = true) /\ g = f).
Proof.
  intros k x d r a b l f. rewrite <- code_start, <- code_rule. intros Hd Hr O Td Zf I H.
  destruct (C51_window _ (code k) x d r a b l f (code_recurs k) Hd Hr O Td Zf I H) as (A & g & B & C). split; [|exists g; split].
  - rewrite (filter_ext _ (fun y => negb (start_before (code k) a y))); [exact A|]. intros y. now rewrite code_early.
  - rewrite (filter_ext _ (fun y => negb (start_before (code k) a y) && start_before (code k) b y)); [exact B|]. intros y. now rewrite !code_early.
  - destruct C as [[(y & P & Q & Q') ->]|[P ->]]; [left; split; [|reflexivity]; exists y; rewrite <- !code_early; auto|right; split; [|reflexivity]].
    intros y. rewrite <- !code_early. auto.
Qed.
(** Daily steps in a zone. *)
Theorem C52_kind : forall k (x : item k) l f u r n y,
  start_of x = Some (DDateTime (Local u)) -> rule_of x = Some r -> excluded_of x = [] -> r_freq r = Daily -> rule_ok r ->
  tidy_time u -> nd_nano u < 1000000000 ->
  series x l f -> nth_error l n = Some y ->
  exists w, start_of y = Some (DDateTime (Local w)) /\
    seconds w = seconds u + Z.of_nat n * r_interval r * 86400 /\ nd_nano w = nd_nano u /\
    seconds (naive_local w) - seconds (naive_local u) = Z.of_nat n * r_interval r * 86400 + (tz_offset (seconds w) - tz_offset (seconds u)).
Proof.
  intros k x l f u r n y. rewrite <- code_start, <- code_rule, <- code_excluded. intros. setoid_rewrite <- code_start. revert H H0 H1 H2 H3 H4 H5 H6 H7. exact (C52_zoned_daily _ (code k) x l f u r n y (code_recurs k)).
Qed.
(** Going on from an occurrence. *)
Theorem C72_kind : forall k (x : item k) l f i y, series x l f -> nth_error l i = Some y ->
  series y (skipn i l) f /\ (exists rest, series y (y :: rest) f) /\
  forall l' f', series y l' f' -> series x (firstn i l ++ l') f'.
Proof.
  intros k x l f i y H N. split; [|split].
  - exact (C72_resume _ (code k) x l f i y (code_recurs k) H N).
  - exact (C72_first _ (code k) x l f y (code_recurs k) H (nth_error_In _ _ N)).
  - intros l' f'. exact (C72_continue _ (code k) x l f i y l' f' (code_recurs k) H N).
Qed.
(** The excluded dates are a set, and only those of the kind of the occurrences matter. *)
Theorem C75_kind : forall k (x x' : item k) l f,
  start_of x = start_of x' -> end_of x = end_of x' -> rule_of x = rule_of x' ->
  (forall t, (forall d r, start_of x = Some d -> rule_of x = Some r -> (timed r d <-> ~ is_day t)) -> In t (excluded_of x) <-> In t (excluded_of x')) ->
  series x l f ->
  exists l', series x' l' f /\ map start_of l' = map start_of l /\ map end_of l' = map end_of l.
Proof.
  intros k x x' l f Hs He Hr Hx H.
  assert (G : exists l', run (recur_next (code k)) x' l' f /\ map (rc_dtstart (code k)) l' = map (rc_dtstart (code k)) l /\ map (rc_dtend (code k)) l' = map (rc_dtend (code k)) l).
  { destruct (start_of x) as [d|] eqn:Qd; [destruct (rule_of x) as [r|] eqn:Qr|].
    - apply (C75_other_kind _ (code k) x x' l f d r (code_recurs k)); rewrite ?code_start, ?code_end, ?code_rule, ?code_excluded; auto.
      intros t Ht. apply Hx. intros d0 r0 A B. inv A. inv B. exact Ht.
    - apply (C75_a_set _ (code k) x x' l f (code_recurs k)); rewrite ?code_start, ?code_end, ?code_rule, ?code_excluded; try congruence; try exact H.
      intros t. apply Hx. discriminate.
    - apply (C75_a_set _ (code k) x x' l f (code_recurs k)); rewrite ?code_start, ?code_end, ?code_rule, ?code_excluded; try congruence; try exact H.
      intros t. apply Hx. discriminate. }
  destruct G as (l' & A & B & C). exists l'. split; [exact A|]. split.
  - rewrite <- (map_ext _ _ (code_start k)). rewrite <- (map_ext _ _ (code_start k)) at 1. exact B.
  - rewrite <- (map_ext _ _ (code_end k)). rewrite <- (map_ext _ _ (code_end k)) at 1. exact C.
Qed.

(** ** Steps of zoned date-times: C49, C50 *)
(** A yearly step in a zone: the year of the wall clock grows, the rest of the wall clock stays, and the new wall clock must
    exist and be unique. *)
Theorem C50_zoned : forall r u u',
  r_freq r = Yearly -> date_ok (nd_date (naive_local u)) = true ->
  (recur_add r (DDateTime (Local u)) = Ok (DDateTime (Local u')) <->
   exists n', year_stepped (r_interval r) (nd_date (naive_local u)) n' /\
     from_local (mk_ndt n' (nd_secs (naive_local u)) (nd_nano (naive_local u))) = DSingle u') /\
  (recur_add r (DDateTime (Local u)) = Panic <->
   forall n', year_stepped (r_interval r) (nd_date (naive_local u)) n' -> forall w,
     from_local (mk_ndt n' (nd_secs (naive_local u)) (nd_nano (naive_local u))) <> DSingle w).
Proof.
  intros r u u' Hf Ho. cbn [recur_add recur_add_dt]. unfold recur_add_local. rewrite Hf. unfold local_with_year, local_year.
  remember (naive_local u) as l eqn:Ql; clear Ql. pose proof (with_year_iff (nd_date l) (r_interval r)) as W.
  assert (Q : (if date_year (nd_date l) =? date_year (nd_date l) + r_interval r then Some l else ndt_with_year l (date_year (nd_date l) + r_interval r)) =
              option_map (fun d => mk_ndt d (nd_secs l) (nd_nano l)) (date_with_year (nd_date l) (date_year (nd_date l) + r_interval r))).
  { destruct (date_year (nd_date l) =? date_year (nd_date l) + r_interval r) eqn:Z; [|reflexivity].
    apply Z.eqb_eq in Z. assert (r_interval r = 0) as R0 by lia. rewrite R0 in W. rewrite R0.
    replace (date_with_year (nd_date l) (date_year (nd_date l) + 0)) with (Some (nd_date l)); [now destruct l|].
    symmetry. apply W. unfold year_stepped. destruct (ymd_of_days (nd_date l)) as [[y m] d] eqn:D. exists y, m, d. split; [reflexivity|].
    rewrite Z.add_0_r. apply date_ok_year in Ho. unfold date_year in Ho. rewrite D in Ho. split; [|split; [exact Ho|reflexivity]].
    apply valid_ymd_spec. now apply valid_of_days in D as [V _]. }
  rewrite Q. clear Q. destruct (date_with_year (nd_date l) (date_year (nd_date l) + r_interval r)) as [n'|]; cbn [option_map].
  - assert (N : forall w, year_stepped (r_interval r) (nd_date l) w <-> w = n').
    { intros w. rewrite <- W. split; [congruence|intros ->; reflexivity]. }
    split.
    + destruct (from_local (mk_ndt n' (nd_secs l) (nd_nano l))) as [|w|w1 w2] eqn:F; cbn [single unwrap omap obind]; (split; [intros H|intros (n & A & B)]).
      * discriminate. * apply N in A. subst n. congruence.
      * inv H. exists n'. split; [now apply N|exact F]. * apply N in A. subst n. congruence.
      * discriminate. * apply N in A. subst n. congruence.
    + destruct (from_local (mk_ndt n' (nd_secs l) (nd_nano l))) as [|w|w1 w2] eqn:F; cbn [single unwrap omap obind]; (split; [intros H|intros H]); try discriminate; try reflexivity.
      * intros n A v. apply N in A. subst n. congruence.
      * exfalso. apply (H n' (proj2 (N n') eq_refl) w). exact F.
      * intros n A v. apply N in A. subst n. congruence.
  - cbn. split; (split; [intros H|]); try discriminate; try reflexivity.
    + intros (n & A & _). apply W in A. discriminate.
    + intros n A. apply W in A. discriminate.
Qed.
(** The same for months, with the day cut to the length of the month. *)
Theorem C49_zoned : forall r u u',
  r_freq r = Monthly -> rule_ok r -> date_ok (nd_date (naive_local u)) = true ->
  (recur_add r (DDateTime (Local u)) = Ok (DDateTime (Local u')) <->
   exists n', month_stepped (r_interval r) (nd_date (naive_local u)) n' /\
     from_local (mk_ndt n' (nd_secs (naive_local u)) (nd_nano (naive_local u))) = DSingle u') /\
  (recur_add r (DDateTime (Local u)) = Panic <->
   forall n', month_stepped (r_interval r) (nd_date (naive_local u)) n' -> forall w,
     from_local (mk_ndt n' (nd_secs (naive_local u)) (nd_nano (naive_local u))) <> DSingle w).
Proof.
  intros r u u' Hf Hk Ho. cbn [recur_add recur_add_dt]. unfold recur_add_local. rewrite Hf. unfold local_add_months, ndt_add_months.
  remember (naive_local u) as l eqn:Ql; clear Ql. assert (Hi : 0 <= r_interval r) by (destruct Hk; lia).
  pose proof (fun n' => add_months_iff (nd_date l) (r_interval r) n' Ho Hi) as W.
  destruct (date_add_months (nd_date l) (r_interval r)) as [n'|e|] eqn:D.
  - assert (N : forall w, month_stepped (r_interval r) (nd_date l) w <-> w = n').
    { intros w. rewrite <- W. split; [congruence|intros ->; reflexivity]. }
    cbn [obind]. split.
    + destruct (from_local (mk_ndt n' (nd_secs l) (nd_nano l))) as [|w|w1 w2] eqn:F; cbn [single unwrap omap obind]; (split; [intros H|intros (n & A & B)]).
      * discriminate. * apply N in A. subst n. congruence.
      * inv H. exists n'. split; [now apply N|exact F]. * apply N in A. subst n. congruence.
      * discriminate. * apply N in A. subst n. congruence.
    + destruct (from_local (mk_ndt n' (nd_secs l) (nd_nano l))) as [|w|w1 w2] eqn:F; cbn [single unwrap omap obind]; (split; [intros H|intros H]); try discriminate; try reflexivity.
      * intros n A v. apply N in A. subst n. congruence.
      * exfalso. apply (H n' (proj2 (N n') eq_refl) w). exact F.
      * intros n A v. apply N in A. subst n. congruence.
  - exfalso. unfold date_add_months in D. repeat match type of D with context [if ?b then _ else _] => destruct b | context [match ?b with _ => _ end] => destruct b end; discriminate.
  - cbn. split; (split; [intros H|]); try discriminate; try reflexivity.
    + intros (n & A & _). apply W in A. discriminate.
    + intros n A. apply W in A. discriminate.
Qed.
(** A yearly or monthly step into an hour that the clocks skip, or that comes twice, panics, whatever the rest of the rule. *)
Corollary C50_no_such_hour : forall r u,
  r_freq r = Yearly -> date_ok (nd_date (naive_local u)) = true ->
  (forall n', year_stepped (r_interval r) (nd_date (naive_local u)) n' ->
     forall o, tz_local (n' * 86400 + nd_secs (naive_local u)) <> MSingle o) ->
  recur_add r (DDateTime (Local u)) = Panic.
Proof.
  intros r u Hf Ho H. apply (C50_zoned r u u Hf Ho). intros n' A w. unfold from_local, ndt_ts. cbn [nd_date nd_secs].
  specialize (H n' A). destruct (tz_local _) as [|o|]; try discriminate. intros Q. now apply (H o).
Qed.
(** [x.at(a)]: the window of the day that begins at [a]. *)
Theorem C51_at_kind : forall k (x : item k) d r a b l f,
  start_of x = Some d -> rule_of x = Some r -> orderly r d -> tidy d -> zone_fits E d -> 1 <= r_interval r -> tidy a -> at_end a = Ok b ->
  series x l f ->
  moved Daily 1 86400 a b /\
  exists g, series_between a b x (filter (fun y => negb (starts_early a y) && starts_early b y) l) g /\
    ((exists y, In y l /\ starts_early a y = false /\ starts_early b y = false) /\ g = Ended \/
     (forall y, In y l -> starts_early a y = true \/ starts_early b y = true) /\ g = f).
Proof.
  intros k x d r a b l f Hd Hr O Td Zf I Ta Ab H. pose proof Hd as Hd'. pose proof Hr as Hr'. rewrite <- code_start in Hd'. rewrite <- code_rule in Hr'.
  destruct (C51_at _ (code k) x d r a b l f (code_recurs k) Hd' Hr' O Td Zf I Ta Ab H) as [M _]. split; [exact M|].
  destruct (C51_kind k x d r a b l f Hd Hr O Td Zf I H) as (_ & g & G & C). eauto.
Qed.
End Kinds.
(** Without a zone in the start, the end and UNTIL, the occurrences are the same in every zone. *)
Theorem C69_kind : forall (E : Env) offset local k (x : item k) l f,
  floating_opt floating_date (start_of x) -> floating_opt floating_date (end_of x) -> floating_opt floating_rule (rule_of x) ->
  (@series (in_zone E offset local) k x l f <-> @series E k x l f).
Proof.
  intros E offset local k x l f A B C. apply (C69_occurrences E offset local _ (code k) x l f (code_recurs k)).
  unfold floating_item. now rewrite code_start, code_end, code_rule.
Qed.

Definition plain_todo (start : date) (rule : recur) (ex : list date) : item a_todo :=
  mk_vtodo (Naive (mk_ndt 0 0 0)) (mk_text [] (lit "t")) None None None (Some start) None None None None None None None None None None None (Some rule) None None
    [] [] [] [] [] ex [] [] [] [] [] [].
Definition plain_journal (start : date) (rule : recur) (ex : list date) : item a_journal :=
  mk_vjournal (Naive (mk_ndt 0 0 0)) (mk_text [] (lit "j")) None None start None None None None None None None (Some rule)
    [] [] [] [] [] [] ex [] [] [] [] [].
Ltac runs := eapply (collect_run _ 9 9); vm_compute; reflexivity.
(** A monthly to-do from 31 January with 29 February excluded, COUNT=3; a weekly journal until 20 January. *)
Example C40_kind_nonvacuous : forall E : Env,
  let x := plain_todo (day 2024 1 31) (plain_rule Monthly None (Some 3) 1) [day 2024 2 29] in
  exists l, series x l Ended /\ map start_of l = [Some (day 2024 1 31); Some (day 2024 3 29); Some (day 2024 4 29)] /\ excluded_of x = [day 2024 2 29].
Proof. intros E x. eexists. split; [runs|]. split; reflexivity. Qed.
Example C42_kind_nonvacuous : forall E : Env,
  let x := plain_journal (day 2024 1 1) (plain_rule Weekly (Some (day 2024 1 20)) None 1) [day 2024 1 8] in
  exists l, series x l Ended /\ map start_of l = [Some (day 2024 1 1); Some (day 2024 1 15)] /\ rule_of x <> None.
Proof. intros E x. eexists. split; [runs|]. split; [reflexivity|discriminate]. Qed.
(** Yearly steps in Paris: 2:30 on the wall stays 2:30; 2:30 on 31 March 2024 is in the gap; and half past midnight of 1 January is
    still in the old year for UTC. *)
Example C50_zoned_nonvacuous :
  @recur_add paris (plain_rule Yearly None None 1) (DDateTime (Local (utc 2023 2 28 1 30))) = Ok (DDateTime (Local (utc 2024 2 28 1 30))) /\
  @recur_add paris (plain_rule Yearly None None 1) (DDateTime (Local (utc 2023 3 31 1 30))) = Panic /\
  @recur_add paris (plain_rule Yearly None None 1) (DDateTime (Local (utc 2023 12 31 23 30))) = Ok (DDateTime (Local (utc 2024 12 31 23 30))).
Proof. repeat split; vm_compute; reflexivity. Qed.
