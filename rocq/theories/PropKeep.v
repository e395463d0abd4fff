(** * C89: saving and loading keeps the schedule, or moves it *)
From Verif Require Import Base Env Chrono Types Ser Components Derive Iter BaseFacts ChronoFacts SpecCal PropDate PropPeriod SpecIter IterFacts PropIter PropIterEx TimeFacts PropTime
  SpecKinds PropKinds PropSame SpecComp SpecFields SpecFile SpecRound SpecLoss SpecCrowd SpecHistory SpecAfter HistStep PropHistory PropFuture SpecKeep.

Section Env.
Context {E : Env}.
Lemma to_second_keeps n : nd_nano n = 0 -> to_second n = n.
Proof. intros Q. unfold to_second. rewrite Q. change (0 <? 1000000000) with true. cbv iota. destruct n as [a b c]; cbn [nd_date nd_secs nd_nano] in *. now subst. Qed.
Lemma moved_keeps u : 0 <= nd_secs u < 86400 -> nd_nano u = 0 -> (forall t, tz_offset t = 0) -> SpecHistory.moved u = u.
Proof.
  intros B N Z0. unfold SpecHistory.moved, naive_local, ndt_shift. rewrite Z0. rewrite to_second_keeps by auto. destruct u as [a b c]; cbn [nd_date nd_secs nd_nano] in *.
  rewrite Z.add_0_r, Z.div_small, Z.mod_small, Z.add_0_r by auto. auto.
Qed.
Lemma iter_keeps {A} (f : A -> A) n x : f x = x -> Nat.iter n f x = x.
Proof. intros Q. induction n as [|n IH]; [auto|]. change (Nat.iter (S n) f x) with (f (Nat.iter n f x)). now rewrite IH. Qed.
Lemma date_keeps n d d' : real_date d -> keeps d -> date_after n d d' -> d' = d.
Proof.
  destruct d as [a|[m|u]]; cbn [date_after datetime_after keeps real_date]; auto.
  - intros _ K (t & -> & ->). now rewrite to_second_keeps.
  - intros R [K Z0] (t & -> & ->). do 2 f_equal. apply iter_keeps, moved_keeps; auto. cbn [real_datetime] in R. apply wf_time in R. lia.
Qed.
Lemma dates_keep n l l' : Forall real_date l -> (forall d, In d l -> keeps d) -> Forall2 (date_after n) l l' -> l' = l.
Proof.
  intros R K F. induction F as [|d d' l l' A F IH]; [auto|]. inv R. f_equal; [apply (date_keeps n); auto; apply K; now left|]. apply IH; auto. intros x I. apply K. now right.
Qed.
Lemma opt_keeps n o o' : (forall d, o = Some d -> real_date d) -> (forall d, o = Some d -> keeps d) -> kept (date_after n) o o' -> o' = o.
Proof. destruct o as [d|]; cbn [kept]; auto. intros R K (y & -> & A). f_equal. apply (date_keeps n); auto. Qed.
Lemma rule_keeps n o o' : (forall r, o = Some r -> tidy_rule r) -> (forall r, o = Some r -> rule_numbers r /\ forall d, r_until r = Some d -> keeps d) -> kept (rule_after n) o o' -> o' = o.
Proof.
  destruct o as [r|]; cbn [kept]; auto. intros R K (y & -> & A). destruct (K r eq_refl) as [Nu Ku]. destruct (A Nu) as (u & -> & U). f_equal. specialize (R r eq_refl). unfold tidy_rule in R.
  assert (Q : u = r_until r). { destruct (r_until r) as [d|] eqn:Eu; auto. destruct U as (d' & -> & D). f_equal. apply (date_keeps n); auto. }
  rewrite Q. now destruct r.
Qed.
Lemma same_rule_refl o : same_rule o o.
Proof. destruct o as [r|]; cbn; auto. unfold same_but_by. auto. Qed.
Lemma same_fields k k' (x : item k) (x' : item k') : start_of x' = start_of x -> end_of x' = end_of x -> excluded_of x' = excluded_of x -> rule_of x' = rule_of x -> same_schedule x x'.
Proof.
  intros A B C D. assert (R : same_rule (rule_of x) (rule_of x')) by (rewrite D; apply same_rule_refl). assert (R' : same_rule (rule_of x') (rule_of x)) by (rewrite D; apply same_rule_refl).
  split; [|split]; intros; split; intros l f H.
  - apply (C81_schedule_fields k k' x x' l f); auto.
  - apply (C81_schedule_fields k' k x' x l f); auto.
  - apply (C81_after k k' x x' a l f); auto.
  - apply (C81_after k' k x' x a l f); auto.
  - apply (C81_between k k' x x' a b l f); auto.
  - apply (C81_between k' k x' x a b l f); auto.
Qed.
(** ** A schedule that the written form can hold never changes *)
Lemma event_keeps n v w : event_tidy v -> schedule_keeps (k := an_event) v -> vevent_after n v w -> same_schedule (k := an_event) (k' := an_event) v w.
Proof.
  intros T K A. unfold vevent_after in A. decompose [and] A. clear A. destruct T as [T _]. unfold vevent_tidy in T.
  assert (T1 : real_date (ev_dtstart v)) by (destruct v; tauto). assert (T2 : holds tidy_rule (ev_rrule v)) by (destruct v; tauto).
  assert (T3 : holds real_date (ev_dtend v)) by (destruct v; tauto). assert (T4 : Forall real_date (ev_exdate v)) by (destruct v; tauto). clear T.
  destruct K as (K1 & K2 & K3 & K4). cbn [start_of end_of excluded_of rule_of] in *.
  apply same_fields; cbn [start_of end_of excluded_of rule_of].
  - f_equal. apply (date_keeps n); auto.
  - apply (opt_keeps n); auto; intros d Q; rewrite Q in T3; exact T3.
  - apply (dates_keep n); auto.
  - apply (rule_keeps n); auto; intros r Q; rewrite Q in T2; exact T2.
Qed.
Lemma journal_keeps n v w : vjournal_tidy v -> schedule_keeps (k := a_journal) v -> vjournal_after n v w -> same_schedule (k := a_journal) (k' := a_journal) v w.
Proof.
  intros T K A. unfold vjournal_after in A. decompose [and] A. clear A. unfold vjournal_tidy in T.
  assert (T1 : real_date (jo_dtstart v)) by tauto. assert (T2 : holds tidy_rule (jo_rrule v)) by tauto.
  assert (T4 : Forall real_date (jo_exdate v)) by tauto. clear T.
  destruct K as (K1 & K2 & K3 & K4). cbn [start_of end_of excluded_of rule_of] in *.
  apply same_fields; cbn [start_of end_of excluded_of rule_of].
  - f_equal. apply (date_keeps n); auto.
  - auto.
  - apply (dates_keep n); auto.
  - apply (rule_keeps n); auto; intros r Q; rewrite Q in T2; exact T2.
Qed.
Lemma todo_keeps n v w : vtodo_tidy v -> schedule_keeps (k := a_todo) v -> vtodo_after n v w -> same_schedule (k := a_todo) (k' := a_todo) v w.
Proof.
  intros T K A. unfold vtodo_after in A. decompose [and] A. clear A. unfold vtodo_tidy in T.
  assert (T1 : holds real_date (to_dtstart v)) by tauto. assert (T2 : holds tidy_rule (to_rrule v)) by tauto.
  assert (T4 : Forall real_date (to_exdate v)) by tauto. clear T.
  destruct K as (K1 & K2 & K3 & K4). cbn [start_of end_of excluded_of rule_of] in *.
  apply same_fields; cbn [start_of end_of excluded_of rule_of].
  - apply (opt_keeps n); auto; intros d Q; rewrite Q in T1; exact T1.
  - auto.
  - apply (dates_keep n); auto.
  - apply (rule_keeps n); auto; intros r Q; rewrite Q in T2; exact T2.
Qed.
Lemma same_schedule_refl k (x : item k) : same_schedule x x.
Proof. apply same_fields; auto. Qed.
Lemma generations_0 {T} (save : T -> outcome str) load v w : generations save load 0 v w -> w = v.
Proof. now inversion 1. Qed.
Theorem C89_event : sane_env -> forall n v w, event_tidy v -> schedule_keeps (k := an_event) v -> generations (s_ical ser_vevent) vevent_of_str n v w ->
  same_schedule (k := an_event) (k' := an_event) v w.
Proof.
  intros SE [|n] v w T K G; [apply generations_0 in G as ->; apply (same_schedule_refl an_event)|]. apply (event_keeps (S n)); auto. apply C86_event; auto.
Qed.
Theorem C89_journal : sane_env -> forall n v w, vjournal_tidy v -> schedule_keeps (k := a_journal) v -> generations (s_ical ser_vjournal) vjournal_of_str n v w ->
  same_schedule (k := a_journal) (k' := a_journal) v w.
Proof.
  intros SE [|n] v w T K G; [apply generations_0 in G as ->; apply (same_schedule_refl a_journal)|]. apply (journal_keeps (S n)); auto. apply C86_journal; auto.
Qed.
Theorem C89_todo : sane_env -> forall n v w, vtodo_tidy v -> schedule_keeps (k := a_todo) v -> generations (s_ical ser_vtodo) vtodo_of_str n v w ->
  same_schedule (k := a_todo) (k' := a_todo) v w.
Proof.
  intros SE [|n] v w T K G; [apply generations_0 in G as ->; apply (same_schedule_refl a_todo)|]. apply (todo_keeps (S n)); auto. apply C86_todo; auto.
Qed.
Lemma Forall2_map {X} (P Q : X -> X -> Prop) (F G : X -> Prop) l l' : Forall F l -> Forall G l -> (forall x y, F x -> G x -> P x y -> Q x y) -> Forall2 P l l' -> Forall2 Q l l'.
Proof. intros A B H. induction 1; constructor; inv A; inv B; auto. Qed.
Lemma Forall2_refl {X} (P : X -> X -> Prop) l : (forall x, P x x) -> Forall2 P l l.
Proof. intros H. induction l; constructor; auto. Qed.
(** Every component of a calendar keeps its place, and its schedule if the written form can hold it. *)
Theorem C89_calendar : sane_env -> forall n v w, calendar_tidy v -> generations (s_ical ser_vcalendar) vcalendar_of_str n v w ->
  Forall2 (fun x x' => schedule_keeps (k := an_event) x -> same_schedule (k := an_event) (k' := an_event) x x') (ca_events v) (ca_events w) /\
  Forall2 (fun x x' => schedule_keeps (k := a_journal) x -> same_schedule (k := a_journal) (k' := a_journal) x x') (ca_journals v) (ca_journals w) /\
  Forall2 (fun x x' => schedule_keeps (k := a_todo) x -> same_schedule (k := a_todo) (k' := a_todo) x x') (ca_todo v) (ca_todo w).
Proof.
  intros SE [|n] v w T G.
  - apply generations_0 in G as ->. repeat match goal with |- _ /\ _ => split end; apply Forall2_refl; intros x _; [apply (same_schedule_refl an_event)|apply (same_schedule_refl a_journal)|apply (same_schedule_refl a_todo)].
  - apply C86_calendar in G; auto. destruct G as (_ & _ & A1 & _ & A2 & A3 & _). destruct T as (_ & _ & T1 & _ & T2 & T3 & _).
    repeat match goal with |- _ /\ _ => split end.
    + eapply Forall2_map; [exact T1|exact T1| |exact A1]. intros x y Tx _ Ax K. now apply (event_keeps (S n)).
    + eapply Forall2_map; [exact T2|exact T2| |exact A2]. intros x y Tx _ Ax K. now apply (journal_keeps (S n)).
    + eapply Forall2_map; [exact T3|exact T3| |exact A3]. intros x y Tx _ Ax K. now apply (todo_keeps (S n)).
Qed.

(** ** Instants move with every generation, all by the same time *)
(** [d'] is [t] seconds after [d]; both are proper times of day. *)
Definition shifted (t : Z) (d d' : date) : Prop :=
  exists u u', d = DDateTime (Local u) /\ d' = DDateTime (Local u') /\ seconds u' = seconds u + t /\ nd_nano u = 0 /\ nd_nano u' = 0 /\
    0 <= nd_secs u < 86400 /\ 0 <= nd_secs u' < 86400.
Lemma seconds_inj u u' : seconds u = seconds u' -> nd_nano u = nd_nano u' -> 0 <= nd_secs u < 86400 -> 0 <= nd_secs u' < 86400 -> u = u'.
Proof. destruct u as [a b c], u' as [a' b' c']. unfold seconds. cbn [nd_date nd_secs nd_nano]. intros A -> B C. assert (a = a') by lia. subst. assert (b = b') by lia. now subst. Qed.
Lemma shifted_inj_l t d1 d2 d' : shifted t d1 d' -> shifted t d2 d' -> d1 = d2.
Proof. intros (u & w & -> & -> & A & B & C & D & F) (u2 & w2 & -> & Q & A' & B' & C' & D' & F'). inv Q. do 2 f_equal. apply seconds_inj; auto; lia. Qed.
Lemma shifted_inj_r t d d1 d2 : shifted t d d1 -> shifted t d d2 -> d1 = d2.
Proof. intros (u & w & -> & -> & A & B & C & D & F) (u2 & w2 & Q & -> & A' & B' & C' & D' & F'). inv Q. do 2 f_equal. apply seconds_inj; auto; lia. Qed.
Lemma later_whole u s w : 0 <= nd_secs u < 86400 -> nd_nano u = 0 -> later u s w -> seconds w = seconds u + s /\ nd_nano w = 0 /\ 0 <= nd_secs w < 86400.
Proof. intros B N [[-> ->]|(A1 & A2 & A3 & A4)]; [repeat split; auto; lia|]. rewrite N in A4. change (0 mod 1000000000) with 0 in A4. auto. Qed.
Lemma steps_shifted r t k d d' e e' : 0 <= r_interval r -> unit_seconds (r_freq r) <> None -> shifted t d d' -> steps r k d e -> steps r k d' e' -> shifted t e e'.
Proof.
  intros I U (u & w & -> & -> & A & B & C & D & F) S1 S2. destruct (unit_seconds (r_freq r)) as [z|] eqn:Q; [|congruence].
  destruct (steps_moved r k (DDateTime (Local u)) e z ltac:(cbn [tidy]; unfold tidy_time; lia) I Q S1) as [M1 _]. destruct (steps_moved r k (DDateTime (Local w)) e' z ltac:(cbn [tidy]; unfold tidy_time; lia) I Q S2) as [M2 _].
  destruct e as [?|[?|x]]; cbn [moved] in M1; try contradiction. destruct e' as [?|[?|x']]; cbn [moved] in M2; try contradiction.
  apply later_whole in M1 as (X1 & X2 & X3); auto. apply later_whole in M2 as (Y1 & Y2 & Y3); auto. exists x, x'. repeat match goal with |- _ /\ _ => split end; auto; lia.
Qed.
Definition shifted_opt (t : Z) (o o' : option date) : Prop := match o, o' with Some d, Some d' => shifted t d d' | None, None => True | _, _ => False end.
Lemma shifted_series k k' (x : item k) (x' : item k') t d d' r :
  start_of x = Some d -> start_of x' = Some d' -> shifted t d d' -> shifted_opt t (end_of x) (end_of x') -> Forall2 (shifted t) (excluded_of x) (excluded_of x') ->
  rule_of x = Some r -> rule_of x' = Some r -> 0 <= r_interval r -> unit_seconds (r_freq r) <> None ->
  forall l f l' f', series x l f -> series x' l' f' -> forall i y y', nth_error l i = Some y -> nth_error l' i = Some y' ->
  exists e e', start_of y = Some e /\ start_of y' = Some e' /\ shifted t e e' /\ shifted_opt t (end_of y) (end_of y').
Proof.
  intros D D' Sh She Shx R R' I U l f l' f' H H'.
  destruct (C42_kind k x l f H) as (_ & X & K). destruct (C42_kind k' x' l' f' H') as (_ & X' & K').
  destruct (K d r D R) as (ks & L & Z0 & P & G). destruct (K' d' r D' R') as (ks' & L' & Z0' & P' & G'). clear K K'.
  assert (Ex : forall j dj dj', steps r j d dj -> steps r j d' dj' -> (In dj (excluded_of x) <-> In dj' (excluded_of x'))).
  { intros j dj dj' S1 S2. pose proof (steps_shifted r t j d d' dj dj' I U Sh S1 S2) as Sj. split; intros In0.
    - destruct (Forall2_In_l _ _ _ _ Shx In0) as (z & Iz & Q). now rewrite (shifted_inj_r t dj dj' z Sj Q).
    - destruct (Forall2_In_r _ _ _ _ Shx In0) as (z & Iz & Q). now rewrite (shifted_inj_l t dj z dj' Sj Q). }
  assert (EQ : forall i a b, nth_error ks i = Some a -> nth_error ks' i = Some b -> a = b).
  { induction i as [|i IH]; intros a b A B.
    - assert (l <> []) by (destruct l; [destruct ks; discriminate|congruence]). assert (l' <> []) by (destruct l'; [destruct ks'; discriminate|congruence]).
      rewrite Z0 in A by auto. rewrite Z0' in B by auto. congruence.
    - assert (exists a0, nth_error ks i = Some a0) as [a0 A0]. { destruct (nth_error ks i) eqn:Q; [eauto|]. apply nth_error_None in Q. assert (nth_error ks (Datatypes.S i) <> None) by congruence. rewrite nth_error_Some in H0. lia. }
      assert (exists b0, nth_error ks' i = Some b0) as [b0 B0]. { destruct (nth_error ks' i) eqn:Q; [eauto|]. apply nth_error_None in Q. assert (nth_error ks' (Datatypes.S i) <> None) by congruence. rewrite nth_error_Some in H0. lia. }
      pose proof (IH a0 b0 A0 B0). subst b0. destruct (G i a0 a A0 A) as [La Ga]. destruct (G' i a0 b B0 B) as [Lb Gb].
      assert (exists y, nth_error l (Datatypes.S i) = Some y) as [y Ny]. { destruct (nth_error l (Datatypes.S i)) eqn:Q; [eauto|]. apply nth_error_None in Q. assert (nth_error ks (Datatypes.S i) <> None) by congruence. rewrite nth_error_Some in H0. lia. }
      assert (exists y, nth_error l' (Datatypes.S i) = Some y) as [y' Ny']. { destruct (nth_error l' (Datatypes.S i)) eqn:Q; [eauto|]. apply nth_error_None in Q. assert (nth_error ks' (Datatypes.S i) <> None) by congruence. rewrite nth_error_Some in H0. lia. }
      destruct (P _ _ _ A Ny) as (e & Ey & Se & _). destruct (P' _ _ _ B Ny') as (e' & Ey' & Se' & _).
      destruct (Nat.lt_trichotomy a b) as [Lt|[Q|Lt]]; auto; exfalso.
      + destruct (steps_prefix r a b d' e') as [z Sz]; [lia|exact Se'|]. apply (X _ _ _ Ny ltac:(discriminate) Ey). apply (Ex a e z Se Sz). apply (Gb a z); auto. 
      + destruct (steps_prefix r b a d e) as [z Sz]; [lia|exact Se|]. apply (X' _ _ _ Ny' ltac:(discriminate) Ey'). apply (Ex b z e' Sz Se'). apply (Ga b z); auto. }
  intros i y y' Ny Ny'.
  assert (exists a, nth_error ks i = Some a) as [a A]. { destruct (nth_error ks i) eqn:Q; [eauto|]. apply nth_error_None in Q. assert (nth_error l i <> None) by congruence. rewrite nth_error_Some in H0. lia. }
  assert (exists a, nth_error ks' i = Some a) as [b B]. { destruct (nth_error ks' i) eqn:Q; [eauto|]. apply nth_error_None in Q. assert (nth_error l' i <> None) by congruence. rewrite nth_error_Some in H0. lia. }
  pose proof (EQ i a b A B). subst b. destruct (P _ _ _ A Ny) as (e & Ey & Se & Oe). destruct (P' _ _ _ B Ny') as (e' & Ey' & Se' & Oe'). exists e, e'.
  repeat match goal with |- _ /\ _ => split end; auto; [eapply steps_shifted; eauto|].
  destruct (end_of x) as [q|], (end_of x') as [q'|]; cbn [shifted_opt] in She; try contradiction; destruct (end_of y) as [z|]; cbn [steps_opt] in Oe; try contradiction;
  destruct (end_of y') as [z'|]; cbn [steps_opt] in Oe'; try contradiction; cbn [shifted_opt]; auto. eapply steps_shifted; eauto.
Qed.

Lemma iter_moved_secs n u : ndt_wf u = true -> 0 <= nd_secs (Nat.iter n SpecHistory.moved u) < 86400.
Proof.
  intros W. destruct n as [|n]; [apply wf_time in W; cbn [Nat.iter nat_rect]; lia|]. change (Nat.iter (S n) SpecHistory.moved u) with (SpecHistory.moved (Nat.iter n SpecHistory.moved u)).
  set (z := Nat.iter n SpecHistory.moved u). unfold SpecHistory.moved, to_second, naive_local, ndt_shift. cbn [nd_date nd_secs nd_nano].
  pose proof (Z.mod_pos_bound (nd_secs z + tz_offset (ndt_ts z)) 86400 ltac:(lia)) as B. set (m := (nd_secs z + tz_offset (ndt_ts z)) mod 86400) in *.
  destruct (nd_nano z <? 1000000000); cbn [nd_secs]; [auto|]. destruct (m mod 60 =? 59) eqn:Q; cbn [nd_secs]; [auto|].
  apply Z.eqb_neq in Q. assert (m <> 86399) by (intros ->; apply Q; reflexivity). lia.
Qed.
Lemma iter_moved_nano n u : nd_nano u = 0 -> nd_nano (Nat.iter n SpecHistory.moved u) = 0.
Proof.
  intros Q. induction n as [|n IH]; [auto|]. change (Nat.iter (S n) SpecHistory.moved u) with (SpecHistory.moved (Nat.iter n SpecHistory.moved u)).
  unfold SpecHistory.moved at 1, to_second, naive_local, ndt_shift. cbn [nd_date nd_secs nd_nano]. rewrite IH. reflexivity.
Qed.
Lemma date_shifted o n d d' : (forall t, tz_offset t = o) -> real_date d -> instants d -> date_after n d d' -> shifted (Z.of_nat n * o) d d'.
Proof.
  intros C R (u & -> & N). cbn [date_after datetime_after real_date real_datetime] in *. intros (t & -> & ->). exists u, (Nat.iter n SpecHistory.moved u).
  destruct (drift_ts o n u C ltac:(lia)) as [Ts _]. pose proof (iter_moved_secs n u R). pose proof (iter_moved_nano n u N). apply wf_time in R.
  repeat match goal with |- _ /\ _ => split end; auto; lia.
Qed.
Lemma dates_shifted o n l l' : (forall t, tz_offset t = o) -> Forall real_date l -> (forall d, In d l -> instants d) -> Forall2 (date_after n) l l' -> Forall2 (shifted (Z.of_nat n * o)) l l'.
Proof.
  intros C R K F. induction F as [|d d' l l' A F IH]; constructor; inv R; [eapply date_shifted; eauto; apply K; now left|]. apply IH; auto. intros x I. apply K. now right.
Qed.
Lemma end_shifted o n e e' : (forall t, tz_offset t = o) -> holds real_date e -> (forall d, e = Some d -> instants d) -> kept (date_after n) e e' -> shifted_opt (Z.of_nat n * o) e e'.
Proof. intros C R K. destruct e as [d|]; cbn [kept shifted_opt]; [intros (y & -> & A); eapply date_shifted; eauto|now intros ->]. Qed.
Lemma shifted_put_off t d d' : shifted t d d' -> put_off t d d'.
Proof. intros (u & w & -> & -> & A & B & C & _). exists u, w. repeat split; auto. congruence. Qed.
Lemma shifted_put_off_end t e e' : shifted_opt t e e' -> put_off_end t e e'.
Proof. destruct e, e'; cbn; auto. apply shifted_put_off. Qed.
Lemma rule_stays n r r' : rule_numbers r -> r_until r = None -> rule_after n r r' -> r' = r.
Proof. intros N U A. destruct (A N) as (u & -> & Q). rewrite U in Q. subst u. destruct r; cbn in *. now subst. Qed.
Lemma numbers_interval r : rule_numbers r -> 0 <= r_interval r.
Proof. intros (_ & _ & A & _). cbn [r_interval] in A. lia. Qed.
Lemma event_moves o n v w : (forall t, tz_offset t = o) -> event_tidy v -> zoned_schedule (k := an_event) v -> vevent_after n v w ->
  put_off_series (k := an_event) (Z.of_nat n * o) v w.
Proof.
  intros C T K A. unfold vevent_after in A. decompose [and] A. clear A. destruct T as [T _]. unfold vevent_tidy in T.
  assert (T1 : real_date (ev_dtstart v)) by (destruct v; tauto). assert (T3 : holds real_date (ev_dtend v)) by (destruct v; tauto).
  assert (T4 : Forall real_date (ev_exdate v)) by (destruct v; tauto). clear T.
  destruct K as ((d & K1 & K1') & K2 & K3 & (r & K4 & K5 & K6 & K7)). cbn [start_of end_of excluded_of rule_of] in *. injection K1 as K1. subst d.
  match goal with H : kept (rule_after n) _ _ |- _ => rewrite K4 in H; cbn [kept] in H; destruct H as (r' & R' & Ra) end. apply rule_stays in Ra; auto. subst r'.
  intros l f l' f' S1 S2 i y y' N1 N2.
  destruct (shifted_series an_event an_event v w (Z.of_nat n * o) (ev_dtstart v) (ev_dtstart w) r) with (l := l) (f := f) (l' := l') (f' := f') (i := i) (y := y) (y' := y') as (e & e' & X1 & X2 & X3 & X4);
  cbn [start_of end_of excluded_of rule_of]; auto.
  - eapply date_shifted; eauto.
  - eapply end_shifted; eauto.
  - eapply dates_shifted; eauto.
  - now apply numbers_interval.
  - exists e, e'. repeat match goal with |- _ /\ _ => split end; auto; [now apply shifted_put_off|now apply shifted_put_off_end].
Qed.
Lemma journal_moves o n v w : (forall t, tz_offset t = o) -> vjournal_tidy v -> zoned_schedule (k := a_journal) v -> vjournal_after n v w ->
  put_off_series (k := a_journal) (Z.of_nat n * o) v w.
Proof.
  intros C T K A. unfold vjournal_after in A. decompose [and] A. clear A. unfold vjournal_tidy in T.
  assert (T1 : real_date (jo_dtstart v)) by tauto. assert (T4 : Forall real_date (jo_exdate v)) by tauto. clear T.
  destruct K as ((d & K1 & K1') & K2 & K3 & (r & K4 & K5 & K6 & K7)). cbn [start_of end_of excluded_of rule_of] in *. injection K1 as K1. subst d.
  match goal with H : kept (rule_after n) _ _ |- _ => rewrite K4 in H; cbn [kept] in H; destruct H as (r' & R' & Ra) end. apply rule_stays in Ra; auto. subst r'.
  intros l f l' f' S1 S2 i y y' N1 N2.
  destruct (shifted_series a_journal a_journal v w (Z.of_nat n * o) (jo_dtstart v) (jo_dtstart w) r) with (l := l) (f := f) (l' := l') (f' := f') (i := i) (y := y) (y' := y') as (e & e' & X1 & X2 & X3 & X4);
  cbn [start_of end_of excluded_of rule_of]; auto.
  - eapply date_shifted; eauto.
  - exact I.
  - eapply dates_shifted; eauto.
  - now apply numbers_interval.
  - exists e, e'. repeat match goal with |- _ /\ _ => split end; auto; now apply shifted_put_off.
Qed.
Lemma todo_moves o n v w : (forall t, tz_offset t = o) -> vtodo_tidy v -> zoned_schedule (k := a_todo) v -> vtodo_after n v w ->
  put_off_series (k := a_todo) (Z.of_nat n * o) v w.
Proof.
  intros C T K A. unfold vtodo_after in A. decompose [and] A. clear A. unfold vtodo_tidy in T.
  assert (T1 : holds real_date (to_dtstart v)) by tauto. assert (T4 : Forall real_date (to_exdate v)) by tauto. clear T.
  destruct K as ((d & K1 & K1') & K2 & K3 & (r & K4 & K5 & K6 & K7)). cbn [start_of end_of excluded_of rule_of] in *.
  match goal with H : kept (rule_after n) _ _ |- _ => rewrite K4 in H; cbn [kept] in H; destruct H as (r' & R' & Ra) end. apply rule_stays in Ra; auto. subst r'.
  match goal with H : kept (date_after n) (to_dtstart v) _ |- _ => rewrite K1 in H; cbn [kept] in H; destruct H as (d' & D' & Da) end. rewrite K1 in T1. cbn [holds] in T1.
  intros l f l' f' S1 S2 i y y' N1 N2.
  destruct (shifted_series a_todo a_todo v w (Z.of_nat n * o) d d' r) with (l := l) (f := f) (l' := l') (f' := f') (i := i) (y := y) (y' := y') as (e & e' & X1 & X2 & X3 & X4);
  cbn [start_of end_of excluded_of rule_of]; auto.
  - eapply date_shifted; eauto.
  - exact I.
  - eapply dates_shifted; eauto.
  - now apply numbers_interval.
  - exists e, e'. repeat match goal with |- _ /\ _ => split end; auto; now apply shifted_put_off.
Qed.
(** Where the zone has the constant offset [o]: after [n] generations every occurrence, and its end, is [n * o] seconds later. *)
Theorem C89_zoned_event : sane_env -> forall o, (forall t, tz_offset t = o) -> forall n v w, event_tidy v -> zoned_schedule (k := an_event) v ->
  generations (s_ical ser_vevent) vevent_of_str (S n) v w -> put_off_series (k := an_event) (Z.of_nat (S n) * o) v w.
Proof. intros SE o C n v w T K G. apply event_moves; auto. apply C86_event; auto. Qed.
Theorem C89_zoned_journal : sane_env -> forall o, (forall t, tz_offset t = o) -> forall n v w, vjournal_tidy v -> zoned_schedule (k := a_journal) v ->
  generations (s_ical ser_vjournal) vjournal_of_str (S n) v w -> put_off_series (k := a_journal) (Z.of_nat (S n) * o) v w.
Proof. intros SE o C n v w T K G. apply journal_moves; auto. apply C86_journal; auto. Qed.
Theorem C89_zoned_todo : sane_env -> forall o, (forall t, tz_offset t = o) -> forall n v w, vtodo_tidy v -> zoned_schedule (k := a_todo) v ->
  generations (s_ical ser_vtodo) vtodo_of_str (S n) v w -> put_off_series (k := a_todo) (Z.of_nat (S n) * o) v w.
Proof. intros SE o C n v w T K G. apply todo_moves; auto. apply C86_todo; auto. Qed.
Theorem C89_zoned_calendar : sane_env -> forall o, (forall t, tz_offset t = o) -> forall n v w, calendar_tidy v ->
  generations (s_ical ser_vcalendar) vcalendar_of_str (S n) v w ->
  Forall2 (fun x x' => zoned_schedule (k := an_event) x -> put_off_series (k := an_event) (Z.of_nat (S n) * o) x x') (ca_events v) (ca_events w) /\
  Forall2 (fun x x' => zoned_schedule (k := a_journal) x -> put_off_series (k := a_journal) (Z.of_nat (S n) * o) x x') (ca_journals v) (ca_journals w) /\
  Forall2 (fun x x' => zoned_schedule (k := a_todo) x -> put_off_series (k := a_todo) (Z.of_nat (S n) * o) x x') (ca_todo v) (ca_todo w).
Proof.
  intros SE o C n v w T G. apply C86_calendar in G; auto. destruct G as (_ & _ & A1 & _ & A2 & A3 & _). destruct T as (_ & _ & T1 & _ & T2 & T3 & _).
  repeat match goal with |- _ /\ _ => split end.
  - eapply Forall2_map; [exact T1|exact T1| |exact A1]. intros x y Tx _ Ax K. apply event_moves; auto.
  - eapply Forall2_map; [exact T2|exact T2| |exact A2]. intros x y Tx _ Ax K. apply journal_moves; auto.
  - eapply Forall2_map; [exact T3|exact T3| |exact A3]. intros x y Tx _ Ax K. apply todo_moves; auto.
Qed.
End Env.
