(** * C93: paging through a series *)
From Verif Require Import Base Env Chrono Types Components Iter BaseFacts ChronoFacts SpecCal PropDate PropList SpecIter IterFacts PropIter PropIterEx TimeFacts PropTime PropWindow PropResume SpecKinds PropKinds SpecPages.
Section Env.
Context {E : Env}.
Lemma ndt_le_trans a b c : ndt_cmp a b = Lt -> ndt_cmp b c <> Gt -> ndt_cmp a c = Lt.
Proof.
  intros H1 H2. pose proof (ndt_cmp_spec a b) as A. rewrite H1 in A. pose proof (ndt_cmp_spec b c) as B. pose proof (ndt_cmp_spec a c) as C.
  destruct (ndt_cmp b c); try congruence; destruct (ndt_cmp a c); auto; exfalso; unfold ndt_before in *; subst; lia.
Qed.
Lemma ndt_le_date a b : ndt_cmp a b <> Gt -> nd_date a <= nd_date b.
Proof. intros H. pose proof (ndt_cmp_spec a b) as A. destruct (ndt_cmp a b); try congruence; unfold ndt_before in A; subst; lia. Qed.
Lemma before_later s a b : not_after a b -> date_ltb s a = true -> date_ltb s b = true.
Proof.
  intros [H K]. unfold date_ltb. destruct a as [a|a], b as [b|b]; try contradiction; destruct s as [s|s]; cbn [date_cmp] in *.
  - destruct (Z.compare_spec s a); try discriminate. destruct (Z.compare_spec s b); auto; exfalso; apply H; apply Z.compare_gt_iff; lia.
  - destruct (Z.compare_spec (dt_date_naive s) a); try discriminate. destruct (Z.compare_spec (dt_date_naive s) b); auto; exfalso; apply H; apply Z.compare_gt_iff; lia.
  - unfold dt_cmp in H. apply ndt_le_date in H. unfold dt_date_naive. destruct (Z.compare_spec s (nd_date (dt_naive a))); try discriminate. destruct (Z.compare_spec s (nd_date (dt_naive b))); auto; lia.
  - unfold dt_cmp in *. destruct (ndt_cmp (dt_naive s) (dt_naive a)) eqn:Q; try discriminate. intros _. now rewrite (ndt_le_trans _ _ _ Q H).
Qed.
Lemma early_later {k} a b (y : item k) : not_after a b -> starts_early a y = true -> starts_early b y = true.
Proof. intros N. unfold starts_early. destruct (start_of y) as [s|]; auto. now apply before_later. Qed.
Lemma not_early {k} a b (y : item k) : not_after a b -> starts_early b y = false -> starts_early a y = false.
Proof. intros N B. destruct (starts_early a y) eqn:A; auto. now rewrite (early_later a b y N A) in B. Qed.
(** ** Lists *)
Lemma filter_tiles {A} (lo mid hi : A -> bool) l : once_out mid l -> (forall y, lo y = true -> mid y = true) -> (forall y, mid y = true -> hi y = true) ->
  filter (fun y => negb (lo y) && hi y) l = filter (fun y => negb (lo y) && mid y) l ++ filter (fun y => negb (mid y) && hi y) l.
Proof.
  intros O H1 H2. induction l as [|a l IH]; cbn; auto. pose proof (once_out_tail _ _ _ O) as O'. specialize (IH O'). destruct (mid a) eqn:M.
  - rewrite (H2 a M). cbn. rewrite andb_true_r. destruct (negb (lo a)); cbn; now rewrite IH.
  - assert (lo a = false) as Lo by (destruct (lo a) eqn:X; auto; rewrite (H1 a X) in M; discriminate). rewrite Lo. cbn.
    pose proof (once_out_rest _ _ _ O M) as F.
    assert (N : filter (fun y => negb (lo y) && mid y) l = []) by (clear -F; induction F as [|y l Y F IHF]; cbn; auto; rewrite Y, andb_false_r; exact IHF).
    rewrite N in *. cbn [app] in *. destruct (hi a); cbn; now rewrite IH.
Qed.
Lemma filter_tail {A} (lo mid : A -> bool) l : once_out mid l -> (forall y, lo y = true -> mid y = true) ->
  filter (fun y => negb (lo y)) l = filter (fun y => negb (lo y) && mid y) l ++ filter (fun y => negb (mid y)) l.
Proof.
  intros O H. pose proof (filter_tiles lo mid (fun _ => true) l O H (fun _ _ => eq_refl)) as T.
  rewrite (filter_ext _ (fun y => negb (lo y))) in T by (intros; now rewrite andb_true_r). rewrite T. f_equal. apply filter_ext. intros. now rewrite andb_true_r.
Qed.
Lemma filter_none {A} (lo : A -> bool) l : filter (fun y => negb (lo y) && lo y) l = [].
Proof. induction l as [|a l IH]; cbn; auto. destruct (lo a); cbn; exact IH. Qed.
(** ** Pages *)
Lemma stays {k} (x : item k) d r c l f : start_of x = Some d -> rule_of x = Some r -> orderly r d -> tidy d -> zone_fits E d -> 1 <= r_interval r ->
  series x l f -> once_out (starts_early c) l.
Proof.
  intros Hd Hr O Td Zf I H. rewrite <- code_start in Hd. rewrite <- code_rule in Hr. pose proof (orderly_stays (code k) x d r c l f (code_recurs k) Hd Hr O Td Zf I H) as Q.
  intros b y m z e Hl. specialize (Q b y m z e Hl). now rewrite !code_early in Q.
Qed.
Lemma last_any {A} (r : list A) : forall c a b, last (c :: r) a = last (c :: r) b.
Proof. induction r as [|d r IH]; intros c a b; [reflexivity|]. change (last (d :: r) a = last (d :: r) b). apply IH. Qed.
Lemma last_cons {A} (r : list A) b a : last (b :: r) a = last r b.
Proof. destruct r as [|c r]; [reflexivity|]. change (last (c :: r) a = last (c :: r) b). apply last_any. Qed.
Lemma ascending_last a cuts : ascending a cuts -> a = last cuts a \/ not_after a (last cuts a).
Proof.
  revert a. induction cuts as [|b r IH]; intros a H; [now left|]. destruct H as [N H]. right.
  rewrite last_cons. destruct (IH b H) as [X|X]; [now rewrite <- X|]. revert X. generalize (last r b). intros c [X K]. destruct N as [N K'].
  split; [|destruct a, b, c; auto; contradiction].
  destruct a as [a|a], b as [b|b], c as [c|c]; try contradiction; cbn [date_cmp] in *.
  - rewrite Z.compare_ngt_iff in *. lia.
  - unfold dt_cmp in *. pose proof (ndt_cmp_spec (dt_naive a) (dt_naive b)) as A. pose proof (ndt_cmp_spec (dt_naive b) (dt_naive c)) as B. intros G.
    pose proof (ndt_cmp_spec (dt_naive a) (dt_naive c)) as C. rewrite G in C. destruct (ndt_cmp (dt_naive a) (dt_naive b)); try congruence; destruct (ndt_cmp (dt_naive b) (dt_naive c)); try congruence;
    unfold ndt_before in *; try rewrite A in *; try rewrite B in *; lia.
Qed.
Lemma window_ends {k} (x : item k) d r a b c l f : start_of x = Some d -> rule_of x = Some r -> orderly r d -> tidy d -> zone_fits E d -> 1 <= r_interval r ->
  series x l f -> a = b \/ not_after a b -> b = c \/ not_after b c -> (f = Ended \/ exists y, In y l /\ starts_early c y = false) ->
  series_between a b x (filter (fun y => negb (starts_early a y) && starts_early b y) l) Ended.
Proof.
  intros Hd Hr O Td Zf I H Nab Nbc R. destruct (C51_kind k x d r a b l f Hd Hr O Td Zf I H) as (_ & g & G & C).
  enough (g = Ended) by now subst g. destruct C as [[_ C]|[C ->]]; auto. destruct R as [R|(y & Iy & Y)]; auto. exfalso.
  assert (B : starts_early b y = false) by (destruct Nbc as [->|Nbc]; [exact Y|eapply not_early; eauto]).
  assert (A : starts_early a y = false) by (destruct Nab as [->|Nab]; [exact B|eapply not_early; eauto]).
  destruct (C y Iy); congruence.
Qed.
Lemma pages_all {k} (x : item k) d r l f : start_of x = Some d -> rule_of x = Some r -> orderly r d -> tidy d -> zone_fits E d -> 1 <= r_interval r -> series x l f ->
  forall cuts a, ascending a cuts -> (f = Ended \/ exists y, In y l /\ starts_early (last cuts a) y = false) ->
  exists ps, pages x a cuts ps /\ concat ps = filter (fun y => negb (starts_early a y) && starts_early (last cuts a) y) l.
Proof.
  intros Hd Hr O Td Zf I H. induction cuts as [|b r0 IH]; intros a As R.
  - exists []. split; [exact Logic.I|]. cbn [last concat]. now rewrite filter_none.
  - destruct As as [N As]. rewrite last_cons in *. destruct (IH b As R) as (ps & P & C). pose proof (ascending_last _ _ As) as Nl.
    exists (filter (fun y => negb (starts_early a y) && starts_early b y) l :: ps). split; [split; [|exact P]|].
    + apply (window_ends x d r a b (last r0 b) l f); auto.
    + cbn [concat]. rewrite C. symmetry. apply filter_tiles; [eapply stays; eauto|intros y; now apply early_later|].
      intros y. destruct Nl as [<-|Nl]; auto. now apply early_later.
Qed.
(** Neighbouring windows tile: their pages, one after the other, are the window over all of them. *)
Theorem C93_pages : forall k (x : item k) d r a cuts l f,
  start_of x = Some d -> rule_of x = Some r -> orderly r d -> tidy d -> zone_fits E d -> 1 <= r_interval r -> ascending a cuts ->
  series x l f -> (f = Ended \/ exists y, In y l /\ starts_early (last cuts a) y = false) ->
  exists ps, pages x a cuts ps /\ series_between a (last cuts a) x (concat ps) Ended.
Proof.
  intros k x d r a cuts l f Hd Hr O Td Zf I As H R. destruct (pages_all x d r l f Hd Hr O Td Zf I H cuts a As R) as (ps & P & C). exists ps. split; [exact P|].
  rewrite C. apply (window_ends x d r a (last cuts a) (last cuts a) l f); auto. now apply ascending_last.
Qed.
(** The rest of the series follows the last page. *)
Theorem C93_rest : forall k (x : item k) d r a cuts l f,
  start_of x = Some d -> rule_of x = Some r -> orderly r d -> tidy d -> zone_fits E d -> 1 <= r_interval r -> ascending a cuts ->
  series x l f -> (f = Ended \/ exists y, In y l /\ starts_early (last cuts a) y = false) ->
  exists ps rest, pages x a cuts ps /\ series_after (last cuts a) x rest f /\ series_after a x (concat ps ++ rest) f.
Proof.
  intros k x d r a cuts l f Hd Hr O Td Zf I As H R. destruct (pages_all x d r l f Hd Hr O Td Zf I H cuts a As R) as (ps & P & C).
  exists ps, (filter (fun y => negb (starts_early (last cuts a) y)) l). split; [exact P|]. split.
  - exact (proj1 (C51_kind k x d r (last cuts a) a l f Hd Hr O Td Zf I H)).
  - rewrite C, <- filter_tail; [exact (proj1 (C51_kind k x d r a a l f Hd Hr O Td Zf I H))|eapply stays; eauto|].
    intros y. destruct (ascending_last _ _ As) as [<-|N]; auto. now apply early_later.
Qed.
(** Nothing before the first cut is lost when it is not after the start: then the pages and the rest are the series. *)
Theorem C93_all : forall k (x : item k) d r a cuts l f,
  start_of x = Some d -> rule_of x = Some r -> orderly r d -> tidy d -> zone_fits E d -> 1 <= r_interval r -> ascending a cuts -> date_ltb d a = false ->
  series x l f -> (f = Ended \/ exists y, In y l /\ starts_early (last cuts a) y = false) ->
  exists ps rest, pages x a cuts ps /\ series_after (last cuts a) x rest f /\ l = concat ps ++ rest.
Proof.
  intros k x d r a cuts l f Hd Hr O Td Zf I As Da H R. destruct (pages_all x d r l f Hd Hr O Td Zf I H cuts a As R) as (ps & P & C).
  exists ps, (filter (fun y => negb (starts_early (last cuts a) y)) l). split; [exact P|]. split.
  - exact (proj1 (C51_kind k x d r (last cuts a) a l f Hd Hr O Td Zf I H)).
  - rewrite C, <- filter_tail; [|eapply stays; eauto|intros y; destruct (ascending_last _ _ As) as [<-|N]; auto; now apply early_later].
    assert (F : Forall (fun y => starts_early a y = false) l).
    { destruct l as [|y l]; constructor.
      - destruct (C42_kind k x (y :: l) f H) as (Fst & _). rewrite (Fst y l eq_refl). unfold starts_early. now rewrite Hd.
      - apply (once_out_rest _ y); [eapply stays; eauto|]. destruct (C42_kind k x (y :: l) f H) as (Fst & _). rewrite (Fst y l eq_refl). unfold starts_early. now rewrite Hd. }
    clear -F. induction F as [|y l Y F IH]; cbn; auto. rewrite Y. cbn. now f_equal.
Qed.
(** Days in a row are ascending cuts, unless local clocks are set back by a whole day. *)
Theorem C93_days : forall a cuts, days a cuts -> tidy a -> (forall u, a = DDateTime (Local u) -> forall t, tz_offset t < 86400 + tz_offset (t + 86400)) -> ascending a cuts.
Proof.
  intros a cuts. revert a. induction cuts as [|b r IH]; intros a D T Z; [exact Logic.I|]. destruct D as [A D]. pose proof (C51_at_end a b T A) as M.
  assert (later_le : forall n m, tidy_time n -> later n 86400 m -> tidy_time m /\ ndt_cmp n m <> Gt).
  { intros n m Hn [(X & _)|(_ & Q & S & N)]; [discriminate|]. split.
    - split; [exact S|]. rewrite N. pose proof (Z.mod_pos_bound (nd_nano n) 1000000000). lia.
    - intros G. pose proof (ndt_cmp_spec n m) as C. rewrite G in C. unfold ndt_before, seconds in *. destruct Hn as [Hn _]. lia. }
  destruct a as [a|[a|a]], b as [b|[b|b]]; cbn [moved tidy] in M, T; try contradiction; try (destruct M as (_ & X & _); exfalso; apply X; exact Logic.I).
  - split; [split; [|exact Logic.I]; cbn [date_cmp]; rewrite Z.compare_ngt_iff; lia|]. apply IH; auto. intros u X; discriminate.
  - destruct (later_le a b T M) as (Tb & L). split; [split; [exact L|exact Logic.I]|]. apply IH; auto. intros u X; discriminate.
  - destruct (later_le a b T M) as (Tb & _). split; [split; [|exact Logic.I]|].
    + cbn [date_cmp]. unfold dt_cmp. cbn [dt_naive]. intros G. pose proof (ndt_cmp_spec (naive_local a) (naive_local b)) as C. rewrite G in C.
      assert (Q : seconds (naive_local a) < seconds (naive_local b)).
      { unfold naive_local. rewrite !shift_seconds. change (ndt_ts a) with (seconds a). change (ndt_ts b) with (seconds b). pose proof (Z a eq_refl (seconds a)) as W. destruct M as [(X & _)|(_ & Q & _)]; [discriminate|]. rewrite Q. lia. }
      pose proof (shift_tidy a (tz_offset (ndt_ts a)) T) as [Ha _]. pose proof (shift_tidy b (tz_offset (ndt_ts b)) Tb) as [Hb _]. fold (naive_local a) in Ha. fold (naive_local b) in Hb.
      unfold ndt_before, seconds in *. lia.
    + apply IH; auto. intros u X. injection X as <-. apply (Z a eq_refl).
Qed.
End Env.
