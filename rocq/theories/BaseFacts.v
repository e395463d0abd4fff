(** * Facts about Base.v *)
From Verif Require Import Base.

(** ** Tactics *)
Ltac inv H := inversion H; subst; clear H.
Ltac destr_match :=
  match goal with
  | |- context [match ?x with _ => _ end] => destruct x eqn:?
  end.
Ltac destr_match_in H :=
  match type of H with
  | context [match ?x with _ => _ end] => destruct x eqn:?
  end.
Ltac bool_hyps :=
  repeat match goal with
    | H : (_ && _) = true |- _ => apply andb_true_iff in H; destruct H
    | H : (_ || _) = false |- _ => apply orb_false_iff in H; destruct H
    | H : negb _ = true |- _ => apply negb_true_iff in H
    | H : negb _ = false |- _ => apply negb_false_iff in H
    | H : (_ <=? _) = true |- _ => apply Z.leb_le in H
    | H : (_ <=? _) = false |- _ => apply Z.leb_gt in H
    | H : (_ <? _) = true |- _ => apply Z.ltb_lt in H
    | H : (_ <? _) = false |- _ => apply Z.ltb_ge in H
    | H : (_ =? _) = true |- _ => apply Z.eqb_eq in H
    | H : (_ =? _) = false |- _ => apply Z.eqb_neq in H
    end.

(** ** Strings *)
Lemma str_eqb_eq a b : str_eqb a b = true <-> a = b.
Proof.
  revert b; induction a as [|x a IH]; intros [|y b]; cbn; try (split; congruence).
  rewrite andb_true_iff, Z.eqb_eq, IH. split; [intros []; congruence | intros [=]; auto].
Qed.
Lemma str_eqb_refl a : str_eqb a a = true.
Proof. now apply str_eqb_eq. Qed.
Lemma str_eqb_neq a b : str_eqb a b = false <-> a <> b.
Proof. rewrite <- str_eqb_eq. destruct (str_eqb a b); split; congruence. Qed.
Lemma str_eqb_sym a b : str_eqb a b = str_eqb b a.
Proof.
  destruct (str_eqb b a) eqn:H.
  - apply str_eqb_eq in H as ->. apply str_eqb_refl.
  - apply str_eqb_neq. apply str_eqb_neq in H. congruence.
Qed.

Lemma str_cmp_eq a b : str_cmp a b = Eq <-> a = b.
Proof.
  revert b; induction a as [|x a IH]; intros [|y b]; cbn; try (split; congruence).
  destruct (Z.compare_spec x y).
  - subst. rewrite IH. split; congruence.
  - split; [congruence|]. intros [=]; lia.
  - split; [congruence|]. intros [=]; lia.
Qed.
Lemma str_cmp_refl a : str_cmp a a = Eq.
Proof. now apply str_cmp_eq. Qed.
Lemma str_cmp_antisym a b : str_cmp b a = CompOpp (str_cmp a b).
Proof.
  revert b; induction a as [|x a IH]; intros [|y b]; cbn; auto.
  rewrite (Z.compare_antisym x y). destruct (x ?= y); cbn; auto.
Qed.
Lemma str_cmp_trans a b c : str_cmp a b = Lt -> str_cmp b c = Lt -> str_cmp a c = Lt.
Proof.
  revert b c; induction a as [|x a IH]; intros [|y b] [|z c]; cbn; try congruence.
  destruct (Z.compare_spec x y); try congruence;
    destruct (Z.compare_spec y z); try congruence; subst; intros.
  - rewrite Z.compare_refl; eauto.
  - now rewrite (proj2 (Z.compare_lt_iff _ _)) by lia.
  - now rewrite (proj2 (Z.compare_lt_iff _ _)) by lia.
  - now rewrite (proj2 (Z.compare_lt_iff _ _)) by lia.
Qed.

Lemma strip_prefix_app p s : strip_prefix p (p ++ s) = Some s.
Proof. induction p; cbn; auto. now rewrite Z.eqb_refl. Qed.
Lemma strip_prefix_Some p s r : strip_prefix p s = Some r <-> s = p ++ r.
Proof.
  split; [|intros ->; apply strip_prefix_app].
  revert s; induction p as [|x p IH]; intros [|y s]; cbn; try congruence.
  destruct (x =? y) eqn:Hxy; [|congruence]. apply Z.eqb_eq in Hxy; subst.
  intros H; f_equal; auto.
Qed.
Lemma starts_with_strip p s :
  starts_with p s = match strip_prefix p s with Some _ => true | None => false end.
Proof.
  revert s; induction p as [|x p IH]; intros [|y s]; cbn; auto.
  destruct (x =? y); cbn; auto.
Qed.
Lemma starts_with_iff p s : starts_with p s = true <-> exists r, s = p ++ r.
Proof.
  rewrite starts_with_strip. destruct (strip_prefix p s) eqn:H.
  - apply strip_prefix_Some in H. split; eauto.
  - split; [congruence|]. intros [r ->]. rewrite strip_prefix_app in H. congruence.
Qed.

Lemma last_opt_app {A} (l : list A) x : last_opt (l ++ [x]) = Some x.
Proof. induction l as [|a l IH]; cbn; auto. destruct (l ++ [x]) eqn:H; auto. now destruct l. Qed.
Lemma last_opt_None {A} (l : list A) : last_opt l = None <-> l = [].
Proof. induction l as [|a l IH]; cbn; [tauto|]. destruct l; [split; congruence|]. rewrite IH. split; congruence. Qed.
Lemma last_opt_Some {A} (l : list A) x : last_opt l = Some x <-> exists l', l = l' ++ [x].
Proof.
  split; [|intros [l' ->]; apply last_opt_app].
  induction l as [|a l IH]; cbn; [congruence|]. destruct l as [|b l].
  - intros [=->]. now exists [].
  - intros H. destruct (IH H) as [l' ->]. now exists (a :: l').
Qed.
Lemma last_opt_In {A} (l : list A) x : last_opt l = Some x -> In x l.
Proof. intros H. apply last_opt_Some in H as [l' ->]. apply in_or_app; cbn; auto. Qed.

Lemma pop_app {A} (l : list A) x : pop (l ++ [x]) = l.
Proof. apply removelast_last. Qed.

Lemma blen_app a b : blen (a ++ b) = (blen a + blen b)%nat.
Proof. induction a; cbn; auto. rewrite IHa. lia. Qed.
Lemma utf8_len_pos c : (1 <= utf8_len c <= 4)%nat.
Proof. unfold utf8_len. repeat destruct (_ <? _); lia. Qed.
Lemma blen_ge_length s : (length s <= blen s)%nat.
Proof. induction s; cbn; auto. pose proof (utf8_len_pos a). lia. Qed.
Lemma blen_zero s : blen s = 0%nat -> s = [].
Proof. destruct s as [|c s]; auto. cbn. pose proof (utf8_len_pos c). lia. Qed.

Lemma split_at_Some n s a b :
  split_at n s = Some (a, b) <-> s = a ++ b /\ blen a = n.
Proof.
  split.
  - revert n a b; induction s as [|c s IH]; intros n a b.
    + destruct n; cbn; [intros [= <- <-]; auto | congruence].
    + destruct n as [|n]; [cbn; intros [= <- <-]; auto|].
      cbn [split_at]. destruct (Nat.leb_spec (utf8_len c) (S n)); [|congruence].
      destruct (split_at _ s) as [[a' b']|] eqn:Hs; [|congruence].
      intros [= <- <-]. apply IH in Hs as [-> Hl]. cbn. split; auto. lia.
  - intros [-> <-]. induction a as [|c a IH]; cbn [app blen]; [now destruct b|].
    pose proof (utf8_len_pos c). destruct (utf8_len c + blen a)%nat eqn:Hn; [lia|].
    cbn [split_at]. rewrite <- Hn.
    destruct (Nat.leb_spec (utf8_len c) (utf8_len c + blen a)); [|lia].
    replace (utf8_len c + blen a - utf8_len c)%nat with (blen a) by lia. now rewrite IH.
Qed.

(** ** split and join *)
Lemma split_on_nonnil c s : split_on c s <> [].
Proof. destruct s as [|x s]; cbn; [congruence|]. destruct (x =? c); [congruence|]. destruct (split_on c s); congruence. Qed.
Lemma split_on_none c s : ~ In c s -> split_on c s = [s].
Proof.
  induction s as [|x s IH]; cbn; auto. intros H.
  destruct (x =? c) eqn:Hx; [apply Z.eqb_eq in Hx; tauto|]. rewrite IH; tauto.
Qed.
Lemma split_on_app c a s : ~ In c a -> split_on c (a ++ c :: s) = a :: split_on c s.
Proof.
  induction a as [|x a IH]; cbn; intros H; [now rewrite Z.eqb_refl|].
  destruct (x =? c) eqn:Hx; [apply Z.eqb_eq in Hx; tauto|]. rewrite IH; tauto.
Qed.
Lemma split_on_join c l :
  l <> [] -> Forall (fun s => ~ In c s) l -> split_on c (join [c] l) = l.
Proof.
  induction l as [|a l IH]; [congruence|]. intros _ H; inv H. destruct l as [|b l].
  - cbn. now apply split_on_none.
  - change (join [c] (a :: b :: l)) with (a ++ [c] ++ join [c] (b :: l)).
    cbn [app]. rewrite split_on_app by auto. f_equal. apply IH; auto; congruence.
Qed.
Lemma join_split_on c s : join [c] (split_on c s) = s.
Proof.
  induction s as [|x s IH]; cbn; auto. destruct (x =? c) eqn:Hx.
  - apply Z.eqb_eq in Hx as ->. destruct (split_on c s) as [|l l0] eqn:H; [now apply split_on_nonnil in H|].
    change (join [c] ([] :: l :: l0)) with ([c] ++ join [c] (l :: l0)). now rewrite IH.
  - destruct (split_on c s) as [|h t] eqn:H; [now apply split_on_nonnil in H|].
    destruct t; cbn in *; now rewrite IH.
Qed.
Lemma split_on_notin c s : Forall (fun p => ~ In c p) (split_on c s).
Proof.
  induction s as [|x s IH]; cbn; [constructor; auto|].
  destruct (x =? c) eqn:Hx; [constructor; auto|].
  destruct (split_on c s) as [|h t] eqn:H; [now apply split_on_nonnil in H|].
  inv IH. constructor; auto. cbn. apply Z.eqb_neq in Hx. intuition.
Qed.

Lemma splitn2_none c s : ~ In c s -> splitn2 c s = (s, None).
Proof.
  induction s as [|x s IH]; cbn; auto. intros H.
  destruct (x =? c) eqn:Hx; [apply Z.eqb_eq in Hx; tauto|]. rewrite IH; tauto.
Qed.
Lemma splitn2_app c a s : ~ In c a -> splitn2 c (a ++ c :: s) = (a, Some s).
Proof.
  induction a as [|x a IH]; cbn; intros H; [now rewrite Z.eqb_refl|].
  destruct (x =? c) eqn:Hx; [apply Z.eqb_eq in Hx; tauto|]. rewrite IH; tauto.
Qed.
Lemma splitn2_None_inv c s a : splitn2 c s = (a, None) -> a = s /\ ~ In c s.
Proof.
  revert a; induction s as [|x s IH]; cbn; intros a; [intros [= <-]; auto|].
  destruct (x =? c) eqn:Hx; [congruence|]. destruct (splitn2 c s) as [h t].
  intros [= <- ->]. destruct (IH _ eq_refl) as [-> Hn]. apply Z.eqb_neq in Hx. split; auto. intuition.
Qed.

(** [Vec] writing: every item followed by ',', the last char popped. *)
Lemma join_pop sep l : pop (flat_map (fun p => p ++ [sep]) l) = join [sep] l.
Proof.
  induction l as [|a l IH]; auto. destruct l as [|b l].
  - cbn. rewrite app_nil_r. apply pop_app.
  - change (join [sep] (a :: b :: l)) with (a ++ [sep] ++ join [sep] (b :: l)).
    rewrite <- IH. cbn [flat_map]. unfold pop.
    rewrite removelast_app; [now rewrite <- app_assoc|]. destruct b; cbn; congruence.
Qed.

Lemma flat_map_ext_in {A B} (f g : A -> list B) l :
  (forall x, In x l -> f x = g x) -> flat_map f l = flat_map g l.
Proof. induction l; cbn; auto. intros H. rewrite H, IHl; auto. Qed.

(** ** Decimal *)
Lemma is_digit_iff c : is_digit c = true <-> 48 <= c <= 57.
Proof. unfold is_digit. rewrite andb_true_iff, !Z.leb_le. tauto. Qed.

Definition dval (v : Z) (s : str) : Z := fold_left (fun v c => 10 * v + (c - 48)) s v.
Lemma digits_val_dval s : digits_val s = dval 0 s.
Proof. reflexivity. Qed.
Lemma dval_app v a b : dval v (a ++ b) = dval (dval v a) b.
Proof. apply fold_left_app. Qed.
Lemma dval_shift v s : dval v s = v * 10 ^ Z.of_nat (length s) + dval 0 s.
Proof.
  revert v; induction s as [|c s IH]; intros v.
  - cbn. lia.
  - cbn [dval fold_left length]. fold (dval (10 * v + (c - 48)) s). fold (dval (10 * 0 + (c - 48)) s).
    rewrite IH, (IH (10 * 0 + (c - 48))). rewrite Nat2Z.inj_succ, Z.pow_succ_r by lia. ring.
Qed.
Lemma dval_bounds s : all_digits s = true -> 0 <= dval 0 s < 10 ^ Z.of_nat (length s).
Proof.
  induction s as [|c s IH]; [cbn; lia|]. cbn [all_digits forallb]. intros H.
  apply andb_true_iff in H as [Hc Hs]. apply is_digit_iff in Hc. specialize (IH Hs).
  cbn [length]. cbn [dval fold_left]. fold (dval (10 * 0 + (c - 48)) s). rewrite dval_shift.
  rewrite Nat2Z.inj_succ, Z.pow_succ_r by lia. nia.
Qed.

Lemma digits_fuel_all fuel n acc :
  0 <= n -> all_digits acc = true -> all_digits (digits_fuel fuel n acc) = true.
Proof.
  revert n acc; induction fuel as [|f IH]; intros n acc Hn Ha; cbn [digits_fuel]; auto.
  assert (Hd : all_digits ((48 + n mod 10) :: acc) = true).
  { unfold all_digits in *. cbn [forallb]. rewrite Ha, andb_true_r. apply is_digit_iff. pose proof (Z.mod_pos_bound n 10 ltac:(lia)). lia. }
  destruct (n / 10 =? 0); auto. apply IH; auto. apply Z.div_pos; lia.
Qed.
Lemma digits_fuel_val fuel n acc :
  0 <= n < 2 ^ Z.of_nat fuel -> (0 < fuel)%nat -> dval 0 (digits_fuel fuel n acc) = dval n acc.
Proof.
  revert n acc; induction fuel as [|f IH]; intros n acc Hn Hf; [lia|]. cbn [digits_fuel].
  pose proof (Z.div_mod n 10 ltac:(lia)). pose proof (Z.mod_pos_bound n 10 ltac:(lia)).
  destruct (n / 10 =? 0) eqn:Hq; bool_hyps.
  - cbn [dval fold_left]. fold (dval (10 * 0 + (48 + n mod 10 - 48)) acc). f_equal. lia.
  - rewrite Nat2Z.inj_succ, Z.pow_succ_r in Hn by lia.
    assert (0 < n / 10) by (pose proof (Z.div_pos n 10); lia).
    destruct f as [|f]; [cbn in Hn; lia|].
    rewrite IH; [|lia|lia]. cbn [dval fold_left]. fold (dval (10 * (n / 10) + (48 + n mod 10 - 48)) acc).
    f_equal. lia.
Qed.
Lemma digits_fuel_nonnil fuel n acc : (0 < fuel)%nat -> digits_fuel fuel n acc <> [].
Proof.
  revert n acc; induction fuel as [|f IH]; intros n acc H; [lia|]. cbn.
  destruct (n / 10 =? 0); [congruence|]. destruct f; [cbn; congruence|]. apply IH; lia.
Qed.
Lemma digits_fuel_length fuel n acc k :
  0 <= n < 10 ^ Z.of_nat k -> (0 < k)%nat ->
  (length (digits_fuel fuel n acc) <= k + length acc)%nat.
Proof.
  revert n acc k; induction fuel as [|f IH]; intros n acc k Hn Hk; [cbn; lia|]. cbn [digits_fuel].
  destruct (n / 10 =? 0) eqn:Hq; bool_hyps; [cbn [length]; lia|].
  pose proof (Z.div_mod n 10 ltac:(lia)). pose proof (Z.mod_pos_bound n 10 ltac:(lia)).
  assert (0 < n / 10) by (pose proof (Z.div_pos n 10); lia).
  destruct k as [|k]; [lia|]. rewrite Nat2Z.inj_succ, Z.pow_succ_r in Hn by lia.
  destruct k as [|k]; [cbn in Hn; lia|].
  etransitivity; [apply (IH _ _ (S k))|cbn [length]; lia]; [|lia]. lia.
Qed.
Lemma show_nat_fuel n : 0 <= n -> 0 <= n < 2 ^ Z.of_nat (S (Z.to_nat (Z.log2 n))).
Proof.
  intros Hn. split; auto. rewrite Nat2Z.inj_succ, Z2Nat.id by apply Z.log2_nonneg.
  destruct (Z.eq_dec n 0); [subst; cbn; lia|]. apply Z.log2_spec. lia.
Qed.
Lemma show_nat_digits n : 0 <= n -> all_digits (show_nat n) = true.
Proof. intros. apply digits_fuel_all; auto. Qed.
Lemma show_nat_val n : 0 <= n -> digits_val (show_nat n) = n.
Proof. intros. rewrite digits_val_dval. unfold show_nat. rewrite digits_fuel_val; auto using show_nat_fuel. lia. Qed.
Lemma show_nat_nonnil n : show_nat n <> [].
Proof. apply digits_fuel_nonnil. lia. Qed.
Lemma show_nat_length n k : 0 <= n < 10 ^ Z.of_nat k -> (0 < k)%nat -> (length (show_nat n) <= k)%nat.
Proof. intros. unfold show_nat. etransitivity; [now apply (digits_fuel_length _ _ _ k)|]. cbn. lia. Qed.
Lemma show_nat_inj a b : 0 <= a -> 0 <= b -> show_nat a = show_nat b -> a = b.
Proof. intros Ha Hb H. rewrite <- (show_nat_val a), <- (show_nat_val b), H; auto. Qed.

Lemma all_digits_app a b : all_digits (a ++ b) = all_digits a && all_digits b.
Proof. apply forallb_app. Qed.
Lemma all_digits_repeat0 k : all_digits (repeat 48 k) = true.
Proof. induction k; cbn; auto. Qed.
Lemma dval_repeat0 k : dval 0 (repeat 48 k) = 0.
Proof. induction k; cbn; auto. Qed.
Lemma show_pad_digits w n : 0 <= n -> all_digits (show_pad w n) = true.
Proof. intros. unfold show_pad. now rewrite all_digits_app, all_digits_repeat0, show_nat_digits. Qed.
Lemma show_pad_val w n : 0 <= n -> digits_val (show_pad w n) = n.
Proof.
  intros. unfold show_pad. rewrite digits_val_dval, dval_app, dval_repeat0.
  now apply show_nat_val.
Qed.
Lemma show_pad_length w n : (0 < w)%nat -> 0 <= n < 10 ^ Z.of_nat w -> length (show_pad w n) = w.
Proof.
  intros. unfold show_pad. rewrite app_length, repeat_length.
  pose proof (show_nat_length n w H0 H). lia.
Qed.
Lemma show_pad_length_ge w n : (w <= length (show_pad w n))%nat.
Proof. unfold show_pad. rewrite app_length, repeat_length. lia. Qed.
Lemma show_pad_nonnil w n : show_pad w n <> [].
Proof. unfold show_pad. pose proof (show_nat_nonnil n). destruct (show_nat n); [congruence|]. now destruct (repeat _ _). Qed.

(** Chars of a digit string. *)
Lemma all_digits_In s c : all_digits s = true -> In c s -> 48 <= c <= 57.
Proof. intros H Hc. apply is_digit_iff. unfold all_digits in H. rewrite forallb_forall in H. auto. Qed.

Lemma parse_digits_show max n : 0 <= n <= max -> parse_digits max (show_nat n) = Some n.
Proof.
  intros. unfold parse_digits. pose proof (show_nat_nonnil n).
  destruct (show_nat n) eqn:Hs; [congruence|]. rewrite <- Hs.
  rewrite show_nat_digits, show_nat_val by lia.
  destruct (Z.leb_spec n max); [auto|lia].
Qed.
Lemma show_nat_head n c r : 0 <= n -> show_nat n = c :: r -> 48 <= c <= 57.
Proof. intros Hn H. apply all_digits_In with (show_nat n); [now apply show_nat_digits|]. rewrite H; cbn; auto. Qed.
Lemma parse_unsigned_show max n : 0 <= n <= max -> parse_unsigned max (show_int n) = Some n.
Proof.
  intros H. unfold show_int. destruct (n <? 0) eqn:Hn; bool_hyps; [lia|].
  pose proof (parse_digits_show max n H). unfold parse_unsigned.
  destruct (show_nat n) as [|c r] eqn:Hs; [now apply show_nat_nonnil in Hs|].
  pose proof (show_nat_head n c r ltac:(lia) Hs).
  destruct (c =? 43) eqn:Hc; bool_hyps; [lia|]. auto.
Qed.
Lemma parse_signed_show max n : - max - 1 <= n <= max -> parse_signed max (show_int n) = Some n.
Proof.
  intros H. unfold show_int. destruct (n <? 0) eqn:Hn; bool_hyps.
  - unfold parse_signed. change (45 =? 43) with false. change (45 =? 45) with true. cbv iota. rewrite parse_digits_show by lia. cbn [option_map]. f_equal; lia.
  - pose proof (parse_digits_show max n ltac:(lia)). unfold parse_signed.
    destruct (show_nat n) as [|c r] eqn:Hs; [now apply show_nat_nonnil in Hs|].
    pose proof (show_nat_head n c r ltac:(lia) Hs).
    destruct (c =? 43) eqn:Hc; bool_hyps; [lia|]. destruct (c =? 45) eqn:Hc'; bool_hyps; [lia|]. auto.
Qed.
Lemma parse_digits_Some max s n :
  parse_digits max s = Some n <-> s <> [] /\ all_digits s = true /\ digits_val s = n /\ n <= max.
Proof.
  unfold parse_digits. destruct s as [|c s]; [split; [congruence|tauto]|].
  destruct (all_digits (c :: s)) eqn:Ha; cbn [andb].
  - destruct (Z.leb_spec (digits_val (c :: s)) max).
    + split; [intros [=]; subst; repeat split; auto; congruence | intros (_ & _ & -> & _); auto].
    + split; [congruence|]. intros (_ & _ & <- & ?). lia.
  - split; [congruence|]. intros (_ & ? & _). congruence.
Qed.

(** ** Sorted maps *)
Section Map.
  Context {V : Type}.
  Implicit Types m : smap V.
  Inductive msorted : smap V -> Prop :=
  | ms_nil : msorted []
  | ms_cons k v m : Forall (fun kv => str_cmp k (fst kv) = Lt) m -> msorted m -> msorted ((k, v) :: m).

  Lemma mget_minsert_eq k v m : mget k (minsert k v m) = Some v.
  Proof.
    induction m as [|[k' v'] m IH]; cbn; [now rewrite str_eqb_refl|].
    destruct (str_cmp k k') eqn:H; cbn; rewrite ?str_eqb_refl; auto.
    destruct (str_eqb k k') eqn:He; auto. apply str_eqb_eq in He; subst. now rewrite str_cmp_refl in H.
  Qed.
  Lemma mget_minsert_neq k k' v m : k <> k' -> mget k (minsert k' v m) = mget k m.
  Proof.
    intros Hk. induction m as [|[k2 v2] m IH]; cbn.
    - destruct (str_eqb k k') eqn:He; auto. apply str_eqb_eq in He; congruence.
    - destruct (str_cmp k' k2) eqn:H; cbn.
      + apply str_cmp_eq in H; subst. destruct (str_eqb k k2) eqn:He; auto. apply str_eqb_eq in He; congruence.
      + destruct (str_eqb k k') eqn:He; auto. apply str_eqb_eq in He; congruence.
      + now rewrite IH.
  Qed.
  Lemma minsert_Forall (P : str * V -> Prop) k v m : P (k, v) -> Forall P m -> Forall P (minsert k v m).
  Proof.
    intros Hp Hm. induction Hm as [|[k' v'] m Hx Hm IH]; cbn; [auto|].
    destruct (str_cmp k k'); auto.
  Qed.
  Lemma minsert_sorted k v m : msorted m -> msorted (minsert k v m).
  Proof.
    induction 1 as [|k' v' m Hf Hm IH]; cbn; [constructor; auto; constructor|].
    destruct (str_cmp k k') eqn:H.
    - apply str_cmp_eq in H; subst. now constructor.
    - constructor; [|now constructor]. constructor; auto.
      eapply Forall_impl; [|exact Hf]. cbn. intros a Ha. eapply str_cmp_trans; eauto.
    - constructor; auto. apply minsert_Forall; auto. cbn. rewrite str_cmp_antisym, H. auto.
  Qed.
  Lemma mget_In k v m : mget k m = Some v -> In (k, v) m.
  Proof.
    induction m as [|[k' v'] m IH]; cbn; [congruence|].
    destruct (str_eqb k k') eqn:He; [|auto]. apply str_eqb_eq in He; subst. intros [=]; subst; auto.
  Qed.
  Lemma In_mget k v m : msorted m -> In (k, v) m -> mget k m = Some v.
  Proof.
    induction 1 as [|k' v' m Hf Hm IH]; cbn; [tauto|]. intros [H|H].
    - inv H. now rewrite str_eqb_refl.
    - destruct (str_eqb k k') eqn:He; auto. apply str_eqb_eq in He; subst.
      rewrite Forall_forall in Hf. apply Hf in H. cbn in H. now rewrite str_cmp_refl in H.
  Qed.
  Lemma minsert_last k v m : Forall (fun kv => str_cmp (fst kv) k = Lt) m -> minsert k v m = m ++ [(k, v)].
  Proof.
    induction 1 as [|[k' v'] m Hx Hm IH]; cbn; auto. cbn in Hx.
    rewrite str_cmp_antisym, Hx. cbn. now rewrite IH.
  Qed.
  (** Inserting the bindings of a sorted map in order rebuilds it. *)
  Lemma minsert_rebuild m : msorted m ->
    fold_left (fun acc kv => minsert (fst kv) (snd kv) acc) m [] = m.
  Proof.
    intros Hs. enough (G : forall acc, (forall k1 k2, In k1 acc -> In k2 m -> str_cmp (fst k1) (fst k2) = Lt) ->
      fold_left (fun acc kv => minsert (fst kv) (snd kv) acc) m acc = acc ++ m) by (apply (G []); cbn; tauto).
    induction Hs as [|k v m Hf Hm IH]; intros acc Ha; cbn; [now rewrite app_nil_r|].
    rewrite minsert_last.
    - rewrite IH, <- app_assoc; [auto|]. intros k1 k2 H1 H2. apply in_app_or in H1 as [H1|[<-|[]]].
      + apply Ha; cbn; auto.
      + cbn. rewrite Forall_forall in Hf. auto.
    - apply Forall_forall. intros x Hx. apply (Ha x (k, v)); cbn; auto.
  Qed.
  (** Sorted maps with the same lookups are equal. *)
  Lemma msorted_ext m1 m2 : msorted m1 -> msorted m2 -> (forall k, mget k m1 = mget k m2) -> m1 = m2.
  Proof.
    intros H1; revert m2; induction H1 as [|k v m1 Hf1 Hm1 IH]; intros m2 H2 He.
    - destruct H2 as [|k v m2]; auto. specialize (He k). cbn in He. now rewrite str_eqb_refl in He.
    - destruct H2 as [|k2 v2 m2 Hf2 Hm2]; [specialize (He k); cbn in He; now rewrite str_eqb_refl in He|].
      assert (k = k2) as <-.
      { destruct (str_cmp k k2) eqn:Hc; [now apply str_cmp_eq| |].
        - pose proof (He k) as H. cbn in H. rewrite str_eqb_refl in H.
          destruct (str_eqb k k2) eqn:He2; [now apply str_eqb_eq in He2|].
          symmetry in H. apply mget_In in H. rewrite Forall_forall in Hf2. apply Hf2 in H. cbn in H.
          rewrite str_cmp_antisym in H. rewrite Hc in H. discriminate.
        - pose proof (He k2) as H. cbn in H. rewrite str_eqb_refl in H.
          destruct (str_eqb k2 k) eqn:He2; [now apply str_eqb_eq in He2|].
          apply mget_In in H. rewrite Forall_forall in Hf1. apply Hf1 in H. cbn in H.
          rewrite Hc in H. discriminate. }
      assert (v = v2) as <- by (specialize (He k); cbn in He; rewrite str_eqb_refl in He; congruence).
      f_equal. apply IH; auto. intros k'. specialize (He k'). cbn in He.
      destruct (str_eqb k' k) eqn:Hk; auto. apply str_eqb_eq in Hk as ->.
      assert (G : forall m, Forall (fun kv => str_cmp k (fst kv) = Lt) m -> mget k m = None).
      { intros m H. destruct (mget k m) eqn:Hg; auto. apply mget_In in Hg. rewrite Forall_forall in H.
        apply H in Hg. cbn in Hg. now rewrite str_cmp_refl in Hg. }
      now rewrite !G.
  Qed.
End Map.

(** ** Outcomes *)
Lemma obind_Ok {A B} (o : outcome A) (f : A -> outcome B) b :
  obind o f = Ok b -> exists a, o = Ok a /\ f a = Ok b.
Proof. destruct o; cbn; try congruence. eauto. Qed.
Lemma omap_Ok {A B} (f : A -> B) (o : outcome A) b :
  omap f o = Ok b -> exists a, o = Ok a /\ b = f a.
Proof. destruct o; cbn; try congruence. intros [=]; eauto. Qed.
Lemma ocollect_map {A B} (f : A -> outcome B) (g : A -> B) l :
  (forall x, In x l -> f x = Ok (g x)) -> ocollect f l = Ok (map g l).
Proof. induction l; cbn; auto. intros H. rewrite H by auto. cbn. rewrite IHl; auto. Qed.
Lemma ocollect_Ok {A B} (f : A -> outcome B) l r :
  ocollect f l = Ok r <-> Forall2 (fun a b => f a = Ok b) l r.
Proof.
  split.
  - revert r; induction l as [|a l IH]; cbn; intros r H; [inv H; auto|].
    apply obind_Ok in H as (b & Hb & H). apply obind_Ok in H as (bs & Hbs & H). inv H. auto.
  - induction 1 as [|a b l r H _ IH]; cbn; auto. now rewrite H, IH.
Qed.
Ltac ok_inv :=
  repeat match goal with
    | H : Ok _ = Ok _ |- _ => inv H
    | H : Err _ = Ok _ |- _ => discriminate H
    | H : Panic = Ok _ |- _ => discriminate H
    | H : obind _ _ = Ok _ |- _ => apply obind_Ok in H as (? & ? & ?)
    | H : omap _ _ = Ok _ |- _ => apply omap_Ok in H as (? & ? & ?); subst
    end.

(** ** escape, unfold *)
Lemma replace_char_notin c to s : ~ In c s -> replace_char c to s = s.
Proof.
  induction s as [|x s IH]; cbn; auto. intros H.
  destruct (x =? c) eqn:Hx; bool_hyps; [tauto|]. cbn [app]. f_equal. apply IH. tauto.
Qed.
Lemma replace_char_app c to a b : replace_char c to (a ++ b) = replace_char c to a ++ replace_char c to b.
Proof. apply flat_map_app. Qed.
