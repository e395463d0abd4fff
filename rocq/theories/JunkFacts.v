(** * Texts folded several times: rows with fold markers inserted, even inside one another. *)
From Verif Require Import Base Env Nom Types Ser Parser BaseFacts NomFacts SpecLine LineFacts SpecText SerFacts PropText PropLine RoundFacts.

(** [junk B st L s]: [s] is [L] with fold markers inserted (possibly inside other
    fold markers), then a text in [B]. [st] holds the markers being read: [true]
    after their CR, [false] after their CR LF. *)
Inductive junk (B : str -> Prop) : list bool -> str -> str -> Prop :=
| jk_end s : B s -> junk B [] [] s
| jk_cr st L s : junk B (true :: st) L s -> junk B st L (CR :: s)
| jk_lf st L s : junk B (false :: st) L s -> junk B (true :: st) L (LF :: s)
| jk_sp st L s : junk B st L s -> junk B (false :: st) L (SP :: s)
| jk_ch c L s : junk B [] L s -> junk B [] (c :: L) (c :: s).
Implicit Types B : str -> Prop.
Definition nothing (s : str) : Prop := s = [].
Definition anything (s : str) : Prop := True.

Lemma junk_self B L s : B s -> junk B [] L (L ++ s).
Proof. intros H. induction L as [|c L IH]; [now constructor|]. now constructor. Qed.
Lemma junk_fold B st L s : junk B st L s -> junk B st L (FOLD ++ s).
Proof. intros H. unfold FOLD. cbn [app]. now repeat constructor. Qed.
Lemma junk_insert B st L a b : (forall c a b, B (c :: a ++ b) -> B (c :: a ++ FOLD ++ b)) ->
  junk B st L (a ++ b) -> junk B st L (a ++ FOLD ++ b).
Proof.
  intros HB. revert st L. induction a as [|c a IH]; intros st L H; [now apply junk_fold|]. cbn [app] in *.
  inversion H; subst; try (constructor; auto; fail).
Qed.
Lemma insert_nothing : forall c a b, nothing (c :: a ++ b) -> nothing (c :: a ++ FOLD ++ b).
Proof. unfold nothing. discriminate. Qed.
Lemma insert_anything : forall c a b, anything (c :: a ++ b) -> anything (c :: a ++ FOLD ++ b).
Proof. unfold anything. auto. Qed.
Lemma junk_folded B st L pre parts : (forall c a b, B (c :: a ++ b) -> B (c :: a ++ FOLD ++ b)) ->
  junk B st L (pre ++ concat parts) -> junk B st L (pre ++ folded parts).
Proof.
  intros HB. revert pre. induction parts as [|x l IH]; intros pre H; [exact H|].
  destruct l as [|y l]; [cbn in *; now rewrite app_nil_r in H|].
  change (folded (x :: y :: l)) with (x ++ FOLD ++ folded (y :: l)).
  change (concat (x :: y :: l)) with (x ++ concat (y :: l)) in H.
  rewrite app_assoc in *. apply (junk_insert B st L (pre ++ x) _ HB). now apply IH.
Qed.
Lemma junk_fold_line B st L s out : (forall c a b, B (c :: a ++ b) -> B (c :: a ++ FOLD ++ b)) ->
  junk B st L s -> fold_line s = Ok out -> junk B st L out.
Proof.
  intros HB H F. apply fold_line_spec in F as (l & -> & <- & _). exact (junk_folded B st L [] l HB H).
Qed.
Lemma junk_app B st L1 s1 L2 s2 : junk nothing st L1 s1 -> junk B [] L2 s2 -> junk B st (L1 ++ L2) (s1 ++ s2).
Proof. intros H H2. induction H; cbn [app]; try (constructor; auto; fail). unfold nothing in H. now subst. Qed.
Lemma junk_more st L s t : junk anything st L s -> junk anything st L (s ++ t).
Proof. induction 1; cbn [app]; constructor; auto. Qed.
(** One pass of unfolding leaves the same text with fewer markers, provided the
    text itself has none and does not end inside a line break. *)
Definition sealed (L : str) : Prop := forall a c, L = a ++ [c] -> c <> CR /\ c <> LF.
Lemma sealed_tail c L : sealed (c :: L) -> sealed L.
Proof. intros H a d ->. apply (H (c :: a) d). reflexivity. Qed.
Lemma no_fold_tail c L : ~ contains FOLD (c :: L) -> ~ contains FOLD L.
Proof. intros H (a & b & ->). apply H. now exists (c :: a), b. Qed.
Lemma junk_unfold st L s : ~ contains FOLD L -> sealed L -> junk anything st L s -> junk anything st L (unfold_lines s).
Proof.
  remember (length s) as n eqn:Hn. revert st L s Hn. induction n as [n IH] using (well_founded_induction lt_wf). intros st L s -> HF HS H.
  assert (IH' : forall s', (length s' < length s)%nat -> forall st L, ~ contains FOLD L -> sealed L -> junk anything st L s' -> junk anything st L (unfold_lines s')) by (intros s' Hs' st' L'; exact (IH _ Hs' st' L' s' eq_refl)). clear IH. rename IH' into IH.
  assert (D : forall c r, (exists s', c :: r = FOLD ++ s') \/ unfold_lines (c :: r) = c :: unfold_lines r).
  { intros c r. cbn [unfold_lines]. destruct r as [|c1 [|c2 r]]; auto.
    destruct ((c =? CR) && (c1 =? LF) && (c2 =? 32)) eqn:Q; auto. bool_hyps. subst. left. now exists r. }
  inversion H as [s0 HB|st0 L0 s0 H0|st0 L0 s0 H0|st0 L0 s0 H0|c L0 s0 H0]; subst.
  - constructor. exact I.
  - destruct (D CR s0) as [[s' Hs]|Hs].
    + unfold FOLD in Hs. cbn in Hs. injection Hs as ->.
      inversion H0; subst.
      * match goal with X : junk _ (false :: _) _ _ |- _ => inversion X; subst end.
        change (CR :: LF :: SP :: s') with (FOLD ++ s'). rewrite unfold_skip. apply IH; auto. cbn. lia.
    + rewrite Hs. constructor. apply IH; auto.
  - destruct (D LF s0) as [[s' Hs]|Hs]; [discriminate|]. rewrite Hs. constructor. apply IH; auto.
  - destruct (D SP s0) as [[s' Hs]|Hs]; [discriminate|]. rewrite Hs. constructor. apply IH; auto.
  - destruct (D c s0) as [[s' Hs]|Hs].
    + exfalso. unfold FOLD in Hs. cbn in Hs. injection Hs as -> ->.
      inversion H0; subst.
      * now destruct (HS [] CR eq_refl) as [X _].
      * match goal with X : junk _ [] _ (SP :: _) |- _ => inversion X; subst end.
        -- now destruct (HS [CR] LF eq_refl) as [_ X].
        -- apply HF. eexists [], _. reflexivity.
    + rewrite Hs. constructor. apply IH; auto; [eapply no_fold_tail; eauto|eapply sealed_tail; eauto].
Qed.

(** ** Rows *)
Definition is_row (r : str) : Prop := exists n m v, key_text n /\ n <> [] /\ good_params m /\ no_eol v /\ r = logical_line n (params_attr m) v.
Definition lost (r : str) : Prop := exists c s, r = c :: s /\ (c = SP \/ c = CR).
Lemma row_eq n m v rest : logical_line n (params_attr m) v ++ rest = n ++ attr_text (params_attr m) ++ COLON :: v ++ [CR; LF] ++ rest.
Proof. unfold logical_line. change (match params_attr m with Some a => [59] ++ a | None => [] end) with (attr_text (params_attr m)). rewrite <- !app_assoc. reflexivity. Qed.

Ltac in_it := repeat (first [rewrite in_app_iff | progress cbn [In]]); tauto.
Section Walk.
Variable B : str -> Prop.
Lemma junk_plain p L s : ~ In CR p -> In CR L -> junk B [] L (p ++ s) -> exists L', L = p ++ L' /\ junk B [] L' s.
Proof.
  revert L. induction p as [|c p IH]; intros L Hp HL H; [exists L; auto|]. cbn [app] in H.
  inversion H; subst; [destruct HL|exfalso; apply Hp; now left|].
  destruct HL as [->|HL]; [exfalso; apply Hp; now left|].
  destruct (IH L0) as (L' & -> & H'); auto; [intros X; apply Hp; now right|]. exists L'. auto.
Qed.
Lemma key_no_cr k : key_text k -> ~ In CR k.
Proof. unfold key_text. rewrite Forall_forall. intros H X. apply H in X. unfold key_char, CR in X. lia. Qed.
Lemma key_no k c : key_text k -> c = SEMI \/ c = COLON \/ c = EQUALS -> ~ In c k.
Proof. unfold key_text. rewrite Forall_forall. intros H Hc X. apply H in X. unfold key_char, SEMI, COLON, EQUALS in *. lia. Qed.
Lemma first_same (P : char -> Prop) a c x b d y : a ++ c :: x = b ++ d :: y -> (forall e, In e a -> ~ P e) -> (forall e, In e b -> ~ P e) -> P c -> P d -> a = b /\ c = d /\ x = y.
Proof.
  revert b. induction a as [|e a IH]; intros [|f b] E Ha Hb Hc Hd; cbn in E; injection E as E1 E2; subst; auto.
  - exfalso. apply (Hb f); cbn; auto.
  - exfalso. apply (Ha d); cbn; auto.
  - destruct (IH b E2) as (-> & -> & ->); auto; intros; [apply Ha|apply Hb]; now right.
Qed.
(** The name. *)
Lemma junk_name n d x k d' t : key_text n -> key_text k -> (d = SEMI \/ d = COLON) -> (d' = SEMI \/ d' = COLON) -> In CR x ->
  junk B [] (n ++ d :: x) (k ++ d' :: t) -> n = k /\ d = d' /\ junk B [] x t.
Proof.
  intros Hn Hk Hd Hd' Hx H. apply junk_plain in H as (L' & E & H); [|now apply key_no_cr|rewrite in_app_iff; cbn; auto].
  inversion H; subst.
  - exfalso. rewrite app_nil_r in E. apply (key_no k d); [exact Hk|tauto|]. rewrite <- E, in_app_iff. cbn. auto.
  - exfalso. destruct Hd' as [Q|Q]; discriminate.
  - apply (first_same (fun c => c = SEMI \/ c = COLON)) in E as (-> & -> & ->); auto; intros e He Q; [apply (key_no n e)|apply (key_no k e)]; auto; tauto.
Qed.
(** A parameter value. *)
Lemma junk_span st y d L2 x d' s : (forall e, In e y -> e <> SEMI /\ e <> COLON) -> (forall e, In e x -> e <> SEMI /\ e <> COLON) ->
  (d = SEMI \/ d = COLON) -> (d' = SEMI \/ d' = COLON) -> junk B st (y ++ d :: L2) (x ++ d' :: s) -> d = d' /\ junk B [] L2 s.
Proof.
  intros Hy Hx Hd Hd'. revert st y Hy. induction x as [|c x IH]; intros st y Hy H; cbn [app] in H.
  - inversion H; subst; try (exfalso; unfold SEMI, COLON, CR, LF, SP in *; destruct Hd'; congruence).
    + exfalso. symmetry in H0. apply app_eq_nil in H0 as [_ H0]. discriminate.
    + destruct y as [|e y]; cbn in H0; injection H0 as X1 X2; subst; [auto|]. exfalso. destruct (Hy e); cbn; auto. tauto.
  - assert (Hx' : forall e, In e x -> e <> SEMI /\ e <> COLON) by (intros; apply Hx; now right). specialize (IH Hx').
    inversion H; subst; try (eapply IH; [exact Hy|eassumption]; fail).
    + exfalso. match goal with X : [] = _ ++ _ |- _ => symmetry in X; apply app_eq_nil in X as [_ X]; discriminate end.
    + match goal with X : _ :: _ = y ++ _ |- _ => rename X into E end. destruct y as [|e y]; cbn in E; injection E as X1 X2; subst.
      * exfalso. destruct (Hx d); cbn; auto. tauto.
      * eapply IH; [|eassumption]. intros; apply Hy; now right.
Qed.
Lemma param_escape v : param_value v -> escape v = v.
Proof. intros (A & C & _ & _ & D & _). apply escape_plain. repeat split; auto. Qed.
Lemma junk_params t l rest : params_read t l rest -> forall m x, (forall k v, In (k, v) m -> param_name k /\ param_value v) -> In CR x ->
  junk B [] (concat (map (fun kv => [59] ++ fst kv ++ [61] ++ escape (snd kv)) m) ++ COLON :: x) t -> junk B [] x rest.
Proof.
  assert (F : forall t l rest, params_read t l rest -> exists d t', t = d :: t' /\ (d = SEMI \/ d = COLON)).
  { intros t0 l0 r0 X. destruct X; eauto. }
  induction 1 as [rest|k v t l rest Hk Hv Hp IH|k f v t l rest Hk Hs Hc Hf Hq Hp IH]; intros m x Hm Hx H.
  - destruct m as [|[k0 v0] m]; cbn [map concat app fst snd] in H.
    + inversion H; subst; auto.
    + exfalso. inversion H.
  - destruct m as [|[k0 v0] m]; cbn [map concat app fst snd] in H; [exfalso; inversion H|].
    destruct (Hm k0 v0 (or_introl eq_refl)) as [Hk0 Hv0]. rewrite param_escape in H by auto.
    inversion H as [| | | |c L s H1]; subst. rewrite <- app_assoc in H1. cbn [app] in H1.
    replace (k ++ EQUALS :: QUOTE :: v ++ QUOTE :: t) with ((k ++ [EQUALS; QUOTE]) ++ v ++ QUOTE :: t) in H1 by now rewrite <- app_assoc.
    apply junk_plain in H1 as (L' & E & H1).
    + exfalso. repeat (rewrite <- app_assoc in E; cbn [app] in E). change 61 with EQUALS in E.
      apply (first_same (fun c => c = EQUALS)) in E as (_ & _ & E); auto; [|intros e He ->; eapply (key_no k0 EQUALS); eauto|intros e He ->; eapply (key_no k EQUALS); eauto].
      destruct Hv0 as (_ & _ & _ & _ & _ & Hv0). destruct v0 as [|c v0]; cbn [app] in E.
      * destruct m as [|kv m]; cbn [map concat app] in E; discriminate.
      * injection E as -> _. now apply (Hv0 v0).
    + intros X. apply in_app_iff in X as [X|X]; [now apply key_no_cr in X|]. cbn in X. unfold EQUALS, QUOTE, CR in X. intuition discriminate.
    + in_it.
  - destruct m as [|[k0 v0] m]; cbn [map concat app fst snd] in H; [exfalso; inversion H|].
    destruct (Hm k0 v0 (or_introl eq_refl)) as [Hk0 Hv0]. rewrite param_escape in H by auto.
    inversion H as [| | | |c L s H1]; subst. cbn [app] in H1.
    replace (k ++ EQUALS :: f ++ v ++ t) with ((k ++ [EQUALS]) ++ f ++ v ++ t) in H1 by now rewrite <- app_assoc.
    apply junk_plain in H1 as (L' & E & H1).
    + repeat (rewrite <- app_assoc in E; cbn [app] in E). change 61 with EQUALS in E.
      apply (first_same (fun c => c = EQUALS)) in E as (_ & _ & E); auto; [|intros e He ->; eapply (key_no k0 EQUALS); eauto|intros e He ->; eapply (key_no k EQUALS); eauto].
      subst L'. change EQUALS with 61 in H1. destruct (F _ _ _ Hp) as (d' & t' & -> & Hd').
      assert (G : exists d L2, concat (map (fun kv => 59 :: fst kv ++ 61 :: escape (snd kv)) m) ++ COLON :: x = d :: L2 /\ (d = SEMI \/ d = COLON)).
      { destruct m as [|kv m]; cbn [map concat app]; eexists _, _; split; try reflexivity; auto. }
      destruct G as (d & L2 & EL & Hd). pose proof H1 as H2. rewrite EL in H2.
      rewrite (app_assoc f v) in H2. apply junk_span in H2 as [-> H2]; auto.
      * apply (IH m x); [intros; apply Hm; now right|exact Hx|]. cbn [app] in *. rewrite EL. now constructor.
      * destruct Hv0 as (A1 & _ & A2 & _). intros e He. split; intros ->; auto.
      * assert (Hf' : forall e, In e f -> e <> SEMI /\ e <> COLON).
        { destruct Hf as [[-> _]| ->]; [intros e []|]. intros e [<-|[<-|[<-|[]]]]; unfold CR, LF, SPACE, SEMI, COLON; lia. }
        intros e He. apply in_app_iff in He as [He|He]; auto. split; intros ->; auto.
    + intros X. apply in_app_iff in X as [X|X]; [now apply key_no_cr in X|]. cbn in X. unfold EQUALS, CR in X. intuition discriminate.
    + in_it.
Qed.
(** The value and the end of the line. *)
Lemma junk_value v M v' e r : no_eol v -> no_eol v' -> eol e -> junk B [] (v ++ [CR; LF] ++ M) (v' ++ e ++ r) -> junk B [] M r \/ lost r.
Proof.
  intros [Hv1 Hv2] Hv' He. revert v Hv1 Hv2. induction v' as [|c v' IH]; intros v Hv1 Hv2 H; cbn [app] in H.
  - destruct He as [-> | ->]; cbn [app] in H.
    + exfalso. inversion H; subst; [match goal with X : [] = _ ++ _ |- _ => symmetry in X; apply app_eq_nil in X as [_ X]; discriminate end|].
      match goal with X : _ = v ++ _ |- _ => rename X into E end. destruct v as [|c v]; cbn [app] in E; [discriminate|]. injection E as E _. subst. apply Hv2. now left.
    + inversion H; subst.
      * exfalso. match goal with X : [] = _ ++ _ |- _ => symmetry in X; apply app_eq_nil in X as [_ X]; discriminate end.
      * right. match goal with X : junk _ _ _ (LF :: _) |- _ => inversion X; subst end.
        match goal with X : junk _ [false] _ _ |- _ => inversion X; subst end; eexists _, _; split; eauto.
      * match goal with X : _ = v ++ _ |- _ => rename X into E end. destruct v as [|c v]; cbn [app] in E; [|injection E as E _; subst; exfalso; apply Hv1; now left].
        injection E as ->. match goal with X : junk _ [] (LF :: M) _ |- _ => inversion X; subst; auto end.
  - assert (Hc : c <> CR) by (intros ->; apply (proj1 Hv'); now left). inversion H; subst; [|congruence|].
    + exfalso. match goal with X : [] = _ ++ _ |- _ => symmetry in X; apply app_eq_nil in X as [_ X]; discriminate end.
    + match goal with X : _ = v ++ _ |- _ => rename X into E end. destruct v as [|d v]; cbn [app] in E; injection E as X1 X2; subst; [congruence|].
      eapply (IH (conj (fun X => proj1 Hv' (or_intror X)) (fun X => proj2 Hv' (or_intror X))) v); [intros X; apply Hv1; now right|intros X; apply Hv2; now right|assumption].
Qed.

(** A content line or a delimiter. *)
Inductive step : str -> str -> Prop :=
| st_line s c r : is_line s c r -> step s r
| st_begin n r : no_eol n -> step (lit "BEGIN:" ++ n ++ [CR; LF] ++ r) r
| st_end n r : no_eol n -> step (lit "END:" ++ n ++ [CR; LF] ++ r) r.
Lemma row_step row M u r : is_row row -> junk B [] (row ++ M) u -> step u r -> junk B [] M r \/ lost r.
Proof.
  intros (n & m & v & Hn & _ & [_ Hm] & Hv & ->) H S. rewrite row_eq in H.
  assert (C : In CR (v ++ [CR; LF] ++ M)) by (rewrite !in_app_iff; cbn; auto).
  assert (A : forall w q, eol q -> no_eol w -> forall b, key_text b -> junk B [] (n ++ attr_text (params_attr m) ++ COLON :: v ++ [CR; LF] ++ M) (b ++ COLON :: w ++ q ++ r) -> junk B [] M r \/ lost r).
  { intros w q Hq Hw b Hb X. rewrite attr_text_eq in X. destruct m as [|kv m]; cbn [map concat app] in X.
    - apply junk_name in X; [|assumption|assumption|right; reflexivity|right; reflexivity|assumption]. destruct X as (_ & _ & X). eapply junk_value; [exact Hv|exact Hw|exact Hq|exact X].
    - exfalso. apply junk_name in X; [|assumption|assumption|left; reflexivity|right; reflexivity|in_it]. destruct X as (_ & X & _). discriminate. }
  destruct S as [s c r (_ & _ & k & t & l & w & q & -> & Hk & Hp & Hw & Hq & _)|b r Hb|b r Hb].
  - assert (J : junk B [] (v ++ [CR; LF] ++ M) (w ++ q ++ r)); [|eapply junk_value; [exact Hv|exact Hw|exact Hq|exact J]].
    eapply (junk_params t l _ Hp m); auto. rewrite <- attr_text_eq.
    assert (F : exists d t', t = d :: t' /\ (d = SEMI \/ d = COLON)) by (destruct Hp; eauto). destruct F as (d' & t' & -> & Hd').
    assert (G : exists d x, attr_text (params_attr m) ++ COLON :: v ++ [CR; LF] ++ M = d :: x /\ (d = SEMI \/ d = COLON) /\ In CR x).
    { rewrite attr_text_eq. destruct m as [|kv m]; cbn [map concat app]; eexists _, _; (split; [reflexivity|]); split; auto.
      in_it. }
    destruct G as (d & x & EL & Hd & Hx). rewrite EL in *. apply junk_name in H as (-> & -> & H); auto. now constructor.
  - apply (A b [CR; LF] (or_intror eq_refl) Hb (lit "BEGIN") (key_text_lit (lit "BEGIN") eq_refl)). exact H.
  - apply (A b [CR; LF] (or_intror eq_refl) Hb (lit "END") (key_text_lit (lit "END") eq_refl)). exact H.
Qed.
Lemma step_head u r : step u r -> exists c s, u = c :: s /\ c <> SP /\ c <> CR /\ c <> 44.
Proof.
  intros [s c r' (_ & _ & k & t & l & w & q & -> & Hk & Hp & _)|b r' _|b r' _].
  - destruct k as [|c0 k].
    + destruct Hp; eexists _, _; (split; [reflexivity|]); unfold COLON, SEMI, SP, CR; lia.
    + eexists _, _; split; [reflexivity|]. apply Forall_inv in Hk. unfold key_char, SP, CR in *. lia.
  - eexists _, _; split; [reflexivity|]. repeat split; intros X; vm_compute in X; discriminate.
  - eexists _, _; split; [reflexivity|]. repeat split; intros X; vm_compute in X; discriminate.
Qed.
Inductive walk : str -> str -> Prop :=
| wk_here s : walk s s
| wk_step s r t : step s r -> walk r t -> walk s t.
Lemma walk_trans a b c : walk a b -> walk b c -> walk a c.
Proof. induction 1; auto. intros. econstructor; eauto. Qed.
(** A text no line starts with: a comma, or an empty line. *)
Definition stop (t : str) : Prop := t = [44] \/ exists c, t = [CR; LF; c] /\ c <> CR /\ c <> LF /\ c <> SP.
Lemma lost_walk r t : walk r t -> lost r -> lost t.
Proof.
  induction 1 as [s|s r t S W IH]; auto. intros (c & x & -> & Hc). exfalso. apply step_head in S as (c' & s' & E & H1 & H2 & _). injection E as -> _. tauto.
Qed.
Lemma stop_head t u : stop t -> junk B [] t u -> exists c s, u = c :: s /\ (c = CR \/ c = 44).
Proof. intros [-> |(c & -> & _)] H; inversion H; subst; eexists _, _; split; eauto. Qed.
Lemma rows_walk u r : walk u r -> forall A t, Forall is_row A -> stop t -> junk B [] (concat A ++ t) u ->
  lost r \/ exists A1 A2, A = A1 ++ A2 /\ junk B [] (concat A2 ++ t) r.
Proof.
  induction 1 as [s|s r t S W IH]; intros A z HA Hz H.
  - right. exists [], A. auto.
  - destruct A as [|row A].
    + exfalso. apply stop_head in H as (c & x & -> & Hc); auto. apply step_head in S as (c' & s' & E & H1 & H2 & H3). injection E as -> _. tauto.
    + inversion HA; subst. cbn [concat] in H. rewrite <- app_assoc in H. destruct (row_step row _ _ _ H2 H S) as [J|L].
      * destruct (IH A z) as [L|(A1 & A2 & -> & J')]; auto. right. exists (row :: A1), A2. auto.
      * left. eapply lost_walk; eauto.
Qed.
Lemma stuck_here A t name rest : Forall is_row A -> Forall (fun r => ~ begins (lit "END:" ++ name) r) A -> stop t -> no_eol name ->
  ~ junk B [] (concat A ++ t) (lit "END:" ++ name ++ rest).
Proof.
  intros HA HN Ht Hn H. destruct A as [|row A].
  - apply stop_head in H as (c & x & E & Hc); auto. injection E as <- _. unfold CR in Hc. lia.
  - inversion HA; subst. inversion HN; subst. cbn [concat] in H. rewrite <- app_assoc in H.
    replace (lit "END:" ++ name ++ rest) with ((lit "END:" ++ name) ++ rest) in H by now rewrite <- app_assoc.
    destruct H2 as (n & m & v & X1 & X2 & X3 & X4 & ->).
    apply junk_plain in H as (L' & Q & _).
    + apply H4. clear H4. set (x := n ++ attr_text (params_attr m) ++ COLON :: v).
      assert (Er : logical_line n (params_attr m) v = x ++ [CR; LF]).
      { rewrite <- (app_nil_r (logical_line _ _ _)), row_eq. subst x. rewrite <- !app_assoc. reflexivity. }
      rewrite Er in *. clear Er. clearbody x. rewrite <- app_assoc in Q.
      assert (Z : ~ In CR (lit "END:" ++ name)). { intros X. apply in_app_iff in X as [X|X]; [cbn in X; unfold CR in X; intuition discriminate|]. now apply Hn in X. }
      revert Q Z. generalize (lit "END:" ++ name). clear. intros p. revert x. induction p as [|c p IH]; intros x Q Z; [now exists (x ++ [CR; LF])|].
      destruct x as [|d x]; cbn [app] in Q; injection Q as Q1 Q; subst; [exfalso; apply Z; now left|].
      destruct (IH x Q) as [r Hr]; [intros X; apply Z; now right|]. exists r. cbn [app]. now rewrite Hr.
    + intros X. apply in_app_iff in X as [X|X]; [cbn in X; unfold CR in X; intuition discriminate|]. now apply Hn in X.
    + rewrite row_eq. in_it.
Qed.
End Walk.

(** ** Rows hold no fold marker *)
Lemma row_shape row : is_row row -> exists c x, row = c :: x ++ [CR; LF] /\ no_eol (c :: x) /\ c <> SP.
Proof.
  intros (n & m & v & Hn & Hn0 & Hm & Hv & ->).
  assert (Er : logical_line n (params_attr m) v = (n ++ attr_text (params_attr m) ++ COLON :: v) ++ [CR; LF]).
  { rewrite <- (app_nil_r (logical_line _ _ _)), row_eq. rewrite <- !app_assoc. reflexivity. }
  assert (Ne : no_eol (n ++ attr_text (params_attr m) ++ COLON :: v)).
  { assert (K : forall k, key_text k -> no_eol k).
    { intros k Hk. unfold key_text in Hk. rewrite Forall_forall in Hk. split; intros X; apply Hk in X; unfold key_char, CR, LF in X; lia. }
    apply no_eol_app; auto. apply no_eol_app.
    - clear Er. rewrite attr_text_eq. destruct Hm as [_ Hm]. induction m as [|[k w] m IH]; cbn [map concat]; [split; intros []|].
      destruct (Hm k w (or_introl eq_refl)) as [H1 H2]. rewrite param_escape by (cbn; auto). cbn [fst snd].
      apply no_eol_app; [|apply IH; intros; apply Hm; now right]. apply no_eol_app; [split; intros [X|[]]; discriminate|].
      apply no_eol_app; [now apply K|]. apply no_eol_app; [split; intros [X|[]]; discriminate|]. destruct H2 as (_ & _ & _ & A & C & _). split; auto.
    - change (COLON :: v) with ([COLON] ++ v). apply no_eol_app; auto. split; intros [X|[]]; discriminate. }
  rewrite Er. destruct n as [|c n]; [congruence|]. cbn [app] in *. exists c, (n ++ attr_text (params_attr m) ++ COLON :: v). split; auto. split; auto.
  apply Forall_inv in Hn. unfold key_char, SP in *. lia.
Qed.
Lemma fold_past x rest : no_eol x -> not_continuation rest -> contains FOLD (x ++ [CR; LF] ++ rest) -> contains FOLD rest.
Proof.
  intros [H1 H2] Hr (a & b & E). revert a E. induction x as [|c x IH]; intros a E; cbn [app] in E.
  - destruct a as [|a0 a]; [unfold FOLD in E; cbn in E; injection E as ->; now destruct (Hr b)|]. cbn in E. injection E as <- E.
    destruct a as [|a1 a]; [unfold FOLD in E; cbn in E; discriminate|]. cbn in E. injection E as <- ->. now exists a, b.
  - destruct a as [|a0 a]; [unfold FOLD in E; cbn in E; injection E as -> _; exfalso; apply H1; now left|]. cbn in E. injection E as <- E.
    apply (IH ltac:(intros X; apply H1; now right) ltac:(intros X; apply H2; now right) a E).
Qed.
Lemma rows_no_fold A t : Forall is_row A -> stop t -> ~ contains FOLD (concat A ++ t) /\ not_continuation (concat A ++ t).
Proof.
  intros HA Ht. induction HA as [|row A Hr HA [IH1 IH2]]; cbn [concat app].
  - destruct Ht as [-> |(c & -> & H1 & H2 & H3)].
    + split; [|intros r E; discriminate]. intros (a & b & E). destruct a as [|x [|y a]]; discriminate.
    + split; [|intros r E; discriminate]. intros (a & b & E). destruct a as [|x [|y [|z a]]]; unfold FOLD in E; cbn in E; try discriminate.
      * injection E as -> _. auto.
      * apply (f_equal (@length Z)) in E. cbn in E. rewrite app_length in E. cbn in E. lia.
  - rewrite <- app_assoc. destruct (row_shape row Hr) as (c & x & -> & Hn & Hc). split.
    + intros X. apply IH1. change (c :: x ++ [CR; LF]) with ((c :: x) ++ [CR; LF]) in X. rewrite <- app_assoc in X. eapply fold_past; eauto.
    + intros r E. cbn in E. injection E as -> _. congruence.
Qed.
Lemma stop_sealed L t : stop t -> sealed (L ++ t).
Proof.
  intros [-> |(c & -> & H1 & H2 & H3)] a d E.
  - apply app_inj_tail in E as [_ <-]. unfold CR, LF. lia.
  - change [CR; LF; c] with ([CR; LF] ++ [c]) in E. rewrite app_assoc in E. apply app_inj_tail in E as [_ <-]. auto.
Qed.
(** [a] starts with the rows [A] and then a comma or an empty line. *)
Definition stuck (a : str) (A : list str) : Prop := Forall is_row A /\ exists t, stop t /\ junk anything [] (concat A ++ t) a.
(** [a] is the rows [A]. *)
Definition clean (a : str) (A : list str) : Prop := Forall is_row A /\ junk nothing [] (concat A) a.
Lemma stuck_never a A name rest : stuck a A -> Forall (fun r => ~ begins (lit "END:" ++ name) r) A -> no_eol name ->
  ~ walk (unfold_lines a) (lit "END:" ++ name ++ rest).
Proof.
  intros (HA & t & Ht & J) HN Hn W. destruct (rows_no_fold A t HA Ht) as [NF _].
  pose proof (junk_unfold [] _ a NF (stop_sealed _ _ Ht) J) as U.
  destruct (rows_walk _ _ _ W A t HA Ht U) as [(c & s & E & Hc)|(A1 & A2 & -> & J2)].
  - injection E as <- _. unfold SP, CR in Hc. lia.
  - apply Forall_app in HA as [_ HA]. apply Forall_app in HN as [_ HN]. exact (stuck_here _ A2 t name rest HA HN Ht Hn J2).
Qed.
Lemma clean_nil : clean [] [].
Proof. split; constructor. reflexivity. Qed.
Lemma clean_row row : is_row row -> clean row [row].
Proof. intros H. split; [auto|]. cbn [concat]. rewrite app_nil_r. rewrite <- (app_nil_r row) at 2. apply junk_self. reflexivity. Qed.
Lemma clean_app a b A Bs : clean a A -> clean b Bs -> clean (a ++ b) (A ++ Bs).
Proof. intros [H1 H2] [H3 H4]. split; [apply Forall_app; auto|]. rewrite concat_app. now apply junk_app. Qed.
Lemma clean_stuck a b A Bs : clean a A -> stuck b Bs -> stuck (a ++ b) (A ++ Bs).
Proof. intros [H1 H2] (H3 & t & Ht & H4). split; [apply Forall_app; auto|]. exists t. split; auto. rewrite concat_app, <- app_assoc. now apply junk_app. Qed.
Lemma stuck_more a b A : stuck a A -> stuck (a ++ b) A.
Proof. intros (H1 & t & Ht & H2). split; auto. exists t. split; auto. now apply junk_more. Qed.
Lemma clean_fold a b A : clean a A -> fold_line a = Ok b -> clean b A.
Proof. intros [H1 H2] F. split; auto. eapply junk_fold_line; [apply insert_nothing|eassumption|eassumption]. Qed.
Lemma stuck_fold a b A : stuck a A -> fold_line a = Ok b -> stuck b A.
Proof. intros (H1 & t & Ht & H2) F. split; auto. exists t. split; auto. eapply junk_fold_line; [apply insert_anything|eassumption|eassumption]. Qed.
Lemma stuck_comma a A r : clean a A -> stuck (a ++ 44 :: r) A.
Proof.
  intros [H1 H2]. split; auto. exists [44]. split; [now left|]. apply junk_app; auto. apply (junk_self anything [44] r). exact I.
Qed.
