(** * Folding and escaping against SpecText.v *)
From Verif Require Import Base Env Types Ser BaseFacts SpecText.

(** ** chunks *)
Lemma octets_blen s : octets s = Z.of_nat (blen s).
Proof.
  induction s as [|c s IH]; auto. unfold octets in *. cbn [fold_right blen]. rewrite IH. unfold utf8_len.
  repeat destruct (_ <? _); lia.
Qed.
Lemma chunks_fuel_spec n f s l : (0 < n)%nat -> (length s <= f)%nat ->
  chunks_fuel f n s = Some l ->
  concat l = s /\ Forall (fun c => (blen c <= n)%nat /\ c <> []) l /\
  (forall a b c, l = a ++ b :: c -> c <> [] -> blen b = n).
Proof.
  intros Hn. revert s l; induction f as [|f IH]; intros s l Hf H.
  - destruct s as [|x s]; [|cbn in Hf; lia]. cbn in H. inv H. cbn. repeat split; auto.
    intros a b c E. now destruct a.
  - cbn [chunks_fuel] in H. destruct s as [|x s]; [inv H; cbn; repeat split; auto; intros a b c E; now destruct a|].
    destruct (split_at _ (x :: s)) as [[a b]|] eqn:Hs; [|congruence].
    apply split_at_Some in Hs as [E Hb].
    destruct (chunks_fuel f n b) as [l'|] eqn:Hc; [|cbn in H; congruence]. cbn in H. inv H.
    assert (Ha : a <> []).
    { intros ->. cbn in Hb. pose proof (utf8_len_pos x). cbn [blen] in Hb. lia. }
    apply IH in Hc as (E' & Hl & Hlast).
    + rewrite E. cbn. rewrite E'. split; auto. split.
      * constructor; auto. split; auto. lia.
      * intros a0 b0 c0 H Hc0. destruct a0 as [|y a0].
        -- injection H as <- <-.
           assert (b <> []). { intros ->. destruct l'; auto. apply Forall_inv in Hl as [_ Hl]. cbn in E'. apply app_eq_nil in E' as [-> _]. auto. }
           assert (blen b <> 0)%nat by (intros Hz; apply blen_zero in Hz; auto).
           rewrite E, blen_app in Hb. lia.
        -- injection H as <- ->. eapply Hlast; eauto.
    + apply (f_equal (@length Z)) in E. rewrite app_length in E. cbn in E, Hf.
      destruct a; [congruence|]. cbn in E. lia.
Qed.
Lemma join_folded l : join (CRLF ++ [32]) l = folded l.
Proof. induction l as [|a l IH]; auto. destruct l; auto. cbn [join folded]. cbn [join folded] in IH. now rewrite IH. Qed.

(** ** unfold *)
Lemma unfold_skip s : unfold_lines (FOLD ++ s) = unfold_lines s.
Proof. reflexivity. Qed.
Lemma unfold_step c r : (forall s, c :: r <> FOLD ++ s) -> unfold_lines (c :: r) = c :: unfold_lines r.
Proof.
  intros H. cbn [unfold_lines]. destruct r as [|c1 [|c2 r]]; auto.
  destruct ((c =? CR) && (c1 =? LF) && (c2 =? 32)) eqn:E; auto. bool_hyps. subst. exfalso. now apply (H r).
Qed.
Lemma unfold_app a b : ~ contains FOLD (a ++ b) ->
  unfold_lines (a ++ b) = a ++ b.
Proof.
  generalize (a ++ b). clear a b. induction l as [|c r IH]; auto. intros H.
  rewrite unfold_step.
  - f_equal. apply IH. intros (x & y & ->). apply H. now exists (c :: x), y.
  - intros s E. apply H. exists [], s. auto.
Qed.
Lemma unfold_id s : ~ contains FOLD s -> unfold_lines s = s.
Proof. intros H. rewrite <- (app_nil_r s) in H |- *. now apply unfold_app. Qed.
Lemma unfold_prefix a s : ~ contains FOLD a -> unfold_lines (a ++ FOLD ++ s) = a ++ unfold_lines s.
Proof.
  induction a as [|c a IH]; intros H; [apply unfold_skip|]. cbn [app].
  rewrite unfold_step.
  - f_equal. apply IH. intros (x & y & ->). apply H. now exists (c :: x), y.
  - intros r E. apply H. unfold FOLD in *. cbn in E.
    destruct a as [|c1 [|c2 a]]; cbn in E; unfold CR, LF, SP in *; try (injection E; intros; congruence).
    injection E as -> -> -> E. now exists [], a.
Qed.
Lemma contains_app_l p a b : contains p a -> contains p (a ++ b).
Proof. intros (x & y & ->). exists x, (y ++ b). now rewrite <- !app_assoc. Qed.
Lemma contains_app_r p a b : contains p b -> contains p (a ++ b).
Proof. intros (x & y & ->). exists (a ++ x), y. now rewrite <- !app_assoc. Qed.
Lemma unfold_folded l : ~ contains FOLD (concat l) -> unfold_lines (folded l) = concat l.
Proof.
  induction l as [|a l IH]; auto. intros H. destruct l as [|b l].
  - cbn in *. rewrite app_nil_r in *. now apply unfold_id.
  - change (folded (a :: b :: l)) with (a ++ FOLD ++ folded (b :: l)).
    rewrite unfold_prefix by (intros G; apply H; now apply contains_app_l).
    rewrite IH; auto. intros G. apply H. cbn. now apply contains_app_r.
Qed.
(** What follows does not interfere unless it starts with a space or continues a
    cut CR LF. *)
Lemma unfold_then s t : ~ contains FOLD s -> (exists x, s = x ++ [LF]) ->
  (forall r, t <> SP :: r) -> unfold_lines (s ++ t) = s ++ unfold_lines t.
Proof.
  intros H [x ->] Ht. rewrite <- app_assoc. cbn [app].
  induction x as [|c x IH].
  - cbn [app]. apply unfold_step. intros r E. injection E. unfold LF, CR. congruence.
  - cbn [app]. rewrite unfold_step.
    + f_equal. apply IH. intros (a & b & E). apply H. exists (c :: a), b. cbn [app]. now rewrite E.
    + intros r E. destruct x as [|c1 [|c2 x]]; cbn in E; unfold FOLD in E; cbn in E.
      * injection E as -> E. now apply Ht in E.
      * injection E as -> -> E. discriminate.
      * injection E as -> -> -> _. apply H. exists [], (x ++ [LF]). reflexivity.
Qed.
Lemma unfold_folded_then l t : ~ contains FOLD (concat l) -> (exists x, concat l = x ++ [LF]) -> ~ In [] l ->
  (forall r, t <> SP :: r) -> unfold_lines (folded l ++ t) = concat l ++ unfold_lines t.
Proof.
  induction l as [|a l IH]; intros H He Hn Ht.
  - destruct He as [x E]. now destruct x.
  - destruct l as [|b l].
    + cbn in *. rewrite app_nil_r in *. now apply unfold_then.
    + change (folded (a :: b :: l)) with (a ++ FOLD ++ folded (b :: l)). rewrite <- !app_assoc.
      rewrite unfold_prefix by (intros G; apply H; now apply contains_app_l).
      rewrite IH; auto.
      * cbn [concat]. now rewrite <- !app_assoc.
      * intros G. apply H. cbn. now apply contains_app_r.
      * destruct He as [x E].
        assert (Nb : concat (b :: l) <> []). { intros Z. cbn in Z. apply app_eq_nil in Z as [-> _]. apply Hn. cbn; auto. }
        destruct (exists_last Nb) as (y & z & Ey). exists y. rewrite Ey. f_equal. f_equal.
        change (concat (a :: b :: l)) with (a ++ concat (b :: l)) in E. rewrite Ey, app_assoc in E.
        now apply app_inj_tail in E.
      * intros G. apply Hn. cbn in *; tauto.
Qed.

Lemma chunks_spec n s l : (0 < n)%nat -> chunks n s = Some l ->
  concat l = s /\ Forall (fun c => (blen c <= n)%nat /\ c <> []) l /\
  (forall a b c, l = a ++ b :: c -> c <> [] -> blen b = n).
Proof. intros. eapply chunks_fuel_spec; eauto. Qed.

(** [fold_line] cuts the line into pieces of 75 octets. *)
Lemma fold_line_spec s out : fold_line s = Ok out ->
  exists l, out = folded l /\ concat l = s /\ ~ In [] l /\ Forall (fun c => octets c <= 75) l /\
  (forall a b c, l = a ++ b :: c -> c <> [] -> octets b = 75) /\
  (octets s <= 75 -> out = s).
Proof.
  unfold fold_line. destruct (Nat.ltb_spec 75 (blen s)) as [Hl|Hl].
  - destruct (chunks 75 s) as [l|] eqn:H; [|congruence]. intros [= <-].
    apply chunks_spec in H as (E & Hf & Hb); [|lia]. exists l. rewrite join_folded.
    split; auto. split; auto. split; [|split; [|split]].
    + intros Hin. rewrite Forall_forall in Hf. now apply Hf in Hin.
    + eapply Forall_impl; [|exact Hf]. cbn. intros a [Ha _]. rewrite octets_blen. lia.
    + intros a b c El Hc. rewrite octets_blen, (Hb a b c El Hc). lia.
    + rewrite octets_blen. lia.
  - intros [= <-]. destruct s as [|c s].
    + exists []. repeat split; auto. intros a b c E. now destruct a.
    + exists [c :: s]. cbn [folded concat]. rewrite app_nil_r. split; auto. split; auto. split; [|split; [|split]]; auto.
      * intros [H|[]]. congruence.
      * constructor; auto. rewrite octets_blen. lia.
      * intros a b c0 E Hc. destruct a as [|? [|? a]]; cbn in E; inv E; congruence.
Qed.

(** ** Panics of folding *)
Lemma boundary_0 s : char_boundary s 0.
Proof. now exists [], s. Qed.
Lemma octets_app a b : octets (a ++ b) = octets a + octets b.
Proof. rewrite !octets_blen, blen_app. lia. Qed.
Lemma octets_nonneg s : 0 <= octets s.
Proof. rewrite octets_blen. lia. Qed.
Lemma app_cut a b c d : a ++ b = c ++ d -> octets a <= octets c -> exists e, c = a ++ e /\ b = e ++ d.
Proof.
  revert c; induction a as [|x a IH]; intros c E H; [now exists c|].
  destruct c as [|y c].
  - rewrite octets_blen in H. cbn [blen] in H. pose proof (utf8_len_pos x). change (octets []) with 0 in H. lia.
  - injection E as -> E. rewrite !octets_blen in H. cbn [blen] in H.
    destruct (IH c E) as (e & -> & ->); [rewrite !octets_blen; lia|]. now exists e.
Qed.
Lemma boundary_split a b n : char_boundary (a ++ b) n -> octets a <= n -> char_boundary b (n - octets a).
Proof.
  intros (x & y & E & Hn) H. destruct (app_cut a b x y E ltac:(lia)) as (e & -> & ->).
  exists e, y. split; auto. rewrite octets_app in Hn. lia.
Qed.
Lemma boundary_join a b n : char_boundary b n -> char_boundary (a ++ b) (octets a + n).
Proof. intros (x & y & -> & <-). exists (a ++ x), y. rewrite octets_app, app_assoc. auto. Qed.
Lemma chunks_fuel_iff f s : (length s <= f)%nat ->
  (chunks_fuel f 75 s <> None <-> forall k, 0 <= k -> 75 * k < octets s -> char_boundary s (75 * k)).
Proof.
  revert s; induction f as [|f IH]; intros s Hf.
  - destruct s; [|cbn in Hf; lia]. split; [|cbn; congruence]. intros _ k Hk Hlt. change (octets []) with 0 in Hlt. lia.
  - cbn [chunks_fuel]. destruct s as [|x s']; [split; [|congruence]; intros _ k Hk Hlt; change (octets []) with 0 in Hlt; lia|].
    set (s := x :: s') in *.
    assert (Hpos : 0 < octets s) by (rewrite octets_blen; subst s; cbn [blen]; pose proof (utf8_len_pos x); lia).
    destruct (split_at (Nat.min 75 (blen s)) s) as [[a b]|] eqn:Hs.
    + apply split_at_Some in Hs as [E Hb].
      assert (Hlen : (length b <= f)%nat).
      { assert (a <> []) by (intros ->; change (blen []) with 0%nat in Hb; rewrite octets_blen in Hpos; lia).
        apply (f_equal (@length Z)) in E. rewrite app_length in E. destruct a; [congruence|]. cbn in E, Hf. lia. }
      specialize (IH b Hlen).
      assert (Hopt : option_map (cons a) (chunks_fuel f 75 b) <> None <-> chunks_fuel f 75 b <> None).
      { destruct (chunks_fuel f 75 b); cbn; split; congruence. }
      rewrite Hopt, IH. clear Hopt IH. split.
      * intros H k Hk Hlt. destruct (Z.eq_dec k 0) as [->|]; [apply boundary_0|].
        rewrite E in Hlt |- *. rewrite octets_app in Hlt.
        assert (Ha : octets a = 75). { rewrite octets_blen, Hb. rewrite E, blen_app in *. pose proof (octets_blen a). pose proof (octets_blen b). lia. }
        replace (75 * k) with (octets a + 75 * (k - 1)) by lia. apply boundary_join. apply H; lia.
      * intros H k Hk Hlt.
        assert (Ha : octets a = 75). { rewrite octets_blen, Hb. rewrite E, blen_app in *. pose proof (octets_blen b). lia. }
        specialize (H (k + 1) ltac:(lia)). rewrite E, octets_app in H. specialize (H ltac:(lia)).
        apply boundary_split in H; [|lia]. rewrite Ha in H. replace (75 * (k + 1) - 75) with (75 * k) in H by lia. auto.
    + split; [congruence|]. intros H. exfalso.
      destruct (Nat.le_gt_cases (blen s) 75) as [L|L].
      * rewrite Nat.min_r in Hs by lia. assert (G : split_at (blen s) s = Some (s, [])); [|congruence].
        apply split_at_Some. now rewrite app_nil_r.
      * rewrite Nat.min_l in Hs by lia. destruct (H 1 ltac:(lia)) as (a & b & E & Ho); [rewrite octets_blen; lia|].
        assert (G : split_at 75 s = Some (a, b)); [|congruence].
        apply split_at_Some. split; auto. rewrite octets_blen in Ho. lia.
Qed.
Lemma fold_line_panics s :
  fold_line s = Panic <-> octets s > 75 /\ exists k, 0 <= k /\ 75 * k < octets s /\ ~ char_boundary s (75 * k).
Proof.
  unfold fold_line. destruct (Nat.ltb_spec 75 (blen s)) as [L|L].
  - pose proof (chunks_fuel_iff (length s) s ltac:(lia)) as H. unfold chunks.
    destruct (chunks_fuel (length s) 75 s) as [l|].
    + split; [congruence|]. intros [_ (k & Hk & Hlt & Hb)]. exfalso. apply Hb. apply H; auto. congruence.
    + split; [intros _|auto]. split; [rewrite octets_blen; lia|].
      (* the failing cut is found by searching the multiples below the length *)
      assert (D : forall k, 0 <= k -> {char_boundary s (75 * k)} + {~ char_boundary s (75 * k)}).
      { intros k Hk. destruct (split_at (Z.to_nat (75 * k)) s) as [[a b]|] eqn:E.
        - left. apply split_at_Some in E as [-> E]. exists a, b. rewrite octets_blen. split; auto. lia.
        - right. intros (a & b & -> & Ho). assert (split_at (Z.to_nat (75 * k)) (a ++ b) = Some (a, b)); [|congruence].
          apply split_at_Some. split; auto. rewrite octets_blen in Ho. lia. }
      assert (S : forall n : nat, (exists k, 0 <= k < Z.of_nat n /\ ~ char_boundary s (75 * k)) \/
                      forall k, 0 <= k < Z.of_nat n -> char_boundary s (75 * k)).
      { induction n as [|n [IH|IH]].
        - right. lia.
        - left. destruct IH as (k & Hk & Hb). exists k. split; auto. lia.
        - destruct (D (Z.of_nat n) ltac:(lia)).
          + right. intros k Hk. destruct (Z.eq_dec k (Z.of_nat n)) as [->|]; auto. apply IH. lia.
          + left. exists (Z.of_nat n). split; auto. lia. }
      destruct (S (Z.to_nat ((octets s + 74) / 75))) as [(k & Hk & Hb)|Hall].
      * exists k. split; [lia|]. split; auto. pose proof (octets_nonneg s).
        rewrite Z2Nat.id in Hk by (apply Z.div_pos; lia).
        pose proof (Z.mul_div_le (octets s + 74) 75 ltac:(lia)). lia.
      * exfalso. apply (proj2 H); auto. intros k Hk Hlt. apply Hall. split; auto.
        pose proof (octets_nonneg s). rewrite Z2Nat.id by (apply Z.div_pos; lia).
        pose proof (Z.div_mod (octets s + 74) 75 ltac:(lia)). pose proof (Z.mod_pos_bound (octets s + 74) 75 ltac:(lia)). lia.
  - split; [congruence|]. intros [H _]. rewrite octets_blen in H. lia.
Qed.
Lemma fold_line_no_err s e : fold_line s <> Err e.
Proof. unfold fold_line. destruct (_ <? _)%nat; [destruct chunks|]; congruence. Qed.
Lemma ascii_octets s : ascii s -> octets s = Z.of_nat (length s).
Proof.
  unfold ascii, octets. induction 1 as [|c s Hc H IH]; auto. cbn [fold_right length]. rewrite IH.
  destruct (Z.ltb_spec c 128); lia.
Qed.
Lemma ascii_boundary s n : ascii s -> 0 <= n <= octets s -> char_boundary s n.
Proof.
  intros H Hn. exists (firstn (Z.to_nat n) s), (skipn (Z.to_nat n) s). rewrite firstn_skipn. split; auto.
  rewrite ascii_octets in Hn by auto. rewrite ascii_octets.
  - rewrite firstn_length. lia.
  - unfold ascii in *. rewrite <- (firstn_skipn (Z.to_nat n) s), Forall_app in H. tauto.
Qed.
Lemma fold_line_ascii s : ascii s -> exists out, fold_line s = Ok out.
Proof.
  intros H. destruct (fold_line s) as [o|e|] eqn:E; eauto.
  - now apply fold_line_no_err in E.
  - apply fold_line_panics in E as (_ & k & Hk & Hlt & Hb). exfalso. apply Hb. apply ascii_boundary; auto. lia.
Qed.

(** ** escape *)
Lemma escape_map s : escape s = flat_map escaped_char s.
Proof.
  unfold escape. induction s as [|c s IH]; auto.
  change (c :: s) with ([c] ++ s). rewrite !replace_char_app, IH, flat_map_app. f_equal. clear.
  unfold escaped_char. cbn [replace_char flat_map app].
  destruct (Z.eqb_spec c 59) as [->|H1]; [reflexivity|]. cbn [app replace_char flat_map].
  destruct (Z.eqb_spec c 44) as [->|H2]; [reflexivity|]. cbn [app replace_char flat_map].
  change LF with 10. destruct (Z.eqb_spec c 10) as [->|H3]; reflexivity.
Qed.
Lemma escape_app a b : escape (a ++ b) = escape a ++ escape b.
Proof. rewrite !escape_map. apply flat_map_app. Qed.
Lemma escaped_char_cases c :
  c = 59 /\ escaped_char c = [BACKSLASH; 59] \/ c = 44 /\ escaped_char c = [BACKSLASH; 44] \/
  c = LF /\ escaped_char c = [BACKSLASH; 110] \/ c <> 59 /\ c <> 44 /\ c <> LF /\ escaped_char c = [c].
Proof.
  unfold escaped_char. destruct (Z.eqb_spec c 59); [auto|]. destruct (Z.eqb_spec c 44); [auto|].
  destruct (Z.eqb_spec c LF); [auto|]. tauto.
Qed.
Lemma escape_plain s : plain_text s -> escape s = s.
Proof.
  rewrite escape_map. induction s as [|c s IH]; auto. intros (H1 & H2 & H3). cbn [flat_map].
  rewrite IH by (unfold plain_text in *; cbn in *; tauto).
  destruct (escaped_char_cases c) as [[-> _]|[[-> _]|[[-> _]|(_ & _ & _ & ->)]]]; auto; cbn in *; tauto.
Qed.
Lemma escape_no_LF s : ~ In LF (escape s).
Proof.
  rewrite escape_map. intros H. apply in_flat_map in H as (c & _ & H).
  destruct (escaped_char_cases c) as [[-> E]|[[-> E]|[[-> E]|(_ & _ & Hn & E)]]]; rewrite E in H; unfold BACKSLASH, LF in *; cbn in H; intuition lia.
Qed.
Lemma escape_CR s : In CR (escape s) <-> In CR s.
Proof.
  rewrite escape_map, in_flat_map. split.
  - intros (c & Hc & H). destruct (escaped_char_cases c) as [[-> E]|[[-> E]|[[-> E]|(_ & _ & Hn & E)]]]; rewrite E in H; unfold BACKSLASH, LF, CR in *; cbn in H; intuition (subst; auto; lia).
  - intros H. exists CR. split; auto. unfold escaped_char, CR, LF. cbn. auto.
Qed.
Lemma escape_well s : well_escaped (escape s).
Proof.
  split; [apply escape_no_LF|]. rewrite escape_map.
  induction s as [|x s IH]; intros a c b E Hc; [now destruct a|].
  cbn [flat_map] in E.
  destruct (escaped_char_cases x) as [[-> Ex]|[[-> Ex]|[[-> Ex]|(H1 & H2 & Hn & Ex)]]]; rewrite Ex in E; cbn [app] in E.
  - destruct a as [|a1 [|a2 a]]; cbn in E; injection E; intros; subst; unfold BACKSLASH in *; try lia.
    + now exists [].
    + destruct (IH _ _ _ H Hc) as [a' ->]. exists (92 :: 59 :: a'). auto.
  - destruct a as [|a1 [|a2 a]]; cbn in E; injection E; intros; subst; unfold BACKSLASH in *; try lia.
    + now exists [].
    + destruct (IH _ _ _ H Hc) as [a' ->]. exists (92 :: 44 :: a'). auto.
  - destruct a as [|a1 [|a2 a]]; cbn in E; injection E; intros; subst; unfold BACKSLASH in *; try lia.
    destruct (IH _ _ _ H Hc) as [a' ->]. exists (92 :: 110 :: a'). auto.
  - destruct a as [|a1 a]; cbn in E; injection E; intros; subst; unfold BACKSLASH in *; try lia.
    destruct (IH _ _ _ H Hc) as [a' ->]. exists (a1 :: a'). auto.
Qed.
Lemma escape_decode s : ~ In BACKSLASH s -> rfc_decode (escape s) = s.
Proof.
  rewrite escape_map. induction s as [|c s IH]; auto. intros H. cbn [flat_map].
  assert (Hs : ~ In BACKSLASH s) by (cbn in H; tauto).
  destruct (escaped_char_cases c) as [[-> E]|[[-> E]|[[-> E]|(_ & _ & Hn & E)]]]; rewrite E; cbn [app].
  - cbn. now rewrite IH.
  - cbn. now rewrite IH.
  - cbn. now rewrite IH.
  - cbn [rfc_decode]. destruct (Z.eqb_spec c BACKSLASH); [subst; cbn in H; tauto|]. now rewrite IH.
Qed.
(** Escaped texts grow. *)
Definition specials (s : str) : nat := length (filter (fun c => (c =? 59) || (c =? 44)) s).
Definition lfs (s : str) : nat := length (filter (fun c => c =? LF) s).
Lemma escape_length s : length (escape s) = (length s + specials s + lfs s)%nat.
Proof.
  rewrite escape_map. induction s as [|c s IH]; auto. cbn [flat_map]. rewrite app_length, IH.
  unfold specials, lfs. cbn [filter]. unfold escaped_char.
  destruct (Z.eqb_spec c 59) as [->|]; [cbn; lia|]. destruct (Z.eqb_spec c 44) as [->|]; [cbn; lia|].
  destruct (Z.eqb_spec c LF) as [->|]; cbn; lia.
Qed.
Lemma escape_specials s : specials (escape s) = specials s.
Proof.
  rewrite escape_map. unfold specials. induction s as [|c s IH]; auto. cbn [flat_map]. rewrite filter_app, app_length, IH.
  cbn [filter]. unfold escaped_char.
  destruct (Z.eqb_spec c 59) as [->|]; [cbn; lia|]. destruct (Z.eqb_spec c 44) as [->|]; [cbn; lia|].
  destruct (Z.eqb_spec c LF) as [->|]; [cbn; lia|].
  cbn. destruct (Z.eqb_spec c 59); [lia|]. destruct (Z.eqb_spec c 44); [lia|]. cbn. lia.
Qed.
Lemma specials_0 s : specials s = 0%nat <-> ~ In 59 s /\ ~ In 44 s.
Proof.
  unfold specials. induction s as [|c s IH]; [cbn; tauto|]. cbn [filter].
  destruct (Z.eqb_spec c 59) as [->|]; cbn [orb length].
  - split; [lia|]. intros [H _]. cbn in H. tauto.
  - destruct (Z.eqb_spec c 44) as [->|]; cbn [length].
    + split; [lia|]. intros [_ H]. cbn in H. tauto.
    + rewrite IH. cbn. split; intros [H1 H2]; split; tauto.
Qed.
Lemma lfs_0 s : lfs s = 0%nat <-> ~ In LF s.
Proof.
  unfold lfs. induction s as [|c s IH]; [cbn; tauto|]. cbn [filter].
  destruct (Z.eqb_spec c LF) as [->|]; cbn [length].
  - split; [lia|]. intros H. cbn in H. tauto.
  - rewrite IH. cbn. tauto.
Qed.
Lemma escape_fix s : escape s = s <-> plain_text s.
Proof.
  split; [|apply escape_plain]. intros E. apply (f_equal (@length Z)) in E. rewrite escape_length in E.
  unfold plain_text. assert (specials s = 0)%nat by lia. assert (lfs s = 0)%nat by lia.
  apply specials_0 in H as []. apply lfs_0 in H0. auto.
Qed.
