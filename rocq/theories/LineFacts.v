(** * The content-line parser against SpecLine.v *)
From Verif Require Import Base Nom Types Parser Ser BaseFacts NomFacts SpecLine.

Lemma key_char_iff c : is_alphanumeric c = true <-> key_char c.
Proof.
  unfold is_alphanumeric, is_alpha, is_digit, key_char.
  rewrite !orb_true_iff, !andb_true_iff, !Z.leb_le, !Z.eqb_eq. lia.
Qed.
Lemma key_text_iff k : all_of is_alphanumeric k <-> key_text k.
Proof.
  unfold all_of, key_text. rewrite Forall_forall. split; intros H c Hc; apply key_char_iff; auto.
Qed.
Lemma key_stop c s : ~ key_char c -> stops is_alphanumeric (c :: s).
Proof. intros H. cbn. destruct (is_alphanumeric c) eqn:E; auto. now apply key_char_iff in E. Qed.
Lemma p_key_app k c s : key_text k -> ~ key_char c -> p_key (k ++ c :: s) = POk (c :: s) k.
Proof. intros. apply take_while_app; [now apply key_text_iff|now apply key_stop]. Qed.
Lemma not_key_colon : ~ key_char COLON. Proof. unfold key_char, COLON. lia. Qed.
Lemma not_key_semi : ~ key_char SEMI. Proof. unfold key_char, SEMI. lia. Qed.
Lemma not_key_equals : ~ key_char EQUALS. Proof. unfold key_char, EQUALS. lia. Qed.

Lemma tails_param : tails p_param.
Proof. unfold p_param, delimited, preceded, separated_pair, p_quoted_param, p_key, p_attr, preceded. eauto 20 with nom. Qed.
Lemma calm_param : calm p_param.
Proof. unfold p_param, delimited, preceded, separated_pair, p_quoted_param, p_key, p_attr, preceded. eauto 20 with nom. Qed.

(** One parameter. *)
Definition quoted_at (s : str) (k v r : str) : Prop :=
  s = SEMI :: k ++ [EQUALS; QUOTE] ++ v ++ [QUOTE] ++ r /\ key_text k /\ ~ In QUOTE v.
Definition plain_at (s : str) (k v r : str) : Prop :=
  exists f, s = SEMI :: k ++ [EQUALS] ++ f ++ v ++ r /\ key_text k /\ ~ In SEMI v /\ ~ In COLON v /\
  (f = [] /\ ~ begins [CR; LF; SPACE] (v ++ r) \/ f = [CR; LF; SPACE]) /\ ~ quoted_start (f ++ v ++ r) /\
  match r with c :: _ => c = SEMI \/ c = COLON | [] => True end.

Lemma quoted_POk s r k v :
  delimited (pchar 59) p_quoted_param (pchar 34) s = POk r (k, v) <-> quoted_at s k v r.
Proof.
  unfold quoted_at, delimited, p_quoted_param, separated_pair. split.
  - intros H. rewrite pbind_POk in H. destruct H as (r1 & c & H1 & H). apply pchar_POk in H1 as [-> _].
    rewrite pbind_POk in H. destruct H as (r2 & kv & H2 & H).
    rewrite pbind_POk in H2. destruct H2 as (r3 & k' & H3 & H2). apply take_while_POk in H3 as (-> & Hk & _).
    rewrite pbind_POk in H2. destruct H2 as (r4 & t & H4 & H2). apply tag_POk in H4 as [-> _].
    rewrite pbind_POk in H2. destruct H2 as (r5 & v' & H5 & H2). apply take_till_POk in H5 as (-> & Hv & _).
    apply pret_POk in H2 as [-> ->].
    rewrite pbind_POk in H. destruct H as (r6 & q & H6 & H). apply pchar_POk in H6 as [-> _].
    apply pret_POk in H as [-> E]. inv E.
    split; [|split].
    + cbn. now rewrite <- ?app_assoc.
    + now apply key_text_iff.
    + intros Hq. apply Hv in Hq. discriminate.
  - intros (-> & Hk & Hv). rewrite pbind_POk. eexists _, _. split; [apply pchar_cons|].
    rewrite pbind_POk. eexists _, (k, v). split.
    + rewrite pbind_POk. eexists _, _. split; [apply p_key_app; auto using not_key_equals|].
      rewrite pbind_POk. eexists _, _. split; [apply (tag_app [61; 34])|].
      rewrite pbind_POk. eexists (QUOTE :: r), v. split; [|now apply pret_POk].
      apply take_till_POk. split; [auto|]. split; [|reflexivity].
      intros c Hc. apply Z.eqb_neq. intros ->. auto.
    + rewrite pbind_POk. eexists _, _. split; [apply pchar_cons|]. now apply pret_POk.
Qed.
Lemma attr_POk s r v : p_attr s = POk r v <->
  exists f, s = f ++ v ++ r /\ ~ In SEMI v /\ ~ In COLON v /\
  (f = [] /\ ~ begins [CR; LF; SPACE] (v ++ r) \/ f = [CR; LF; SPACE]) /\
  match r with c :: _ => c = SEMI \/ c = COLON | [] => True end.
Proof.
  unfold p_attr, preceded. rewrite pbind_POk.
  assert (T : forall s r v, take_till (fun c => (c =? 59) || (c =? 58)) s = POk r v <->
    s = v ++ r /\ ~ In SEMI v /\ ~ In COLON v /\ match r with c :: _ => c = SEMI \/ c = COLON | [] => True end).
  { clear. intros s r v. rewrite take_till_POk. split.
    - intros (-> & Hv & Hr). repeat split; auto.
      + intros H. apply Hv in H. discriminate.
      + intros H. apply Hv in H. discriminate.
      + destruct r; auto. apply orb_true_iff in Hr. rewrite !Z.eqb_eq in Hr. auto.
    - intros (-> & H1 & H2 & Hr). repeat split; auto.
      + intros c Hc. apply orb_false_iff. rewrite !Z.eqb_neq. split; intros ->; auto.
      + destruct r; auto. apply orb_true_iff. rewrite !Z.eqb_eq. auto. }
  unfold popt. destruct (tag (CRLF ++ [32]) s) as [r0 a0| |] eqn:Ht.
  - apply tag_POk in Ht as [-> ->]. split.
    + intros (? & ? & [= <- <-] & H). apply T in H as (-> & H1 & H2 & Hr).
      exists [CR; LF; SPACE]. repeat split; auto.
    + intros (f & E & H1 & H2 & Hf & Hr). eexists _, _. split; [reflexivity|]. apply T.
      destruct Hf as [[-> Hf]| ->].
      * exfalso. apply Hf. cbn in E. rewrite <- E. now exists r0.
      * cbn in E. injection E as ->. auto.
  - split.
    + intros (? & ? & [= <- <-] & H). apply T in H as (-> & H1 & H2 & Hr).
      exists []. repeat split; auto. left. split; auto. intros [x Hx].
      apply (proj1 (tag_PErr _ _) Ht x Hx).
    + intros (f & E & H1 & H2 & Hf & Hr). eexists _, _. split; [reflexivity|]. apply T.
      destruct Hf as [[-> Hf]| ->]; [auto|]. exfalso. subst s.
      apply (proj1 (tag_PErr _ _) Ht (v ++ r)). reflexivity.
  - now apply calm_tag in Ht.
Qed.
Lemma key_unique k1 k2 s1 s2 : key_text k1 -> key_text k2 -> k1 ++ EQUALS :: s1 = k2 ++ EQUALS :: s2 -> k1 = k2 /\ s1 = s2.
Proof.
  intros H1 H2 E. pose proof (p_key_app k1 EQUALS s1 H1 not_key_equals) as P1.
  rewrite E, (p_key_app k2 EQUALS s2 H2 not_key_equals) in P1. injection P1 as -> ->. auto.
Qed.
Lemma param_POk s r k v : p_param s = POk r (k, v) <-> quoted_at s k v r \/ plain_at s k v r.
Proof.
  unfold p_param, palt.
  destruct (delimited (pchar 59) p_quoted_param (pchar 34) s) as [r0 [k0 v0]| |] eqn:Hq.
  - split.
    + intros E. rewrite E in Hq. left. now apply quoted_POk.
    + intros [H|(f & -> & Hk & H1 & H2 & Hf & Hn & Hr)].
      * apply quoted_POk in H. congruence.
      * exfalso. apply Hn. apply quoted_POk in Hq as (E & Hk0 & Hv0).
        injection E as E. cbn [app] in E. apply (key_unique k k0) in E as [-> E]; auto.
        rewrite E. now exists v0, r0.
  - unfold preceded, separated_pair. rewrite pbind_POk. split.
    + intros (r1 & c & H1 & H). apply pchar_POk in H1 as [-> _]. right.
      rewrite pbind_POk in H. destruct H as (r3 & k' & H3 & H). apply take_while_POk in H3 as (-> & Hk & _).
      rewrite pbind_POk in H. destruct H as (r4 & t & H4 & H). apply pchar_POk in H4 as [-> _].
      rewrite pbind_POk in H. destruct H as (r5 & v' & H5 & H). apply pret_POk in H as [-> E]. inv E.
      apply attr_POk in H5 as (f & -> & H1 & H2 & Hf & Hr). apply key_text_iff in Hk.
      exists f. repeat split; auto. intros (w & x & E).
      assert (C : forall w x, w ++ QUOTE :: x = w ++ QUOTE :: x -> exists w' x', ~ In QUOTE w' /\ w ++ QUOTE :: x = w' ++ QUOTE :: x').
      { clear. induction w as [|c w IH]; intros x _; [exists [], x; auto|].
        destruct (Z.eq_dec c QUOTE) as [->|Hc]; [exists [], (w ++ QUOTE :: x); cbn; auto|].
        destruct (IH x eq_refl) as (w' & x' & Hw & E). exists (c :: w'), x'. split; [cbn; intuition|]. cbn. now rewrite E. }
      destruct (C w x eq_refl) as (w' & x' & Hw & E'). rewrite E' in E.
      assert (Q : quoted_at (59 :: k' ++ 61 :: f ++ v' ++ r5) k' w' x').
      { unfold quoted_at. split; auto. cbn. now rewrite E. }
      apply quoted_POk in Q. congruence.
    + intros [H|(f & -> & Hk & H1 & H2 & Hf & Hn & Hr)].
      * apply quoted_POk in H. congruence.
      * eexists _, _. split; [apply pchar_cons|].
        rewrite pbind_POk. eexists _, _. split; [apply p_key_app; auto using not_key_equals|].
        rewrite pbind_POk. eexists _, _. split; [apply pchar_cons|].
        rewrite pbind_POk. eexists _, _. split; [|now apply pret_POk].
        apply attr_POk. exists f. repeat split; auto.
  - exfalso. eapply (calm_bind (pchar 59)); [eauto with nom| |exact Hq].
    intros. unfold p_quoted_param, separated_pair, p_key. eauto 20 with nom.
Qed.
Lemma param_PErr s : (forall r, s <> SEMI :: r) -> p_param s = PErr.
Proof.
  intros H. destruct (p_param s) as [r [k v]| |] eqn:E; auto.
  - apply param_POk in E as [[-> _]|(f & -> & _)]; now exfalso; eapply H.
  - now apply calm_param in E.
Qed.
Lemma params_run_read s l r rest : many_run p_param s l r -> r = COLON :: rest -> params_read s l rest.
Proof.
  induction 1 as [s Hs|s r1 [k v] l r' Hs Hl H IH]; intros ->; [constructor|].
  apply param_POk in Hs as [(-> & Hk & Hv)|(f & -> & Hk & H1 & H2 & Hf & Hn & Hr)].
  - now apply pr_quoted; auto.
  - apply pr_plain; auto.
Qed.
Lemma params_read_head t l rest : params_read t l rest ->
  (exists x, t = COLON :: x) \/ (exists x, t = SEMI :: x).
Proof. destruct 1; eauto. Qed.
Lemma params_read_run t l rest : params_read t l rest -> many_run p_param t l (COLON :: rest).
Proof.
  induction 1 as [rest|k v t l rest Hk Hv H IH|k f v t l rest Hk H1 H2 Hf Hn H IH].
  - constructor. apply param_PErr. intros r. unfold COLON, SEMI. congruence.
  - eapply mr_cons; [apply param_POk; left; repeat split; auto| |exact IH].
    cbn. rewrite !app_length. cbn. rewrite app_length. cbn. lia.
  - eapply mr_cons; [apply param_POk; right; exists f; repeat split; eauto| |exact IH].
    + apply params_read_head in H as [[x ->]|[x ->]]; auto.
    + cbn. rewrite !app_length. cbn. rewrite !app_length. lia.
Qed.
Definition map_of {V} (l : list (str * V)) : smap V := fold_left (fun acc kv => minsert (fst kv) (snd kv) acc) l [].
Lemma map_of_gen {V} (l : list (str * V)) m n :
  mget n (fold_left (fun acc kv => minsert (fst kv) (snd kv) acc) l m) =
  fold_left (fun acc kv => if str_eqb n (fst kv) then Some (snd kv) else acc) l (mget n m).
Proof.
  revert m; induction l as [|[k v] l IH]; intros m; cbn [fold_left fst snd]; auto. rewrite IH. f_equal.
  destruct (str_eqb n k) eqn:E.
  - apply str_eqb_eq in E as ->. apply mget_minsert_eq.
  - apply mget_minsert_neq. now apply str_eqb_neq.
Qed.
Lemma map_of_get {V} (l : list (str * V)) n : mget n (map_of l) = last_binding l n.
Proof. exact (map_of_gen l [] n). Qed.
Lemma map_of_sorted {V} (l : list (str * V)) : msorted (map_of l).
Proof.
  unfold map_of. assert (G : forall m, msorted m -> msorted (fold_left (fun acc kv => minsert (fst kv) (snd kv) acc) l m)).
  { induction l as [|a l IH]; cbn; auto. intros m Hm. apply IH. now apply minsert_sorted. }
  apply G. constructor.
Qed.
Lemma params_POk s r m :
  p_params s = POk r m <-> exists l, many_run p_param s l r /\ m = map_of l.
Proof.
  unfold p_params, fold_many0, pmap. rewrite pbind_POk. split.
  - intros (r0 & l & H & E). apply pret_POk in E as [-> ->]. apply many0_POk in H; [|apply tails_param].
    exists l. auto.
  - intros (l & H & ->). exists r, l. split; [now apply many0_POk; [apply tails_param|]|]. reflexivity.
Qed.
Lemma tails_line : tails p_content_line.
Proof. unfold p_content_line, p_params, fold_many0, p_key, p_value, line_ending. pose proof tails_param. eauto 40 with nom. Qed.
Lemma calm_line : calm p_content_line.
Proof. unfold p_content_line, p_params, fold_many0, p_key, p_value, line_ending. pose proof tails_param. pose proof calm_param. eauto 40 with nom. Qed.

Lemma pnot_tag t s r u : pnot (tag t) s = POk r u <-> r = s /\ ~ begins t s.
Proof.
  unfold pnot. destruct (tag t s) as [r0 a| |] eqn:H.
  - apply tag_POk in H as [-> _]. split; [congruence|]. intros [_ G]. exfalso. apply G. now exists r0.
  - split.
    + intros [= <- <-]. split; auto. intros [x E]. now apply (proj1 (tag_PErr _ _) H x).
    + intros [-> _]. now destruct u.
  - now apply calm_tag in H.
Qed.
(** The parser as a relation, with the sorted parameter map. *)
Lemma line_POk s r c : p_content_line s = POk r c <->
  ~ begins (lit "BEGIN:") s /\ ~ begins (lit "END:") s /\
  exists k t l v e,
    s = k ++ t /\ key_text k /\ params_read t l (v ++ e ++ r) /\ no_eol v /\ eol e /\
    c = mk_cl k (map_of l) v.
Proof.
  unfold p_content_line. split.
  - intros H. rewrite pbind_POk in H. destruct H as (? & u & H1 & H). apply pnot_tag in H1 as [-> Hb].
    rewrite pbind_POk in H. destruct H as (? & u2 & H1 & H). apply pnot_tag in H1 as [-> He].
    split; auto. split; auto.
    rewrite pbind_POk in H. destruct H as (t & k & H1 & H). apply take_while_POk in H1 as (-> & Hk & Ht).
    rewrite pbind_POk in H. destruct H as (r2 & m & H1 & H). apply params_POk in H1 as (l & Hl & ->).
    rewrite pbind_POk in H. destruct H as (r3 & x & H1 & H). apply pchar_POk in H1 as [-> _].
    rewrite pbind_POk in H. destruct H as (r4 & ov & H1 & H).
    unfold popt in H1. destruct (take_till_ok is_line_ending r3) as (r5 & v & Ev).
    unfold p_value in H1. rewrite Ev in H1. inv H1. apply take_till_POk in Ev as (-> & Hv & Hr).
    rewrite pbind_POk in H. destruct H as (r6 & e & H1 & H). apply line_ending_POk in H1 as (e' & He' & -> & ->).
    apply pret_POk in H as [-> ->].
    exists k, t, l, v, e'. apply key_text_iff in Hk. repeat split; auto.
    + eapply params_run_read; eauto.
    + intros Hc. apply Hv in Hc. discriminate.
    + intros Hc. apply Hv in Hc. discriminate.
  - intros (Hb & He & k & t & l & v & e & -> & Hk & Hp & [Hv1 Hv2] & Hee & ->).
    rewrite pbind_POk. exists (k ++ t), tt. split; [now apply pnot_tag|].
    rewrite pbind_POk. exists (k ++ t), tt. split; [now apply pnot_tag|].
    rewrite pbind_POk. exists t, k. split.
    { apply params_read_head in Hp as [[x ->]|[x ->]]; apply p_key_app; auto using not_key_colon, not_key_semi. }
    rewrite pbind_POk. eexists _, _. split; [apply params_POk; exists l; split; [apply params_read_run; eauto|reflexivity]|].
    rewrite pbind_POk. eexists _, _. split; [apply pchar_cons|].
    rewrite pbind_POk. exists (e ++ r), (Some v). split.
    { unfold popt. assert (E : p_value (v ++ e ++ r) = POk (e ++ r) v); [|now rewrite E].
      apply take_till_POk. split; [auto|]. split.
      - intros c Hc. unfold is_line_ending. apply orb_false_iff. rewrite !Z.eqb_neq. split; intros ->; auto.
      - destruct Hee as [-> | ->]; reflexivity. }
    rewrite pbind_POk. exists r, e. split; [apply line_ending_POk; exists e; auto|]. reflexivity.
Qed.
Lemma line_progress s r c : p_content_line s = POk r c -> (length r < length s)%nat.
Proof.
  intros H. apply line_POk in H as (_ & _ & k & t & l & v & e & -> & _ & Hp & _ & He & _).
  assert (L : (length (v ++ e ++ r) < length t)%nat).
  { clear - Hp. induction Hp; cbn [length]; rewrite ?app_length in *; cbn [length] in *; rewrite ?app_length in *; cbn in *; lia. }
  rewrite !app_length in *. lia.
Qed.
Lemma is_line_parse s r c : p_content_line s = POk r c -> is_line s c r.
Proof.
  intros H. apply line_POk in H as (Hb & He & k & t & l & v & e & -> & Hk & Hp & Hv & Hee & ->).
  split; auto. split; auto. exists k, t, l, v, e. repeat split; auto; try apply Hv.
  intros n. apply map_of_get.
Qed.
Lemma is_line_parse_inv s r c : is_line s c r ->
  exists c', p_content_line s = POk r c' /\ cl_key c' = cl_key c /\ cl_value c' = cl_value c /\
  forall n, mget n (cl_params c') = mget n (cl_params c).
Proof.
  intros (Hb & He & k & t & l & v & e & -> & Hk & Hp & Hv & Hee & <- & <- & Hm).
  exists (mk_cl (cl_key c) (map_of l) (cl_value c)). split.
  - apply line_POk. split; auto. split; auto. exists (cl_key c), t, l, (cl_value c), e. repeat split; auto; apply Hv.
  - repeat split; auto. intros n. rewrite Hm. apply map_of_get.
Qed.
Lemma params_sorted s r c : p_content_line s = POk r c -> msorted (cl_params c).
Proof. intros H. apply line_POk in H as (_ & _ & k & t & l & v & e & _ & _ & _ & _ & _ & ->). apply map_of_sorted. Qed.

(** Many lines *)
Lemma lines_eq s : p_content_lines s = many0 p_content_line s.
Proof.
  unfold p_content_lines, fold_many0, pmap, pbind. destruct (many0 p_content_line s) as [r l| |]; auto.
  unfold pret. f_equal.
  assert (G : forall acc, fold_left (fun acc v => acc ++ [v]) l acc = acc ++ l).
  { induction l as [|a l IH]; intros acc; cbn; [now rewrite app_nil_r|]. rewrite IH, <- app_assoc. auto. }
  apply (G []).
Qed.
Lemma lines_POk s r l : p_content_lines s = POk r l <-> many_run p_content_line s l r.
Proof. rewrite lines_eq. apply many0_POk, tails_line. Qed.
Lemma lines_total s : exists r l, p_content_lines s = POk r l.
Proof.
  rewrite lines_eq. destruct (many0_progress p_content_line tails_line s line_progress) as [H|H]; auto.
  now apply calm_many0 in H; [|apply tails_line|apply calm_line].
Qed.
Lemma tails_lines : tails p_content_lines.
Proof. intros s r l H. rewrite lines_eq in H. eapply tails_many0; eauto using tails_line. Qed.
Lemma calm_lines : calm p_content_lines.
Proof. intros s. destruct (lines_total s) as (r & l & ->). congruence. Qed.
