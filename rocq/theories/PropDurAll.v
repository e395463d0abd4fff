(** * C24, C16: exactly what the DURATION reader does with any text *)
From Verif Require Import Base Env Chrono Nom Types Ser Parser BaseFacts ChronoFacts DateText NomFacts SpecCal SpecDur PropDate PropDur PropFile PropPanic SpecFile SpecFatal.

(** ** The reader is greedy, and greedy is longest *)
Definition fits (o : option Z) : Prop := amount o <= I64MAX.
Inductive sections : list char -> str -> Prop :=
| sec_nil : sections [] []
| sec_cons u us o a b : part u o a -> fits o -> sections us b -> sections (u :: us) (a ++ b).
Inductive greedy : list char -> str -> str -> Prop :=
| gr_nil s : greedy [] s s
| gr_cons u us s s1 r o : popt (p_unit u) s = POk s1 o -> greedy us s1 r -> greedy (u :: us) s r.
Definition digit_first (s : str) : Prop := match s with c :: _ => is_digit c = true | [] => False end.

Lemma digits_split ds ds' c c' x y : digit_string ds -> digit_string ds' -> is_digit c = false -> is_digit c' = false ->
  ds ++ c :: x = ds' ++ c' :: y -> ds = ds' /\ c = c' /\ x = y.
Proof.
  intros H. revert ds'. induction H as [|d ds Hd H IH]; intros ds' H' Hc Hc' E.
  - destruct H' as [|d' ds' Hd' H']; cbn in E; inv E; auto. exfalso. unfold is_digit in Hc. apply andb_false_iff in Hc. rewrite !Z.leb_gt in Hc. lia.
  - destruct H' as [|d' ds' Hd' H']; cbn in E; inv E.
    + exfalso. unfold is_digit in Hc'. apply andb_false_iff in Hc'. rewrite !Z.leb_gt in Hc'. lia.
    + destruct (IH _ H' Hc Hc' H2) as (-> & -> & ->). auto.
Qed.
Lemma sections_no us u ds x b y : Forall (fun v => is_digit v = false) us -> is_digit u = false -> ~ In u us -> digit_string ds ->
  sections us b -> ds ++ u :: x = b ++ y -> b = [].
Proof.
  intros Hu Hd Hn Hds H. revert Hu Hn. induction H as [|v us o a b Hp Hf Hs IH]; intros Hu Hn E; auto.
  inversion Hu as [|? ? Hv Hus]; subst. destruct Hp as [|ds' Hne Hd'].
  - cbn [app] in *. apply IH; auto. intros K. apply Hn. now right.
  - exfalso. rewrite <- !app_assoc in E. cbn [app] in E. apply digits_split in E as (_ & -> & _); auto. apply Hn. now left.
Qed.
Lemma unit_inv' c s r o : is_digit c = false -> popt (p_unit c) s = POk r o -> exists txt, s = txt ++ r /\ part c o txt /\ fits o.
Proof.
  intros Hc. unfold popt. destruct (p_unit c s) as [r0 v| |] eqn:P; intros H; inv H.
  - unfold p_unit, terminated in P. apply pmap_res_POk in P as (ds & P & V). apply pbind_POk in P as (r1 & ds' & P & Q).
    apply pbind_POk in Q as (r2 & x & Q & R). apply pret_POk in R as [-> ->]. apply tag_POk in Q as [-> _].
    apply take_while_POk in P as (-> & Hd & _). apply digit_string_of in Hd.
    destruct ds' as [|d ds']; [discriminate|]. rewrite parse_i64_digits in V by (auto; discriminate).
    destruct (Z.leb_spec (value_of (d :: ds')) I64MAX); [|discriminate]. inv V. exists ((d :: ds') ++ [c]). rewrite <- app_assoc.
    split; auto. split; auto. constructor; auto; discriminate.
  - exists []. split; auto. split; [constructor|]. unfold fits, amount, I64MAX. lia.
Qed.
Lemma greedy_sections us s r : Forall (fun v => is_digit v = false) us -> greedy us s r -> exists b, s = b ++ r /\ sections us b.
Proof.
  intros Hu H. induction H as [s|u us s s1 r o P H IH].
  - exists []. split; auto. constructor.
  - inv Hu. apply unit_inv' in P as (a & -> & Pa & Fa); auto. destruct (IH H3) as (b & -> & Hb). exists (a ++ b). rewrite app_assoc. split; auto. econstructor; eauto.
Qed.
Lemma greedy_longest us s r b y : Forall (fun v => is_digit v = false) us -> NoDup us -> greedy us s r -> sections us b -> s = b ++ y ->
  y = r \/ (length r < length y)%nat /\ digit_first y.
Proof.
  intros Hu Hnd H. revert b y Hu Hnd. induction H as [s|u us s s1 r o P H IH]; intros b y Hu Hnd Hb E.
  - inv Hb. auto.
  - inversion Hu as [|? ? Hv Hus]; subst. inversion Hnd as [|? ? Hni Hnd']; subst. inversion Hb as [|? ? o' a b' Pa Fa Hb']; subst.
    destruct Pa as [|ds Hne Hd].
    + cbn [app] in *. apply unit_inv' in P as (txt & E & Pt & Ft); auto. destruct Pt as [|ds Hne Hd].
      * cbn [app] in E. subst s1. eapply IH; eauto.
      * rewrite <- app_assoc in E. cbn [app] in E. pose proof (sections_no us u ds s1 b' y Hus Hv Hni Hd Hb' (eq_sym E)). subst b'. cbn [app] in E. subst y.
        right. destruct (greedy_sections _ _ _ Hus H) as (b0 & -> & _). split.
        { rewrite !app_length. cbn [length]. rewrite app_length. lia. }
        destruct Hd as [|d ds Hd1 Hd2]; [congruence|]. cbn. unfold is_digit. apply andb_true_iff. rewrite !Z.leb_le. auto.
    + rewrite <- !app_assoc in P. cbn [app] in P. unfold popt in P. rewrite p_unit_app, parse_i64_digits in P by auto.
      unfold fits, amount in Fa. apply Z.leb_le in Fa. rewrite Fa in P. inv P. eapply IH; eauto.
Qed.

Lemma popt_unit_total c s : exists r o, popt (p_unit c) s = POk r o.
Proof.
  unfold popt. destruct (p_unit c s) eqn:P; eauto. now apply calm_unit in P.
Qed.
Lemma popt_time_total s : exists r o, popt p_time s = POk r o.
Proof.
  unfold popt. destruct (p_time s) eqn:P; eauto. now apply calm_time in P.
Qed.
Lemma time_run s r h m x : forall s1 s2, popt (p_unit 72) s = POk s1 h -> popt (p_unit 77) s1 = POk s2 m -> popt (p_unit 83) s2 = POk r x -> greedy [72; 77; 83] s r.
Proof. intros. econstructor; eauto. econstructor; eauto. econstructor; eauto. constructor. Qed.
Lemma time_inv' s r o : popt p_time s = POk r o ->
  exists txt t, s = txt ++ r /\ time_section t txt /\ o = or_zero t /\ (forall h m x, t = Some (h, m, x) -> fits h /\ fits m /\ fits x) /\
  forall t' txt' y, time_section t' txt' -> (forall h m x, t' = Some (h, m, x) -> fits h /\ fits m /\ fits x) -> s = txt' ++ y -> (length r <= length y)%nat.
Proof.
  intros P. destruct s as [|c s].
  - cbn in P. inv P. exists [], None. split; auto. split; [constructor|]. split; auto. split; [congruence|]. cbn. intros. lia.
  - destruct (Z.eqb_spec c 84) as [->|Hc].
    + destruct (popt_unit_total 72 s) as (r1 & h & P1). destruct (popt_unit_total 77 r1) as (r2 & m & P2). destruct (popt_unit_total 83 r2) as (r3 & x & P3).
      assert (G : greedy [72; 77; 83] s r3) by (eapply time_run; eauto).
      assert (Q : popt p_time (84 :: s) = POk r3 (Some (or0 h, or0 m, or0 x))).
      { unfold popt at 1. unfold p_time, pbind. change (84 :: s) with (lit "T" ++ s). rewrite tag_app, P1, P2, P3. reflexivity. }
      rewrite Q in P. inv P. 
      destruct (unit_inv' 72 _ _ _ eq_refl P1) as (a & -> & Pa & Fa). destruct (unit_inv' 77 _ _ _ eq_refl P2) as (b & -> & Pb & Fb). destruct (unit_inv' 83 _ _ _ eq_refl P3) as (e & -> & Pe & Fe).
      exists (84 :: a ++ b ++ e), (Some (h, m, x)). split; [cbn [app]; now rewrite <- !app_assoc|]. split; [constructor; auto|]. split; [reflexivity|].
      split; [intros ? ? ? K; inv K; auto|]. intros t' txt' y T F E. destruct T as [|h' m' x' sh sm ss Ph Pm Ps].
      * cbn [app] in E. subst y. cbn [length]. rewrite !app_length. lia.
      * destruct (F _ _ _ eq_refl) as (Fh & Fm & Fx). cbn [app] in E. injection E as E.
        assert (Hs : sections [72; 77; 83] (sh ++ sm ++ ss)).
        { econstructor; eauto. econstructor; eauto. rewrite <- (app_nil_r ss). econstructor; eauto. constructor. }
        destruct (greedy_longest [72; 77; 83] _ _ _ y ltac:(repeat constructor) ltac:(repeat constructor; cbn; intuition discriminate) G Hs E) as [->|[L _]]; lia.
    + assert (Q : popt p_time (c :: s) = POk (c :: s) None).
      { unfold popt. unfold p_time, pbind. replace (tag (lit "T") (c :: s)) with (@PErr str); auto. symmetry. apply tag_PErr. intros z K. cbn in K. congruence. }
      rewrite Q in P. inv P. exists [], None. split; auto. split; [constructor|]. split; auto. split; [congruence|].
      intros t' txt' y T F E. destruct T; cbn [app] in E; [subst; lia|]. congruence.
Qed.
Lemma sign_unique a b x y : (if a : bool then [45] else []) ++ [80] ++ x = (if b : bool then [45] else []) ++ [80] ++ y -> a = b /\ x = y.
Proof. destruct a, b; cbn; intros E; inv E; auto. Qed.
Lemma fits_numbers w d t : Forall (fun n => n <= 9223372036854775807) (numbers_of w d t) <->
  fits w /\ fits d /\ (forall h m x, t = Some (h, m, x) -> fits h /\ fits m /\ fits x).
Proof.
  unfold numbers_of, fits. change I64MAX with 9223372036854775807. destruct t as [[[h m] x]|]; cbn [map].
  - split.
    + intros H. inversion H as [|? ? H1 H']; subst. inversion H' as [|? ? H2 H'']; subst. inversion H'' as [|? ? H3 H''']; subst.
      inversion H''' as [|? ? H4 H4']; subst. inversion H4' as [|? ? H5 H5']; subst. split; auto. split; auto. intros ? ? ? K. inv K. auto.
    + intros (A & B & C). destruct (C _ _ _ eq_refl) as (D & F & G). repeat (apply Forall_cons; auto).
  - split.
    + intros H. inversion H as [|? ? H1 H']; subst. inversion H' as [|? ? H2 H'']; subst. split; auto. split; auto. discriminate.
    + intros (A & B & C). repeat (apply Forall_cons; auto).
Qed.
Lemma p_duration_any (neg : bool) s : exists w d t txt,
  longest_duration_prefix neg w d t txt ((if neg then [45] else []) ++ [80] ++ s) /\
  p_duration ((if neg then [45] else []) ++ [80] ++ s) =
    if seconds_of w d t * sec <=? longest
    then POk (skipn (length txt) ((if neg then [45] else []) ++ [80] ++ s)) (signed neg (seconds_of w d t * sec)) else PPanic.
Proof.
  destruct (popt_unit_total 87 s) as (r1 & w & P1). destruct (popt_unit_total 68 r1) as (r2 & d & P2). destruct (popt_time_total r2) as (r3 & o & P3).
  assert (G : greedy [87; 68] s r2) by (econstructor; eauto; econstructor; eauto; constructor).
  assert (Q : p_duration ((if neg then [45] else []) ++ [80] ++ s) =
              match make_duration neg (or0 w) (or0 d) o with Ok x => POk r3 x | Err _ => PErr | Panic => PPanic end).
  { unfold p_duration, pmap_res. unfold pbind at 1. unfold pbind at 1. destruct neg.
    - unfold popt at 1. change [45] with (lit "-"). rewrite tag_app. unfold pbind at 1. change [80] with (lit "P"). rewrite tag_app.
      unfold pbind at 1. rewrite P1. unfold pbind at 1. rewrite P2. unfold pbind. rewrite P3. cbn [pret]. now destruct (make_duration _ _ _ _).
    - unfold popt at 1. cbn [app]. replace (tag (lit "-") (80 :: s)) with (@PErr str) by (symmetry; apply tag_PErr; intros r; cbn; congruence).
      unfold pbind at 1. change (80 :: s) with (lit "P" ++ s). rewrite tag_app.
      unfold pbind at 1. rewrite P1. unfold pbind at 1. rewrite P2. unfold pbind. rewrite P3. cbn [pret]. now destruct (make_duration _ _ _ _). }
  destruct (unit_inv' 87 _ _ _ eq_refl P1) as (a & Ea & Pa & Fa). destruct (unit_inv' 68 _ _ _ eq_refl P2) as (b & Eb & Pb & Fb).
  destruct (time_inv' _ _ _ P3) as (e & t & Ee & Pt & -> & Ft & Lt).
  exists w, d, t, ((if neg then [45] else []) ++ [80] ++ a ++ b ++ e).
  assert (D : duration_text neg w d t ((if neg then [45] else []) ++ [80] ++ a ++ b ++ e)) by (exists a, b, e; auto).
  assert (Es : (if neg then [45] else []) ++ [80] ++ s = ((if neg then [45] else []) ++ [80] ++ a ++ b ++ e) ++ r3).
  { subst s r1 r2. rewrite <- !app_assoc. reflexivity. }
  split; [split|].
  - split; auto. split; [apply fits_numbers; auto|]. eauto.
  - intros neg' w' d' t' txt' ((a' & b' & e' & -> & Pa' & Pb' & Pe') & F & y & E).
    apply fits_numbers in F as (Fa' & Fb' & Ft').
    rewrite <- !app_assoc in E. apply sign_unique in E as [<- E].
    assert (L : (length r3 <= length y)%nat).
    { assert (Hs : sections [87; 68] (a' ++ b')). { econstructor; eauto. rewrite <- (app_nil_r b'). econstructor; eauto. constructor. }
      destruct (greedy_longest [87; 68] _ _ (a' ++ b') (e' ++ y) ltac:(repeat constructor) ltac:(repeat constructor; cbn; intuition discriminate) G Hs ltac:(now rewrite <- app_assoc)) as [K|[L K]].
      - eapply Lt; eauto.
      - destruct Pe' as [|h m x sh sm ss]; [|cbn in K; discriminate]. cbn [app] in L. rewrite Ee, app_length in L. lia. }
    apply (f_equal (@length _)) in E. rewrite Ea, Eb, Ee in E. rewrite !app_length in E. rewrite !app_length. lia.
  - rewrite Q. rewrite Es, skipn_app, skipn_all, Nat.sub_diag. cbn [app skipn].
    pose proof (part_nonneg _ _ _ Pa). pose proof (part_nonneg _ _ _ Pb). change or0 with amount. rewrite make_duration_sum; auto.
    2:{ intros h m x K. destruct t as [[[h0 m0] s0]|]; [|discriminate]. cbn in K. inv K. inv Pt. repeat split; eapply part_nonneg; eauto. }
    replace ((amount w * 604800 + amount d * 86400 + match or_zero t with Some (h, m, s0) => h * 3600 + m * 60 + s0 | None => 0 end) * NANOS)
      with (seconds_of w d t * sec) by (unfold seconds_of; destruct t as [[[h m] x]|]; reflexivity).
    change TD_MAX with longest. now destruct (_ <=? longest).
Qed.
Lemma p_duration_none s : (forall neg x, s <> (if neg : bool then [45] else []) ++ [80] ++ x) -> p_duration s = PErr.
Proof.
  intros H. unfold p_duration, pmap_res. unfold pbind at 1. unfold pbind at 1.
  unfold popt at 1. destruct (tag (lit "-") s) as [r0 y| |] eqn:Y.
  - apply tag_POk in Y as [-> _]. unfold pbind at 1. replace (tag (lit "P") r0) with (@PErr str); auto.
    symmetry. apply tag_PErr. intros r ->. apply (H true r). reflexivity.
  - unfold pbind at 1. replace (tag (lit "P") s) with (@PErr str); auto.
    symmetry. apply tag_PErr. intros r ->. apply (H false r). reflexivity.
  - exfalso. revert Y. unfold tag. destruct (strip_prefix _ _); discriminate.
Qed.
(** ** C24: the reader on any text *)
Theorem C24_any_text :
  forall c : content_line,
    (* a text that begins with [-]P: the longest prefix that is a duration decides, what follows it is ignored *)
    (forall neg w d t txt, longest_duration_prefix neg w d t txt (cl_value c) ->
       (seconds_of w d t * sec <= longest -> parse_dur c = Ok (signed neg (seconds_of w d t * sec))) /\
       (longest < seconds_of w d t * sec -> parse_dur c = Panic)) /\
    (* there is such a prefix as soon as the text begins with [-]P *)
    (forall x, cl_value c = [80] ++ x \/ cl_value c = [45; 80] ++ x -> exists neg w d t txt, longest_duration_prefix neg w d t txt (cl_value c)) /\
    (* any other text is an error *)
    ((forall x, cl_value c <> [80] ++ x /\ cl_value c <> [45; 80] ++ x) -> exists e, parse_dur c = Err e).
Proof.
  intros c.
  assert (U : forall x, cl_value c = [80] ++ x \/ cl_value c = [45; 80] ++ x -> exists neg w d t txt, longest_duration_prefix neg w d t txt (cl_value c) /\
     parse_dur c = if seconds_of w d t * sec <=? longest then Ok (signed neg (seconds_of w d t * sec)) else Panic).
  { intros x H. assert (H' : exists neg : bool, cl_value c = (if neg then [45] else []) ++ [80] ++ x) by (destruct H as [H|H]; [exists false|exists true]; exact H).
    destruct H' as [neg E]. destruct (p_duration_any neg x) as (w & d & t & txt & L & P). exists neg, w, d, t, txt. unfold parse_dur. rewrite E. split; auto.
    rewrite P. now destruct (_ <=? longest). }
  split; [|split].
  - intros neg w d t txt L.
    assert (exists x, cl_value c = [80] ++ x \/ cl_value c = [45; 80] ++ x) as [x Hx].
    { destruct L as (((a & b & e & -> & _) & _ & y & E) & _). rewrite E. destruct neg; eexists; [right|left]; rewrite <- !app_assoc; reflexivity. }
    destruct (U x Hx) as (neg' & w' & d' & t' & txt' & L' & ->).
    assert (E : txt = txt').
    { destruct L as [D L], L' as [D' L']. pose proof (L _ _ _ _ _ D') as A. pose proof (L' _ _ _ _ _ D) as B.
      destruct D as (_ & _ & y & E), D' as (_ & _ & y' & E'). rewrite E in E'. clear -A B E'. revert txt' A B E'. induction txt as [|z txt IH]; intros [|z' txt'] A B E; cbn in *; auto; try lia.
      injection E as -> E. f_equal. apply IH; auto; lia. }
    subst txt'. destruct L as [(D & F & _) _], L' as [(D' & F' & _) _].
    destruct (C24_duration_grammar neg w d t txt (mk_cl [] [] txt) D eq_refl) as [G1 G2].
    destruct (C24_duration_grammar neg' w' d' t' txt (mk_cl [] [] txt) D' eq_refl) as [G1' G2'].
    destruct (Z.leb_spec (seconds_of w' d' t' * sec) longest) as [R|R].
    + rewrite (G1' R) in *. split; intros R'; [now rewrite <- (G1 R')|]. now specialize (G2 R' F).
    + specialize (G2' R F'). split; intros R'; auto. now rewrite (G1 R') in G2'.
  - intros x Hx. destruct (U x Hx) as (neg & w & d & t & txt & L & _). eauto 8.
  - intros H. unfold parse_dur. rewrite p_duration_none; [cbn; eauto|]. intros neg x E. destruct (H x) as [A B]. destruct neg; [now apply B|now apply A].
Qed.
(** So a panic is exactly a longest prefix beyond chrono's range, and an error exactly a text that does not begin with [-]P. *)
Theorem C24_panics_iff :
  forall c : content_line,
    (parse_dur c = Panic <-> exists neg w d t txt, longest_duration_prefix neg w d t txt (cl_value c) /\ longest < seconds_of w d t * sec) /\
    ((exists e, parse_dur c = Err e) <-> forall x, cl_value c <> [80] ++ x /\ cl_value c <> [45; 80] ++ x).
Proof.
  intros c. destruct (C24_any_text c) as (A & B & C).
  assert (D : (exists x, cl_value c = [80] ++ x \/ cl_value c = [45; 80] ++ x) \/ forall x, cl_value c <> [80] ++ x /\ cl_value c <> [45; 80] ++ x).
  { destruct (cl_value c) as [|a [|b v]].
    - right. intros x. split; discriminate.
    - destruct (Z.eqb_spec a 80) as [->|]; [left; eexists; left; reflexivity|]. right. intros x. split; cbn; congruence.
    - destruct (Z.eqb_spec a 80) as [->|]; [left; eexists; left; reflexivity|].
      destruct (Z.eqb_spec a 45) as [->|]; [|right; intros x; split; cbn; congruence].
      destruct (Z.eqb_spec b 80) as [->|]; [left; eexists; right; reflexivity|]. right. intros x; split; cbn; congruence. }
  split; split.
  - intros P. destruct D as [[x Hx]|D]; [|destruct (C D) as [e Q]; congruence].
    destruct (B x Hx) as (neg & w & d & t & txt & L). exists neg, w, d, t, txt. split; auto. destruct (A _ _ _ _ _ L) as [G1 G2].
    destruct (Z_lt_le_dec longest (seconds_of w d t * sec)); auto. rewrite G1 in P; auto. discriminate.
  - intros (neg & w & d & t & txt & L & R). now apply (A _ _ _ _ _ L).
  - intros [e P]. destruct D as [[x Hx]|D]; auto. exfalso.
    destruct (B x Hx) as (neg & w & d & t & txt & L). destruct (A _ _ _ _ _ L) as [G1 G2].
    destruct (Z_lt_le_dec longest (seconds_of w d t * sec)); [rewrite G2 in P|rewrite G1 in P]; auto; discriminate.
  - exact C.
Qed.
Example C24_any_nonvacuous :
  (* junk after the duration is ignored, a W part after the D part too; a number beyond i64 ends the prefix *)
  parse_dur (mk_cl (lit "DURATION") [] (lit "PT1H junk")) = Ok (3600 * sec) /\
  parse_dur (mk_cl (lit "DURATION") [] (lit "-P2D1W")) = Ok (- (172800 * sec)) /\
  parse_dur (mk_cl (lit "DURATION") [] (lit "P99999999999999999999W")) = Ok 0 /\
  parse_dur (mk_cl (lit "DURATION") [] (lit "P9999999999999999W")) = Panic /\
  parse_dur (mk_cl (lit "DURATION") [] (lit "1H")) = Err EParser /\
  exists neg w d t txt, longest_duration_prefix neg w d t txt (lit "PT1H junk").
Proof.
  repeat match goal with |- _ /\ _ => split; [vm_compute; reflexivity|] end.
  destruct (C24_any_text (mk_cl [] [] (lit "PT1H junk"))) as (_ & B & _). apply (B (lit "T1H junk")). left. reflexivity.
Qed.
