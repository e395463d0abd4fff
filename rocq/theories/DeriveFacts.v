(** * Facts about Derive.v: reading a component from its lines. *)
From Verif Require Import Base Nom Types Ser Parser Derive BaseFacts SpecLine LineFacts SpecComp.

Lemma sorted_map_iff {V} (m : smap V) : sorted_map m <-> msorted m.
Proof. split; induction 1; constructor; auto. Qed.
Lemma absent_lines n ls : absent n ls <-> lines_named n ls = [].
Proof.
  unfold absent, lines_named. induction ls as [|l ls IH]; cbn; [split; auto|].
  destruct (str_eqb (cl_key l) n) eqn:E.
  - apply str_eqb_eq in E. split; [intros H; inv H; congruence|discriminate].
  - apply str_eqb_neq in E. rewrite Forall_cons_iff, IH. tauto.
Qed.
Lemma lines_named_app n a b : lines_named n (a ++ b) = lines_named n a ++ lines_named n b.
Proof. apply filter_app. Qed.
Lemma last_line_iff n ls l : last_line n ls l <-> last_opt (lines_named n ls) = Some l.
Proof.
  split.
  - intros (a & b & -> & Hk & Hb). rewrite lines_named_app. apply absent_lines in Hb. cbn [lines_named filter]. fold (lines_named n b).
    unfold lines_named at 2. cbn [filter]. fold (lines_named n b). rewrite Hk, str_eqb_refl, Hb. apply last_opt_app.
  - revert l. induction ls as [|x ls IH] using rev_ind; intros l; [discriminate|].
    rewrite lines_named_app. unfold lines_named at 2. cbn [filter]. destruct (str_eqb (cl_key x) n) eqn:E.
    + rewrite last_opt_app. intros H. inv H. apply str_eqb_eq in E. exists ls, []. repeat split; auto. constructor.
    + rewrite app_nil_r. intros H. apply IH in H as (a & b & -> & Hk & Hb). apply str_eqb_neq in E.
      exists a, (b ++ [x]). rewrite <- app_assoc. repeat split; auto. unfold absent. rewrite Forall_app. auto.
Qed.
Lemma last_line_det n ls l l' : last_line n ls l -> last_line n ls l' -> l = l'.
Proof. rewrite !last_line_iff. congruence. Qed.
Lemma last_line_app n a b l : last_line n (a ++ b) l <-> last_line n b l \/ absent n b /\ last_line n a l.
Proof.
  rewrite !last_line_iff, lines_named_app, absent_lines. destruct (lines_named n b) as [|x r] eqn:E.
  - rewrite app_nil_r. split; [auto|intros [H|[_ H]]; auto; discriminate].
  - assert (X : last_opt (lines_named n a ++ x :: r) = last_opt (x :: r)).
    { destruct (exists_last (l := x :: r) ltac:(discriminate)) as (y & z & Hy). rewrite Hy, app_assoc. now rewrite !last_opt_app. }
    rewrite X. split; [auto|intros [H|[H _]]; [auto|discriminate]].
Qed.

(** One line, one field. *)
Definition f_move (n : str) (f : field) (l : content_line) (v v' : fty f) : Prop :=
  if has_arm f && str_eqb (cl_key l) n then f_step f l v = Ok v' else v' = v.
Fixpoint fields_move (s : schema) (l : content_line) : fields s -> fields s -> Prop :=
  match s with
  | [] => fun _ _ => True
  | (n, f) :: r => fun vs vs' => f_move n f l (fst vs) (fst vs') /\ fields_move r l (snd vs) (snd vs')
  end.
(** The names with an arm. *)
Definition arm_names (s : schema) : list str := map fst (filter (fun nf => has_arm (snd nf)) s).
Lemma arm_names_cons n f r : arm_names ((n, f) :: r) = if has_arm f then n :: arm_names r else arm_names r.
Proof. unfold arm_names. cbn. destruct (has_arm f); reflexivity. Qed.
Lemma fields_move_none s l vs vs' : ~ In (cl_key l) (arm_names s) -> fields_move s l vs vs' <-> vs' = vs.
Proof.
  induction s as [|[n f] r IH]; cbn [fields_move fields] in *.
  - destruct vs, vs'. tauto.
  - rewrite arm_names_cons. intros H. destruct vs as [v vs], vs' as [v' vs']. cbn [fst snd]. unfold f_move.
    assert (E : has_arm f && str_eqb (cl_key l) n = false).
    { destruct (has_arm f); auto. cbn. apply str_eqb_neq. intros K. apply H. left. auto. }
    rewrite E, IH by (destruct (has_arm f); [intros X; apply H; right; auto|auto]). split; [intros [-> ->]; auto|intros X; inv X; auto].
Qed.
Lemma step_fields_none s l vs : step_fields s l vs = None <-> ~ In (cl_key l) (arm_names s).
Proof.
  induction s as [|[n f] r IH]; cbn [step_fields fields] in *; [cbn; tauto|].
  rewrite arm_names_cons. destruct vs as [v vs]. cbn [fst snd]. destruct (has_arm f) eqn:Ha; cbn [andb].
  - destruct (str_eqb (cl_key l) n) eqn:E.
    + apply str_eqb_eq in E. split; [discriminate|intros X; exfalso; apply X; left; auto].
    + apply str_eqb_neq in E. cbn [In]. specialize (IH vs). destruct (step_fields r l vs); cbn [option_map]; split; intros H; try discriminate.
      * exfalso. apply IH; [|discriminate] || (assert (X : Some o = None) by (apply IH; tauto); discriminate).
      * intros [X|X]; [congruence|]. now apply IH.
      * reflexivity.
  - specialize (IH vs). destruct (step_fields r l vs); cbn [option_map]; split; intros H; try discriminate; auto.
    + exfalso. assert (X : Some o = None) by (now apply IH). discriminate.
    + now apply IH.
Qed.
Lemma step_fields_move s l vs o : NoDup (arm_names s) -> step_fields s l vs = Some o -> forall vs', o = Ok vs' <-> fields_move s l vs vs'.
Proof.
  revert o. induction s as [|[n f] r IH]; cbn [step_fields fields] in *; intros o Hd; [discriminate|].
  rewrite arm_names_cons in Hd. destruct vs as [v vs]. cbn [fst snd]. intros H [v' vs']. cbn [fields_move fst snd]. unfold f_move.
  destruct (has_arm f && str_eqb (cl_key l) n) eqn:E.
  - apply andb_prop in E as [Ha E]. apply str_eqb_eq in E. rewrite Ha in Hd. inv H. inv Hd.
    rewrite fields_move_none by auto. destruct (f_step f l v) as [w|e|]; cbn; split; intros X; try discriminate; try (destruct X; discriminate).
    + inv X. auto.
    + destruct X as [X ->]. inv X. auto.
  - destruct (step_fields r l vs) as [o'|] eqn:S; [|discriminate]. cbn [option_map] in H. inv H.
    assert (Hd' : NoDup (arm_names r)) by (destruct (has_arm f); [now inv Hd|auto]).
    specialize (IH vs o' Hd' S vs'). unfold omap. destruct o' as [w|e|]; cbn; split; intros X; try discriminate.
    + inv X. split; auto. now apply IH.
    + destruct X as [-> X]. apply IH in X. now inv X.
    + destruct X as [_ X]. apply IH in X. discriminate.
    + destruct X as [_ X]. apply IH in X. discriminate.
Qed.
(** The maps of other lines. *)
Definition ext_move (known : list str) (l : content_line) (x i x' i' : smap content_line) : Prop :=
  (In (cl_key l) known /\ x' = x /\ i' = i) \/
  (~ In (cl_key l) known /\ begins (lit "X-") (cl_key l) /\ x' = minsert (cl_key l) l x /\ i' = i) \/
  (~ In (cl_key l) known /\ ~ begins (lit "X-") (cl_key l) /\ x' = x /\ i' = minsert (cl_key l) l i).
Lemma begins_starts p s : starts_with p s = true <-> begins p s.
Proof. apply starts_with_iff. Qed.
Lemma in_dec_str (n : str) l : In n l \/ ~ In n l.
Proof. destruct (in_dec (list_eq_dec Z.eq_dec) n l); auto. Qed.
Lemma step_line_iff s (c c' : comp s) l : NoDup (arm_names s) ->
  step_line c l = Ok c' <->
  fields_move s l (c_fields c) (c_fields c') /\ ext_move (arm_names s) l (c_xprop c) (c_iana c) (c_xprop c') (c_iana c').
Proof.
  intros Hd. unfold step_line. destruct c as [vs x i], c' as [vs' x' i']. cbn [c_fields c_xprop c_iana].
  destruct (step_fields s l vs) as [o|] eqn:S.
  - pose proof (step_fields_move s l vs o Hd S vs') as M.
    assert (K : In (cl_key l) (arm_names s)).
    { destruct (in_dec_str (cl_key l) (arm_names s)); auto. apply (step_fields_none s l vs) in H. congruence. }
    destruct o as [w|e|]; cbn [obind]; split; intros H; try discriminate.
    + inv H. split; [now apply M|]. left. auto.
    + destruct H as [H [(_ & -> & ->)|[(N & _)|(N & _)]]]; try tauto. apply M in H. now inv H.
    + destruct H as [H _]. apply M in H. discriminate.
    + destruct H as [H _]. apply M in H. discriminate.
  - apply step_fields_none in S. rewrite fields_move_none by auto.
    destruct (starts_with (lit "X-") (cl_key l)) eqn:X.
    + apply begins_starts in X. split; intros H.
      * inv H. split; auto. right. left. auto.
      * destruct H as [-> [(N & _)|[(_ & _ & -> & ->)|(_ & N & _)]]]; tauto.
    + assert (X' : ~ begins (lit "X-") (cl_key l)) by (rewrite <- begins_starts; congruence). split; intros H.
      * inv H. split; auto. right. right. auto.
      * destruct H as [-> [(N & _)|[(_ & N & _)|(_ & _ & -> & ->)]]]; tauto.
Qed.
(** A run of lines. *)
Inductive f_run (n : str) (f : field) : list content_line -> fty f -> fty f -> Prop :=
| fr_nil v : f_run n f [] v v
| fr_cons l ls v v1 v' : f_move n f l v v1 -> f_run n f ls v1 v' -> f_run n f (l :: ls) v v'.
Fixpoint fields_run (s : schema) (ls : list content_line) : fields s -> fields s -> Prop :=
  match s with
  | [] => fun _ _ => True
  | (n, f) :: r => fun vs vs' => f_run n f ls (fst vs) (fst vs') /\ fields_run r ls (snd vs) (snd vs')
  end.
Inductive ext_run (known : list str) : list content_line -> smap content_line -> smap content_line -> smap content_line -> smap content_line -> Prop :=
| er_nil x i : ext_run known [] x i x i
| er_cons l ls x i x1 i1 x' i' : ext_move known l x i x1 i1 -> ext_run known ls x1 i1 x' i' -> ext_run known (l :: ls) x i x' i'.
Lemma fields_run_nil s vs vs' : fields_run s [] vs vs' <-> vs' = vs.
Proof.
  induction s as [|[n f] r IH]; cbn [fields_run fields] in *; [destruct vs, vs'; tauto|].
  destruct vs as [v vs], vs' as [v' vs']. cbn [fst snd]. rewrite IH. split; [intros [H ->]; inversion H; auto|intros X; inv X; split; auto; constructor].
Qed.
Lemma fields_run_cons s l ls vs vs' : fields_run s (l :: ls) vs vs' <-> exists vs1, fields_move s l vs vs1 /\ fields_run s ls vs1 vs'.
Proof.
  induction s as [|[n f] r IH]; cbn [fields_run fields_move fields] in *.
  - split; [intros _; exists tt; auto|auto].
  - destruct vs as [v vs], vs' as [v' vs']. cbn [fst snd]. rewrite IH. split.
    + intros [H (vs1 & A & B)]. inversion H; subst. exists (v1, vs1). cbn. auto.
    + intros ([v1 vs1] & [A B] & C & D). cbn in *. split; [econstructor; eauto|eauto].
Qed.
Lemma step_lines_iff s (c c' : comp s) ls : NoDup (arm_names s) ->
  step_lines c ls = Ok c' <->
  fields_run s ls (c_fields c) (c_fields c') /\ ext_run (arm_names s) ls (c_xprop c) (c_iana c) (c_xprop c') (c_iana c').
Proof.
  intros Hd. revert c; induction ls as [|l ls IH]; intros c; cbn [step_lines].
  - rewrite fields_run_nil. destruct c as [vs x i], c' as [vs' x' i']; cbn. split; intros H; [inv H; split; auto; constructor|].
    destruct H as [-> H]. inv H. auto.
  - rewrite fields_run_cons. split.
    + destruct (step_line c l) as [c1|e|] eqn:E; cbn [obind]; try discriminate. intros H. apply IH in H as [A B]. apply step_line_iff in E as [C D]; auto.
      split; [eauto|]. econstructor; eauto.
    + intros [(vs1 & A & B) X]. inversion X as [|? ? ? ? x1 i1 ? ? C D]; subst.
      assert (E : step_line c l = Ok (mk_comp vs1 x1 i1)) by (apply step_line_iff; auto).
      rewrite E. cbn [obind]. apply IH. auto.
Qed.

(** ** Kinds *)
Lemma f_move_named n f l v v' : has_arm f = true -> cl_key l = n -> f_move n f l v v' <-> f_step f l v = Ok v'.
Proof. intros Ha Hk. unfold f_move. now rewrite Ha, Hk, str_eqb_refl. Qed.
Lemma f_move_other n f l v v' : has_arm f = false \/ cl_key l <> n -> f_move n f l v v' <-> v' = v.
Proof. intros H. unfold f_move. assert (E : has_arm f && str_eqb (cl_key l) n = false) by (destruct H as [->|H]; auto; apply str_eqb_neq in H; rewrite H; apply andb_false_r). rewrite E. tauto. Qed.
Lemma lines_named_cons n l ls : lines_named n (l :: ls) = if str_eqb (cl_key l) n then l :: lines_named n ls else lines_named n ls.
Proof. reflexivity. Qed.
Lemma run_req {T} n (S : serialize T) p ls v v' : f_run n (FReq S p) ls v v' <-> v' = v.
Proof.
  split.
  - intros H. cbn in v, v'. set (f := FReq S p) in *. remember (v : fty f) as w. clear Heqw. induction H; auto. subst. unfold f_move in H.
    destruct (has_arm f && str_eqb (cl_key l) n); [cbn in H; now inv H|auto].
  - intros ->. induction ls as [|l ls IH]; [constructor|]. econstructor; eauto. unfold f_move. now destruct (_ && _).
Qed.
Lemma run_ign {T} n (S : serialize T) ls v v' : f_run n (FIgn S) ls v v' <-> v' = v.
Proof.
  split.
  - intros H. cbn in v, v'. set (f := FIgn S) in *. remember (v : fty f) as w. clear Heqw. induction H; auto. unfold f_move in H. cbn in H. congruence.
  - intros ->. induction ls as [|l ls IH]; [constructor|]. econstructor; eauto. reflexivity.
Qed.
Lemma run_inv n f l ls v v' : f_run n f (l :: ls) v v' <-> exists v1, f_move n f l v v1 /\ f_run n f ls v1 v'.
Proof. split; [intros H; inversion H; subst; eauto|intros (v1 & A & B); econstructor; eauto]. Qed.
Lemma run_nil_inv n f v v' : f_run n f [] v v' <-> v' = v.
Proof. split; [intros H; now inversion H|intros ->; constructor]. Qed.
Lemma run_vec {T} n (S : serialize T) p ls (v v' : list T) : f_run n (FVec S p) ls v v' <-> exists vs, repeated p n ls vs /\ v' = v ++ vs.
Proof.
  unfold repeated. revert v; induction ls as [|l ls IH]; intros v.
  - rewrite run_nil_inv. cbn [lines_named filter]. split; [intros ->; exists []; rewrite app_nil_r; auto|intros (vs & H & ->); inv H; now rewrite app_nil_r].
  - rewrite run_inv, lines_named_cons. destruct (str_eqb (cl_key l) n) eqn:E.
    + apply str_eqb_eq in E. split.
      * intros (v1 & A & B). apply IH in B as (vs & B & ->). apply f_move_named in A; auto. cbn in A.
        destruct (p l) as [x|e|] eqn:P; cbn in A; try discriminate. inv A. exists (x :: vs). split; [constructor; auto|]. now rewrite <- app_assoc.
      * intros (vs & B & ->). inversion B as [|? x ? vs' P B']; subst. exists (v ++ [x]). split.
        -- apply f_move_named; auto. cbn. now rewrite P.
        -- apply IH. exists vs'. split; auto. now rewrite <- app_assoc.
    + apply str_eqb_neq in E. split.
      * intros (v1 & A & B). apply f_move_other in A; auto. subst v1. now apply IH.
      * intros H. exists v. split; [apply f_move_other; auto|now apply IH].
Qed.
Lemma run_app {T} n (S : serialize T) p ls (v v' : list T) : f_run n (FApp S p) ls v v' <-> exists vs, appended p n ls vs /\ v' = v ++ vs.
Proof.
  unfold appended. revert v; induction ls as [|l ls IH]; intros v.
  - rewrite run_nil_inv. cbn [lines_named filter]. split.
    + intros ->. exists []. split; [exists []; auto|now rewrite app_nil_r].
    + intros (vs & (vss & H & ->) & ->). inv H. now rewrite app_nil_r.
  - rewrite run_inv, lines_named_cons. destruct (str_eqb (cl_key l) n) eqn:E.
    + apply str_eqb_eq in E. split.
      * intros (v1 & A & B). apply IH in B as (vs & (vss & B & ->) & ->). apply f_move_named in A; auto. cbn in A.
        destruct (p l) as [x|e|] eqn:P; cbn in A; try discriminate. inv A. exists (x ++ concat vss). split; [|now rewrite <- app_assoc].
        exists (x :: vss). split; auto.
      * intros (vs & (vss & B & ->) & ->). inversion B as [|? x ? vs' P B']; subst. exists (v ++ x). split.
        -- apply f_move_named; auto. cbn. now rewrite P.
        -- apply IH. exists (concat vs'). split; eauto. cbn. now rewrite <- app_assoc.
    + apply str_eqb_neq in E. split.
      * intros (v1 & A & B). apply f_move_other in A; auto. subst v1. now apply IH.
      * intros H. exists v. split; [apply f_move_other; auto|now apply IH].
Qed.
Lemma required_cons {T} (p : content_line -> outcome T) n l ls v :
  required p n (l :: ls) v <-> required p n ls v \/ absent n ls /\ cl_key l = n /\ p l = Ok v.
Proof.
  unfold required. change (l :: ls) with ([l] ++ ls). split.
  - intros (x & H & P). apply last_line_app in H as [H|[H Hx]]; [left; eauto|]. right. split; auto.
    destruct Hx as (a & b & E & Hk & _). destruct a as [|? [|? ?]]; inv E. auto.
  - intros [(x & H & P)|(H & Hk & P)].
    + exists x. split; auto. apply last_line_app. auto.
    + exists l. split; auto. apply last_line_app. right. split; auto. exists [], []. repeat split; auto. constructor.
Qed.
Lemma run_opt {T} n (S : serialize T) p ls (v v' : option T) :
  f_run n (FOpt S p) ls v v' <->
  (forall l, In l ls -> cl_key l = n -> exists x, p l = Ok x) /\
  (absent n ls /\ v' = v \/ exists x, required p n ls x /\ v' = Some x).
Proof.
  revert v; induction ls as [|l ls IH]; intros v.
  - rewrite run_nil_inv. split; [intros ->; split; [intros ? []|left; split; [constructor|auto]]|].
    intros [_ [[_ H]|(x & (l & (a & b & E & _) & _) & _)]]; auto. destruct a; discriminate.
  - rewrite run_inv. destruct (str_eqb (cl_key l) n) eqn:E.
    + apply str_eqb_eq in E. split.
      * intros (v1 & A & B). apply IH in B as [V B]. apply f_move_named in A; auto. cbn in A.
        destruct (p l) as [x|e|] eqn:P; cbn in A; try discriminate. inv A. split.
        -- intros l' [<-|Hl] Hk; eauto.
        -- right. destruct B as [[Ab ->]|(y & R & ->)]; [exists x|exists y]; split; auto; apply required_cons; auto.
      * intros [V B]. destruct (V l (or_introl eq_refl) E) as [x P]. exists (Some x). split; [apply f_move_named; auto; cbn; now rewrite P|].
        apply IH. split; [intros l' Hl; apply V; right; auto|].
        destruct B as [[Ab _]|(y & R & ->)]; [inv Ab; congruence|]. apply required_cons in R as [R|(Ab & _ & P')]; [right; eauto|]. left. split; auto. congruence.
    + apply str_eqb_neq in E. split.
      * intros (v1 & A & B). apply f_move_other in A; auto. subst v1. apply IH in B as [V B]. split; [intros l' [<-|Hl] Hk; [congruence|eauto]|].
        destruct B as [[Ab ->]|(y & R & ->)]; [left; split; auto; constructor; auto|right; exists y; split; auto; apply required_cons; auto].
      * intros [V B]. exists v. split; [apply f_move_other; auto|]. apply IH. split; [intros l' Hl; apply V; right; auto|].
        destruct B as [[Ab ->]|(y & R & ->)]; [left; inv Ab; auto|right; exists y; split; auto; apply required_cons in R as [R|(_ & K & _)]; [auto|congruence]].
Qed.
(** ** A whole component *)
Definition field_spec (n : str) (f : field) (ls : list content_line) : fty f -> Prop :=
  match f with
  | FReq _ p => required p n ls
  | FOpt _ p => optional p n ls
  | FVec _ p => repeated p n ls
  | FApp _ p => appended p n ls
  | FIgn _ => fun v => v = []
  end.
Fixpoint fields_spec (s : schema) (ls : list content_line) : fields s -> Prop :=
  match s with
  | [] => fun _ => True
  | (n, f) :: r => fun vs => field_spec n f ls (fst vs) /\ fields_spec r ls (snd vs)
  end.
Lemma required_iff {T} (p : content_line -> outcome T) n ls v :
  required p n ls v <-> match last_opt (filter (fun l => str_eqb (cl_key l) n) ls) with None => Err EParser | Some l => p l end = Ok v.
Proof.
  unfold required. fold (lines_named n ls). split.
  - intros (l & H & P). apply last_line_iff in H. now rewrite H.
  - destruct (last_opt (lines_named n ls)) as [l|] eqn:E; [|discriminate]. intros P. exists l. split; auto. now apply last_line_iff.
Qed.
Lemma new_run n f ls v : (exists v0, f_new n f ls = Ok v0 /\ f_run n f ls v0 v) <-> field_spec n f ls v.
Proof.
  destruct f as [T S p|T S p|T S p|T S p|T S]; cbn [f_new field_spec].
  - rewrite required_iff. split; [intros (v0 & A & B); apply run_req in B; now subst|intros H; exists v; split; auto; now apply run_req].
  - unfold optional. split.
    + intros (v0 & A & B). inv A. apply run_opt in B as [V [[Ab ->]|(x & R & ->)]]; auto.
    + intros [V B]. exists None. split; auto. apply run_opt. split; auto. destruct v; eauto.
  - split; [intros (v0 & A & B); inv A; apply run_vec in B as (vs & B & ->); auto|intros H; exists []; split; auto; apply run_vec; eauto].
  - split; [intros (v0 & A & B); inv A; apply run_app in B as (vs & B & ->); auto|intros H; exists []; split; auto; apply run_app; eauto].
  - split; [intros (v0 & A & B); inv A; now apply run_ign in B|intros ->; exists []; split; auto; now apply run_ign].
Qed.
Lemma fields_new_run s ls vs : (exists vs0, new_fields s ls = Ok vs0 /\ fields_run s ls vs0 vs) <-> fields_spec s ls vs.
Proof.
  induction s as [|[n f] r IH]; cbn [new_fields fields_run fields_spec fields] in *.
  - split; [auto|exists tt; auto].
  - destruct vs as [v vs]. cbn [fst snd]. rewrite <- IH, <- new_run. split.
    + intros ([v0 vs0] & A & B & C). cbn in B, C. destruct (f_new n f ls) as [w|e|]; cbn in A; try discriminate.
      destruct (new_fields r ls) as [ws|e|]; cbn in A; try discriminate. inv A. eauto 6.
    + intros [(v0 & A & B) (vs0 & C & D)]. exists (v0, vs0). rewrite A, C. cbn. auto.
Qed.
(** The maps *)
Definition ext_class (known : list str) (x : bool) (n : str) : Prop := ~ In n known /\ (if x then begins (lit "X-") n else ~ begins (lit "X-") n).
Lemma ext_run_get known ls x i x' i' : ext_run known ls x i x' i' -> forall n,
  mget n x' = (match last_opt (lines_named n ls) with Some l => if in_dec (list_eq_dec Z.eq_dec) n known then mget n x else if starts_with (lit "X-") n then Some l else mget n x | None => mget n x end) /\
  mget n i' = (match last_opt (lines_named n ls) with Some l => if in_dec (list_eq_dec Z.eq_dec) n known then mget n i else if starts_with (lit "X-") n then mget n i else Some l | None => mget n i end).
Proof.
  induction 1 as [|l ls x i x1 i1 x' i' M R IH]; intros n; [auto|]. destruct (IH n) as [A B]. clear IH. rewrite A, B. clear A B.
  rewrite lines_named_cons. destruct (str_eqb (cl_key l) n) eqn:E.
  - apply str_eqb_eq in E. subst n. unfold ext_move in M.
    assert (L : last_opt (l :: lines_named (cl_key l) ls) = match last_opt (lines_named (cl_key l) ls) with Some y => Some y | None => Some l end).
    { destruct (lines_named (cl_key l) ls) as [|y r] eqn:F; auto.
      destruct (exists_last (l := y :: r) ltac:(discriminate)) as (u & z & Hu). rewrite Hu.
      change (l :: u ++ [z]) with ((l :: u) ++ [z]). now rewrite !last_opt_app. }
    rewrite L. clear L. destruct (in_dec _ (cl_key l) known) as [K|K].
    + destruct M as [(_ & -> & ->)|[(N & _)|(N & _)]]; try tauto. destruct (last_opt (lines_named (cl_key l) ls)); auto.
    + destruct (starts_with (lit "X-") (cl_key l)) eqn:X.
      * apply begins_starts in X. destruct M as [(N & _)|[(_ & _ & -> & ->)|(_ & N & _)]]; try tauto.
        rewrite mget_minsert_eq. destruct (last_opt (lines_named (cl_key l) ls)); auto.
      * destruct M as [(N & _)|[(_ & N & _)|(_ & _ & -> & ->)]]; try tauto; [apply begins_starts in N; congruence|].
        rewrite mget_minsert_eq. destruct (last_opt (lines_named (cl_key l) ls)); auto.
  - apply str_eqb_neq in E. assert (x1 = x /\ i1 = i \/ x1 = minsert (cl_key l) l x /\ i1 = i \/ x1 = x /\ i1 = minsert (cl_key l) l i) as [[-> ->]|[[-> ->]|[-> ->]]] by (unfold ext_move in M; intuition).
    + auto.
    + rewrite !mget_minsert_neq by congruence. auto.
    + rewrite !mget_minsert_neq by congruence. auto.
Qed.
Lemma ext_run_sorted known ls x i x' i' : ext_run known ls x i x' i' -> msorted x -> msorted i -> msorted x' /\ msorted i'.
Proof.
  induction 1 as [|l ls x i x1 i1 x' i' M R IH]; intros A B; auto. apply IH; unfold ext_move in M; intuition; subst; auto using minsert_sorted.
Qed.
Lemma ext_run_total known ls x i : exists x' i', ext_run known ls x i x' i'.
Proof.
  revert x i; induction ls as [|l ls IH]; intros x i; [do 2 eexists; constructor|].
  assert (exists x1 i1, ext_move known l x i x1 i1) as (x1 & i1 & M).
  { unfold ext_move. destruct (in_dec_str (cl_key l) known); [eauto 6|]. destruct (starts_with (lit "X-") (cl_key l)) eqn:X.
    - apply begins_starts in X. eauto 8.
    - assert (~ begins (lit "X-") (cl_key l)) by (rewrite <- begins_starts; congruence). eauto 9. }
  destruct (IH x1 i1) as (x' & i' & R). exists x', i'. econstructor; eauto.
Qed.
Lemma ext_spec known ls x i : ext_run known ls [] [] x i <-> extensions known ls x i.
Proof.
  assert (G : forall x i, ext_run known ls [] [] x i -> extensions known ls x i).
  { clear x i. intros x i H. destruct (ext_run_sorted _ _ _ _ _ _ H (ms_nil) (ms_nil)) as [A B]. split; [now apply sorted_map_iff|]. split; [now apply sorted_map_iff|].
    split; intros n l; destruct (ext_run_get _ _ _ _ _ _ H n) as [Gx Gi]; [rewrite Gx|rewrite Gi]; rewrite last_line_iff; cbn [mget];
      (destruct (last_opt (lines_named n ls)) as [y|]; [|split; [discriminate|intros (_ & _ & ?); discriminate]]);
      (destruct (in_dec _ n known) as [K|K]; [split; [discriminate|tauto]|]);
      (destruct (starts_with (lit "X-") n) eqn:X; [apply begins_starts in X|assert (X' : ~ begins (lit "X-") n) by (rewrite <- begins_starts; congruence)]);
      split; try tauto; try discriminate; intros Z; inv Z; auto; tauto. }
  split; [apply G|]. intros (A & B & C & D). destruct (ext_run_total known ls [] []) as (x' & i' & R). pose proof (G _ _ R) as (A' & B' & C' & D').
  assert (Ex : x = x'). { apply msorted_ext; try (now apply sorted_map_iff). intros k. destruct (mget k x) as [l|] eqn:Q.
    - symmetry. apply C'. now apply C.
    - destruct (mget k x') as [l|] eqn:Q'; auto. apply C' in Q'. apply C in Q'. congruence. }
  assert (Ei : i = i'). { apply msorted_ext; try (now apply sorted_map_iff). intros k. destruct (mget k i) as [l|] eqn:Q.
    - symmetry. apply D'. now apply D.
    - destruct (mget k i') as [l|] eqn:Q'; auto. apply D' in Q'. apply D in Q'. congruence. }
  now subst.
Qed.
Theorem comp_spec s ls (c : comp s) : NoDup (arm_names s) ->
  comp_of_lines s ls = Ok c <-> fields_spec s ls (c_fields c) /\ extensions (arm_names s) ls (c_xprop c) (c_iana c).
Proof.
  intros Hd. unfold comp_of_lines. rewrite <- fields_new_run, <- ext_spec. split.
  - destruct (new_fields s ls) as [vs|e|] eqn:N; cbn [obind]; try discriminate. intros H. apply step_lines_iff in H as [A B]; auto. cbn in *. eauto.
  - intros [(vs0 & N & R) X]. rewrite N. cbn [obind]. apply step_lines_iff; auto.
Qed.
