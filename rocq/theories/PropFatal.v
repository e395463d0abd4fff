(** * C16: exactly which inputs panic *)
From Verif Require Import Base Env Chrono Nom Types Ser Parser Derive Components BaseFacts NomFacts SpecLine LineFacts SpecComp SpecFields DeriveFacts SpecCal SpecDur PropDate PropDur PropRule PropComp SpecFile PropFile PropPanic SpecFatal PropDurAll.

(** ** Values *)
Lemma duration_value_panic s : p_duration s = PPanic <-> fatal_duration s.
Proof.
  rewrite <- (proj1 (C24_panics_iff (cl_of_str s))). unfold parse_dur. cbn [cl_of_str cl_value]. destruct (p_duration s); cbn; split; congruence.
Qed.
Lemma no_item r : p_item r = PErr <-> forall k w, key_text k -> r <> k ++ [61] ++ w.
Proof.
  split.
  - intros H k w Hk ->. destruct (splitn2 59 w) as [v o] eqn:S. destruct o as [t|].
    + assert (W : w = v ++ 59 :: t /\ ~ In 59 v).
      { clear -S. revert v S. induction w as [|c w IH]; intros v; cbn [splitn2]; [discriminate|]. destruct (Z.eqb_spec c 59) as [->|N].
        - intros H. inv H. auto.
        - destruct (splitn2 59 w) as [h u]. intros H. inv H. destruct (IH h eq_refl) as [-> X]. split; auto. intros [K|K]; auto. }
      destruct W as [-> Hv]. rewrite item_reads in H by eauto. discriminate.
    + apply splitn2_None_inv in S as [-> Hv]. pose proof (item_reads k w [] Hk Hv (or_introl eq_refl)) as P. rewrite app_nil_r in P. congruence.
  - intros H. destruct (p_item r) as [r' [k v]| |] eqn:P; auto.
    + apply item_inv in P as (K & _ & [[-> _]| ->]); exfalso; eapply H; eauto.
    + now apply calm_item in P.
Qed.
Lemma items_run l tail : Forall rule_part l -> l <> [] -> tail = [] \/ (exists r, tail = 59 :: r /\ p_item r = PErr) ->
  exists r, many_run p_item (rule_text l ++ tail) l r.
Proof.
  intros Hl Hn Ht. exists (match tail with [] => [] | _ :: r => r end). revert Hn. induction Hl as [|[k v] l [Hk Hv] Hl IH]; [congruence|]. intros _. cbn [fst snd] in *.
  destruct l as [|kv l].
  - cbn [rule_text map join fst snd]. rewrite <- !app_assoc. eapply mr_cons.
    + apply item_reads; auto. destruct Ht as [->|(r & -> & _)]; eauto.
    + rewrite !app_length. cbn [length]. destruct tail; cbn [length]; lia.
    + constructor. destruct Ht as [->|(r & -> & P)]; auto.
  - change (rule_text ((k, v) :: kv :: l)) with ((k ++ [61] ++ v) ++ [59] ++ rule_text (kv :: l)). rewrite <- !app_assoc. eapply mr_cons.
    + apply item_reads; auto. right. eexists. reflexivity.
    + rewrite !app_length. cbn [length app]. rewrite app_length. lia.
    + cbn [app]. apply IH. discriminate.
Qed.
Lemma items_end s l r : many_run p_item s l r -> l <> [] ->
  exists tail, s = rule_text l ++ tail /\ (tail = [] \/ exists x, tail = 59 :: x /\ p_item x = PErr).
Proof.
  induction 1 as [s H|s r1 [k v] l r' H L R IH]; [congruence|]. intros _. apply item_inv in H as (K & V & S).
  destruct l as [|kv l].
  - inv R. cbn [rule_text map join fst snd]. destruct S as [[-> ->]| ->]; [exists []; rewrite app_nil_r; auto|]. exists (59 :: r'). rewrite <- ?app_assoc. eauto.
  - destruct (IH ltac:(discriminate)) as (tail & -> & T). exists tail. split; auto.
    change (rule_text ((k, v) :: kv :: l)) with ((k ++ [61] ++ v) ++ [59] ++ rule_text (kv :: l)).
    destruct S as [[_ S]| ->]; [|rewrite <- ?app_assoc; auto]. exfalso. apply app_eq_nil in S as [S _]. destruct kv as [k0 v0], l; cbn [rule_text map join fst snd] in S;
      apply app_eq_nil in S as [S1 S2]; try discriminate; apply app_eq_nil in S1 as [_ S1]; discriminate.
Qed.
Lemma last_binding_none {V} (l : list (str * V)) n : last_binding l n = None <-> Forall (fun kv => fst kv <> n) l.
Proof.
  split; [apply last_binding_None|]. induction l as [|kv l IH] using rev_ind; intros H; [reflexivity|]. apply Forall_app in H as [H1 H2].
  rewrite last_binding_app. unfold last_binding at 1. cbn [fold_left]. inv H2. replace (str_eqb n (fst kv)) with false by (symmetry; apply str_eqb_neq; congruence). auto.
Qed.
Theorem C16_rule_exact : forall c, parse_rrule c = Panic <-> fatal_rule (cl_value c).
Proof.
  intros c. split.
  - unfold parse_rrule. intros H. apply pfinish_panic in H. apply pmap_res_panic in H as [H|(r & l & P & M)].
    + exfalso. revert H. pose proof calm_item. pose proof tails_item. unfold many1. apply calm_bind; [auto|intros a]. apply calm_bind; [auto with nom|intros b]. auto with nom.
    + unfold many1 in P. apply pbind_POk in P as (r0 & a & P & Q). apply pbind_POk in Q as (r1 & l' & Q & R). apply pret_POk in R as [-> ->].
      apply many0_POk in Q; [|apply tails_item].
      assert (R : many_run p_item (cl_value c) (a :: l') r1).
      { econstructor; eauto. destruct a as [k v]. apply item_inv in P as (_ & _ & [[-> ->]| ->]); rewrite !app_length; cbn; lia. }
      destruct (items_end _ _ _ R ltac:(discriminate)) as (tail & V & T). exists (a :: l'), tail. split; [discriminate|]. split; [exact V|]. split.
      * apply items_panic, last_binding_None in M. apply items_keys in R. rewrite Forall_forall in *. intros kv Hkv. destruct (R kv Hkv). specialize (M kv Hkv). auto.
      * destruct T as [->|(x & -> & T)]; auto. right. exists x. split; auto. now apply no_item.
  - intros (l & tail & Hn & V & F & T).
    assert (Fp : Forall rule_part l) by (eapply Forall_impl; [|exact F]; intros kv (A & B & _); split; auto).
    assert (Ff : last_binding l (lit "FREQ") = None) by (apply last_binding_none; eapply Forall_impl; [|exact F]; intros kv (_ & _ & A); exact A).
    destruct (items_run l tail Fp Hn) as [r R].
    { destruct T as [->|(x & -> & T)]; auto. right. exists x. split; auto. now apply no_item. }
    unfold parse_rrule, pmap_res. change (join [59] (map (fun kv => fst kv ++ [61] ++ snd kv) l)) with (rule_text l) in V. rewrite V.
    inversion R as [|s0 r0 a l0 r1 Pa _ Ra]; subst; [congruence|].
    unfold many1, pbind. rewrite Pa. apply (many0_POk _ tails_item) in Ra. rewrite Ra. cbn [pret].
    unfold recur_of_items. rewrite <- map_of_get in Ff. unfold map_of in Ff. now rewrite Ff.
Qed.
Lemma splitn2_some c s a b : splitn2 c s = (a, Some b) -> s = a ++ c :: b /\ ~ In c a.
Proof.
  revert a. induction s as [|x s IH]; intros a; cbn [splitn2]; [discriminate|]. destruct (Z.eqb_spec x c) as [->|N].
  - intros H. inv H. auto.
  - destruct (splitn2 c s) as [h t] eqn:S. intros H. inv H. destruct (IH h eq_refl) as [-> X]. split; auto. intros [K|K]; auto.
Qed.
Lemma period_exact x : parse_period x = Panic <-> fatal_period x.
Proof.
  unfold parse_period, fatal_period, parse_datetime. cbn [cl_of_str cl_value]. split.
  - destruct (splitn2 47 x) as [a o] eqn:Sp. destruct (pfinish (p_date_time a)) as [d|e|] eqn:D; cbn [obind]; try discriminate.
    2:{ apply pfinish_panic in D. now apply calm_date_time in D. }
    destruct o as [b|].
    + apply splitn2_some in Sp as [-> Ha]. destruct (starts_with (lit "P") b) eqn:B.
      * apply begins_starts in B as [y ->]. destruct (pfinish (p_duration (lit "P" ++ y))) as [z|e|] eqn:Q; cbn [obind]; try discriminate. intros _.
        apply pfinish_panic, duration_value_panic in Q. exists a, d. split; auto. split; auto. right. exists y. split; auto.
      * destruct (pfinish (p_date_time b)) as [y|e|] eqn:Q; cbn [obind]; try discriminate. apply pfinish_panic in Q. now apply calm_date_time in Q.
    + intros _. apply splitn2_None_inv in Sp as [-> Ha]. exists x, d. auto.
  - intros (a & d & Ha & D & H). destruct H as [->|(b & -> & F)].
    + rewrite splitn2_none by auto. rewrite D. reflexivity.
    + change ([47; 80] ++ b) with (47 :: 80 :: b). rewrite splitn2_app by auto. rewrite D. cbn [obind].
      change (starts_with (lit "P") (80 :: b)) with true. cbv iota. apply duration_value_panic in F. rewrite F. reflexivity.
Qed.
Lemma periods_exact v : ocollect parse_period (split_on 44 v) = Panic <-> fatal_periods v.
Proof.
  assert (One : forall y, ~ In 44 y -> (exists p, parse_freebusy (cl_of_str y) = Ok p) <-> exists q, parse_period y = Ok q).
  { intros y Hy. unfold parse_freebusy. cbn [cl_of_str cl_value]. rewrite split_on_none by auto. cbn [ocollect]. destruct (parse_period y); cbn; split; intros [p P]; try discriminate; eauto. }
  split.
  - intros H. assert (X : exists good x rest, split_on 44 v = good ++ x :: rest /\ Forall (fun y => exists q, parse_period y = Ok q) good /\ parse_period x = Panic).
    { clear -H. induction (split_on 44 v) as [|a l IH]; cbn [ocollect] in H; [discriminate|]. destruct (parse_period a) as [q|e|] eqn:P; cbn [obind] in H; try discriminate.
      - destruct (ocollect parse_period l) eqn:Q; cbn [obind] in H; try discriminate. destruct (IH eq_refl) as (g & x & r & -> & G & X).
        exists (a :: g), x, r. split; auto. split; auto. constructor; eauto.
      - exists [], a, l. auto. }
    destruct X as (g & x & r & Ev & G & X). pose proof (split_on_notin 44 v) as N. pose proof (join_split_on 44 v) as J. rewrite Ev in *.
    exists g, x, r. split; auto. split; auto. split; [|now apply period_exact].
    apply Forall_app in N as [N _]. rewrite Forall_forall in *. intros y Hy. apply One; auto.
  - intros (g & x & r & -> & N & G & X). rewrite split_on_join; auto; [|destruct g; discriminate]. apply period_exact in X.
    apply Forall_app in N as [N _]. induction G as [|y g Hy G IH]; cbn [app ocollect]; [now rewrite X|].
    inv N. apply One in Hy as [q ->]; auto. cbn [obind]. rewrite IH; auto.
Qed.
Theorem C16_freebusy_exact : forall c, parse_freebusy c = Panic <-> fatal_periods (cl_value c).
Proof. intros c. apply periods_exact. Qed.
Theorem C16_rdate_exact : forall c, parse_rdate c = Panic <-> mget (lit "VALUE") (cl_params c) = Some (lit "PERIOD") /\ fatal_periods (cl_value c).
Proof.
  intros c. split.
  - intros H. pose proof (rdate_panics c H) as [V _]. split; auto. unfold parse_rdate in H. rewrite V, str_eqb_refl in H. apply periods_exact.
    destruct (ocollect parse_period _); cbn in H; congruence.
  - intros [V F]. unfold parse_rdate. rewrite V, str_eqb_refl. apply periods_exact in F. now rewrite F.
Qed.
Theorem C16_duration_exact : forall c, parse_dur c = Panic <-> fatal_duration (cl_value c).
Proof. intros c. apply C24_panics_iff. Qed.
Theorem C16_trigger_exact : forall c, parse_trigger c = Panic <-> fatal_duration (cl_value c).
Proof.
  intros c. rewrite <- duration_value_panic. unfold parse_trigger, palt, pmap, pbind. destruct (p_duration (cl_value c)) as [r d| |] eqn:P; cbn; split; try congruence.
  destruct (p_date_time (cl_value c)) eqn:Q; cbn; try congruence. now apply calm_date_time in Q.
Qed.

(** ** Components *)
Definition f_fatal (f : field) (l : content_line) : Prop :=
  match f with FOpt _ p | FVec _ p => p l = Panic | FApp _ p => p l = Panic | FReq _ _ | FIgn _ => False end.
Definition s_fatal (s : schema) (l : content_line) : Prop := exists n f, In (n, f) s /\ cl_key l = n /\ f_fatal f l.
Lemma s_fatal_arm s l : s_fatal s l -> In (cl_key l) (arm_names s).
Proof.
  intros (n & f & H & <- & F). unfold arm_names. apply in_map_iff. exists (cl_key l, f). split; auto. apply filter_In. split; auto. destruct f; auto; destruct F.
Qed.
Lemma s_fatal_not_req s l : NoDup (arm_names s) -> s_fatal s l -> ~ In (cl_key l) (req_names s).
Proof.
  intros Hd (n & f & H & K & F) R. subst n. revert Hd R H. induction s as [|[m g] r IH]; intros Hd R H; [destruct H|].
  rewrite arm_names_cons in Hd. rewrite req_names_cons in R. destruct H as [H|H].
  - inv H. assert (A : has_arm f = true) by (destruct f; auto; destruct F). assert (Q : is_req f = false) by (destruct f; auto; destruct F).
    rewrite A in Hd. rewrite Q in R. inv Hd. apply H1. now apply req_arm.
  - assert (Ar : In (cl_key l) (arm_names r)) by (apply s_fatal_arm; exists (cl_key l), f; auto).
    destruct (is_req g) eqn:Q.
    + destruct g; try discriminate. cbn [has_arm] in Hd. inv Hd. destruct R as [->|R]; auto.
    + apply IH; auto. destruct (has_arm g); [now inv Hd|auto].
Qed.
Lemma step_fatal s (c : comp s) l : NoDup (arm_names s) -> (step_line c l = Panic <-> s_fatal s l).
Proof.
  intros Hd. unfold step_line. destruct c as [vs x i]. cbn [c_fields c_xprop c_iana].
  assert (G : step_fields s l vs = Some Panic <-> s_fatal s l).
  { clear x i. unfold s_fatal. revert Hd. induction s as [|[n f] r IH]; intros Hd; cbn [step_fields].
    - split; [discriminate|]. intros (n & f & [] & _).
    - rewrite arm_names_cons in Hd. destruct (has_arm f && str_eqb (cl_key l) n) eqn:A.
      + apply andb_prop in A as [A K]. apply str_eqb_eq in K. rewrite A in Hd. inversion Hd as [|? ? Hni Hd']; subst.
        split.
        * intros H. assert (f_step f l (fst vs) = Panic) as F by (destruct (f_step f l (fst vs)); cbn in H; congruence).
          exists (cl_key l), f. split; [now left|]. split; auto. destruct f; cbn [f_step f_fatal] in *; try discriminate; destruct (p l); cbn in F; congruence.
        * intros (n & g & [H|H] & Kn & F).
          -- inv H. destruct g; cbn [f_step f_fatal] in *; [destruct F|now rewrite F|now rewrite F|now rewrite F|destruct F].
          -- exfalso. apply Hni. apply (s_fatal_arm r l). exists n, g. auto.
      + destruct (step_fields r l (snd vs)) as [o|] eqn:Sr.
        * cbn [option_map]. assert (IH' := IH (snd vs)). rewrite Sr in IH'. split.
          -- intros H. assert (o = Panic) as -> by (destruct o; cbn in H; congruence). destruct IH' as [I1 _]; [destruct (has_arm f); [now inv Hd|auto]|].
             destruct (I1 eq_refl) as (n' & g & P & Q). exists n', g. cbn. tauto.
          -- intros (n' & g & [H|H] & Kn & F).
             ++ inv H. exfalso. apply andb_false_iff in A as [A|A]; [destruct g; try discriminate; exact F|]. rewrite str_eqb_refl in A. discriminate.
             ++ destruct IH' as [_ I2]; [destruct (has_arm f); [now inv Hd|auto]|]. assert (Some o = Some Panic) as Q by (apply I2; eauto). inv Q. reflexivity.
        * cbn [option_map]. split; [discriminate|]. intros (n' & g & [H|H] & Kn & F).
          -- inv H. exfalso. apply andb_false_iff in A as [A|A]; [destruct g; try discriminate; exact F|]. rewrite str_eqb_refl in A. discriminate.
          -- exfalso. apply step_fields_none in Sr. apply Sr. apply s_fatal_arm. exists n', g. auto. }
  rewrite <- G. destruct (step_fields s l vs) as [[w|e|]|]; cbn [obind]; split; try congruence.
  all: destruct (starts_with _ _); congruence.
Qed.
Definition keep_req (s : schema) (ls : list content_line) : list content_line := filter (fun x => existsb (str_eqb (cl_key x)) (req_names s)) ls.
Lemma new_fields_cut s s0 a l b : ~ In (cl_key l) (req_names s0) -> (forall n, In n (req_names s) -> In n (req_names s0)) ->
  new_fields s (a ++ l :: b) = new_fields s (a ++ keep_req s0 b).
Proof.
  intros Hl. induction s as [|[n f] r IH]; intros Hs; cbn [new_fields]; auto. rewrite req_names_cons in Hs.
  assert (R : new_fields r (a ++ l :: b) = new_fields r (a ++ keep_req s0 b)) by (apply IH; intros m Hm; apply Hs; destruct (is_req f); [now right|auto]).
  rewrite R. replace (f_new n f (a ++ l :: b)) with (f_new n f (a ++ keep_req s0 b)); auto.
  destruct f; cbn [f_new is_req] in *; auto. assert (Hn : In n (req_names s0)) by (apply Hs; now left).
  rewrite !filter_app. cbn [filter]. replace (str_eqb (cl_key l) n) with false by (symmetry; apply str_eqb_neq; congruence).
  replace (filter (fun l0 => str_eqb (cl_key l0) n) (keep_req s0 b)) with (filter (fun l0 => str_eqb (cl_key l0) n) b); auto.
  unfold keep_req. clear -Hn. induction b as [|x b IH]; cbn [filter]; auto. destruct (existsb (str_eqb (cl_key x)) (req_names s0)) eqn:X; cbn [filter].
  - now rewrite IH.
  - replace (str_eqb (cl_key x) n) with false; auto. symmetry. apply str_eqb_neq. intros <-.
    assert (existsb (str_eqb (cl_key x)) (req_names s0) = true) by (apply existsb_exists; exists (cl_key x); split; auto; apply str_eqb_refl). congruence.
Qed.
Lemma step_req_lines s (c : comp s) ls : NoDup (arm_names s) -> step_lines c (keep_req s ls) = Ok c.
Proof.
  intros Hd. unfold keep_req. induction ls as [|x ls IH]; cbn [filter]; auto. destruct (existsb (str_eqb (cl_key x)) (req_names s)) eqn:X; auto.
  cbn [step_lines]. apply existsb_exists in X as (n & Hn & K). apply str_eqb_eq in K. subst n. rewrite step_line_req by auto. exact IH.
Qed.
Lemma step_lines_panic s (c : comp s) ls : step_lines c ls = Panic <-> exists a l b c', ls = a ++ l :: b /\ step_lines c a = Ok c' /\ step_line c' l = Panic.
Proof.
  split.
  - revert c. induction ls as [|l ls IH]; intros c; cbn [step_lines]; [discriminate|]. destruct (step_line c l) as [c1|e|] eqn:Sl; cbn [obind]; try discriminate.
    + intros H. destruct (IH _ H) as (a & x & b & c' & -> & P & Q). exists (l :: a), x, b, c'. split; auto. split; auto. cbn [step_lines]. now rewrite Sl.
    + intros _. exists [], l, ls, c. auto.
  - intros (a & l & b & c' & -> & P & Q). rewrite step_lines_app, P. cbn [obind step_lines]. now rewrite Q.
Qed.
Lemma comp_panic_iff s ls : NoDup (arm_names s) ->
  (comp_of_lines s ls = Panic <->
   new_fields s ls = Panic \/ exists a l b c, ls = a ++ l :: b /\ s_fatal s l /\ comp_of_lines s (a ++ keep_req s b) = Ok c).
Proof.
  intros Hd. unfold comp_of_lines. split.
  - destruct (new_fields s ls) as [vs|e|] eqn:N; cbn [obind]; try discriminate; [|auto]. intros H. right.
    apply step_lines_panic in H as (a & l & b & c' & -> & P & Q). apply step_fatal in Q; auto. exists a, l, b, c'. split; auto. split; auto.
    rewrite (new_fields_cut s s) in N by (auto; now apply s_fatal_not_req). rewrite N. cbn [obind]. rewrite step_lines_app, P. cbn [obind]. now apply step_req_lines.
  - intros [->|(a & l & b & c & -> & F & P)]; [reflexivity|]. rewrite (new_fields_cut s s) by (auto; now apply s_fatal_not_req).
    destruct (new_fields s (a ++ keep_req s b)) as [vs|e|]; cbn [obind] in *; try discriminate. rewrite step_lines_app in P.
    destruct (step_lines (mk_comp vs [] []) a) as [c1|e|] eqn:Q; cbn [obind] in P; try discriminate.
    apply step_lines_panic. exists a, l, b, c1. split; auto. split; auto. now apply step_fatal.
Qed.
Lemma new_fields_calm s ls : Forall (fun nf => f_calm (snd nf)) s -> new_fields s ls <> Panic.
Proof.
  induction 1 as [|[n f] r C _ IH]; cbn [new_fields]; [discriminate|]. cbn [snd] in C.
  assert (f_new n f ls <> Panic). { destruct f; cbn [f_new]; try discriminate. destruct (last_opt _); [apply C|discriminate]. }
  destruct (f_new n f ls); cbn [obind]; try congruence. destruct (new_fields r ls); cbn [obind]; congruence.
Qed.
(** From the generated reader to the specification of a crash. *)
Lemma crash_iff {R} s (of : comp s -> R) (read : list content_line -> R -> Prop) needed fatal ls :
  NoDup (arm_names s) -> needed = req_names s -> (forall l, s_fatal s l <-> fatal l) ->
  (forall ls v, omap of (comp_of_lines s ls) = Ok v <-> read ls v) ->
  (omap of (comp_of_lines s ls) = Panic <-> new_fields s ls = Panic \/ crash read needed fatal ls).
Proof.
  intros Hd -> Hf Hr.
  assert (P : omap of (comp_of_lines s ls) = Panic <-> comp_of_lines s ls = Panic) by (destruct (comp_of_lines s ls); cbn; split; congruence).
  rewrite P, comp_panic_iff by auto. unfold crash. fold (keep_req s).
  assert (X : (exists a l b c, ls = a ++ l :: b /\ s_fatal s l /\ comp_of_lines s (a ++ keep_req s b) = Ok c) <->
    exists before l after v, ls = before ++ l :: after /\ fatal l /\ read (before ++ filter (fun x => existsb (str_eqb (cl_key x)) (req_names s)) after) v).
  { split.
    - intros (a & l & b & c & -> & F & Q). exists a, l, b, (of c). split; auto. split; [now apply Hf|]. apply Hr. unfold keep_req in Q. now rewrite Q.
    - intros (a & l & b & v & -> & F & Q). apply Hr in Q. fold (keep_req s b) in Q. destruct (comp_of_lines s (a ++ keep_req s b)) as [c|e|] eqn:Y; cbn in Q; try discriminate.
      exists a, l, b, c. split; auto. split; [now apply Hf|]. exact Y. }
  tauto.
Qed.

Section PropFatal.
Context {E : Env}.
(** Which fields of a schema can panic. *)
Lemma fatal_incl s (fatal : content_line -> Prop) : Forall (fun nf => forall l, cl_key l = fst nf -> f_fatal (snd nf) l -> fatal l) s -> forall l, s_fatal s l -> fatal l.
Proof. intros H l (n & f & Hin & K & F). rewrite Forall_forall in H. exact (H _ Hin l K F). Qed.
Ltac no_panic := intros l K; cbn [fst snd f_fatal] in *; intros P; exfalso; revert P;
  first [apply calm_text|apply calm_uri|apply calm_datetime|apply calm_date|apply calm_offset|apply calm_geo|apply calm_rs|apply calm_exdate
        |apply calm_ints|apply calm_words|discriminate|exact (fun x => x)].
Ltac may_panic := intros l K; cbn [fst snd f_fatal] in *; intros F;
  unfold fatal_scheduled, fatal_recurrence, fatal_rrule_line, fatal_rdate_line, fatal_duration_line, fatal_freebusy_line;
  first [apply C16_rule_exact in F|apply C16_rdate_exact in F|apply C16_duration_exact in F|apply C16_freebusy_exact in F]; tauto.
Ltac only_fatal := apply fatal_incl; repeat (apply Forall_cons; [first [no_panic|may_panic]|]); apply Forall_nil.
Ltac member K := eexists _, _; split; [|split; [exact K|]]; [cbn [In]; repeat (first [left; reflexivity|right])|cbn [f_fatal]].
Ltac scheduled := intros l; split; [revert l; only_fatal|
  intros [[K F]|[[K [V F]]|[K F]]]; [member K; now apply C16_rule_exact|member K; apply C16_rdate_exact; auto|member K; now apply C16_duration_exact]].
Ltac recurring := intros l; split; [revert l; only_fatal|
  intros [[K F]|[K [V F]]]; [member K; now apply C16_rule_exact|member K; apply C16_rdate_exact; auto]].
Lemma vevent_fatal l : s_fatal vevent_schema l <-> fatal_scheduled l. Proof. revert l. scheduled. Qed.
Lemma vtodo_fatal l : s_fatal vtodo_schema l <-> fatal_scheduled l. Proof. revert l. scheduled. Qed.
Lemma vjournal_fatal l : s_fatal vjournal_schema l <-> fatal_recurrence l. Proof. revert l. recurring. Qed.
Lemma standard_fatal l : s_fatal standard_schema l <-> fatal_recurrence l. Proof. revert l. recurring. Qed.
Lemma daylight_fatal l : s_fatal daylight_schema l <-> fatal_recurrence l. Proof. revert l. recurring. Qed.
Lemma vfreebusy_fatal l : s_fatal vfreebusy_schema l <-> fatal_freebusy_line l.
Proof. revert l. intros l; split; [revert l; only_fatal|]. intros [K F]. member K. now apply C16_freebusy_exact. Qed.
Ltac timed := intros l; split; [revert l; only_fatal|]; intros [K F]; member K; now apply C16_duration_exact.
Lemma audio_fatal l : s_fatal audio_schema l <-> fatal_duration_line l. Proof. revert l. timed. Qed.
Lemma display_fatal l : s_fatal display_schema l <-> fatal_duration_line l. Proof. revert l. timed. Qed.
Lemma email_fatal l : s_fatal email_schema l <-> fatal_duration_line l. Proof. revert l. timed. Qed.
Lemma vtimezone_fatal : forall l, s_fatal vtimezone_schema l -> False. Proof. apply (fatal_incl vtimezone_schema (fun _ => False)). repeat (apply Forall_cons; [no_panic|]); apply Forall_nil. Qed.
Lemma vcalendar_fatal : forall l, s_fatal vcalendar_schema l -> False. Proof. apply (fatal_incl vcalendar_schema (fun _ => False)). repeat (apply Forall_cons; [no_panic|]); apply Forall_nil. Qed.
Ltac all_calm := repeat (apply Forall_cons; [cbn [snd f_calm]; first [exact I|intros ?; first [apply calm_text|apply calm_datetime|apply calm_date|apply calm_offset]]|]); apply Forall_nil.
Lemma crash_calm {R} s (of : comp s -> R) (read : list content_line -> R -> Prop) needed fatal ls :
  NoDup (arm_names s) -> needed = req_names s -> (forall l, s_fatal s l <-> fatal l) -> Forall (fun nf => f_calm (snd nf)) s ->
  (forall ls v, omap of (comp_of_lines s ls) = Ok v <-> read ls v) ->
  (omap of (comp_of_lines s ls) = Panic <-> crash read needed fatal ls).
Proof. intros D N F C Hr. rewrite (crash_iff s of read needed fatal ls D N F Hr). pose proof (new_fields_calm s ls C). tauto. Qed.
Theorem C16_event_lines : forall ls, vevent_of_lines ls = Panic <-> event_crash ls.
Proof. intros ls. apply (crash_calm vevent_schema vevent_of vevent_read vevent_required fatal_scheduled ls vevent_distinct eq_refl vevent_fatal); [all_calm|exact C11_vevent_read]. Qed.
Theorem C16_todo_lines : forall ls, vtodo_of_lines ls = Panic <-> todo_crash ls.
Proof. intros ls. apply (crash_calm vtodo_schema vtodo_of vtodo_read vtodo_required fatal_scheduled ls vtodo_distinct eq_refl vtodo_fatal); [all_calm|exact C11_vtodo_read]. Qed.
Theorem C16_journal_lines : forall ls, vjournal_of_lines ls = Panic <-> journal_crash ls.
Proof. intros ls. apply (crash_calm vjournal_schema vjournal_of vjournal_read vjournal_required fatal_recurrence ls vjournal_distinct eq_refl vjournal_fatal); [all_calm|exact C11_vjournal_read]. Qed.
Theorem C16_freebusy_lines : forall ls, vfreebusy_of_lines ls = Panic <-> freebusy_crash ls.
Proof. intros ls. apply (crash_calm vfreebusy_schema vfreebusy_of vfreebusy_read vfreebusy_required fatal_freebusy_line ls vfreebusy_distinct eq_refl vfreebusy_fatal); [all_calm|exact C11_vfreebusy_read]. Qed.
Theorem C16_standard_lines : forall ls, standard_of_lines ls = Panic <-> standard_crash ls.
Proof. intros ls. apply (crash_calm standard_schema standard_of standard_read standard_required fatal_recurrence ls standard_distinct eq_refl standard_fatal); [all_calm|exact C11_standard_read]. Qed.
Theorem C16_daylight_lines : forall ls, daylight_of_lines ls = Panic <-> daylight_crash ls.
Proof. intros ls. apply (crash_calm daylight_schema daylight_of daylight_read daylight_required fatal_recurrence ls daylight_distinct eq_refl daylight_fatal); [all_calm|exact C11_daylight_read]. Qed.
(** An alarm: ACTION is the first required property and never fails when present; TRIGGER is the second. *)
Lemma trigger_second rest ls l : In l ls -> cl_key l = lit "ACTION" -> Forall (fun nf => f_calm (snd nf)) rest ->
  (new_fields ((lit "ACTION", FReq ser_text parse_text) :: (lit "TRIGGER", FReq ser_trigger parse_trigger) :: rest) ls = Panic <->
   exists t, last_line (lit "TRIGGER") ls t /\ fatal_trigger_line t).
Proof.
  intros Hl K C. cbn [new_fields].
  assert (A : exists v, f_new (lit "ACTION") (FReq ser_text parse_text) ls = Ok v).
  { cbn [f_new]. destruct (last_opt (filter (fun l0 => str_eqb (cl_key l0) (lit "ACTION")) ls)) as [x|] eqn:Q; [eexists; reflexivity|]. exfalso.
    assert (In l (filter (fun l0 => str_eqb (cl_key l0) (lit "ACTION")) ls)) as H by (apply filter_In; split; auto; rewrite K; apply str_eqb_refl).
    destruct (filter _ ls) as [|y ys]; [destruct H|]. destruct (exists_last (l := y :: ys) ltac:(discriminate)) as (u & z & Z). rewrite Z, last_opt_app in Q. discriminate. }
  destruct A as [v A]. rewrite A. cbn [obind]. pose proof (new_fields_calm rest ls C) as Nc. cbn [f_new]. fold (lines_named (lit "TRIGGER") ls).
  destruct (last_opt (lines_named (lit "TRIGGER") ls)) as [t|] eqn:Q.
  - apply last_line_iff in Q. split.
    + intros H. exists t. split; auto. split; [destruct Q as (b & a & _ & Kt & _); auto|]. apply C16_trigger_exact.
      destruct (parse_trigger t) as [w|e|]; cbn [obind] in H; try discriminate; auto. destruct (new_fields rest ls); cbn [obind] in H; congruence.
    + intros (t' & L & _ & F). rewrite (last_line_det _ _ _ _ Q L). apply C16_trigger_exact in F. now rewrite F.
  - split; [discriminate|]. intros (t & L & _). apply last_line_iff in L. congruence.
Qed.
Lemma first_line_find ls l : find (fun l => str_eqb (cl_key l) (lit "ACTION")) ls = Some l <-> first_line (lit "ACTION") ls l.
Proof.
  unfold first_line. split.
  - induction ls as [|x r IH]; cbn [find]; [discriminate|]. destruct (str_eqb (cl_key x) (lit "ACTION")) eqn:K.
    + intros H. inv H. exists [], r. apply str_eqb_eq in K. repeat split; auto. constructor.
    + intros H. destruct (IH H) as (b & c & -> & Kl & Ab). exists (x :: b), c. apply str_eqb_neq in K. repeat split; auto. constructor; auto.
  - intros (b & c & -> & K & Ab). induction b as [|x b IH]; cbn [app find].
    + now rewrite K, str_eqb_refl.
    + inv Ab. apply str_eqb_neq in H1. rewrite H1. auto.
Qed.
Theorem C16_alarm_lines : forall ls, valarm_of_lines ls = Panic <-> alarm_crash ls.
Proof.
  intros ls. unfold valarm_of_lines, alarm_crash. destruct (find _ ls) as [l|] eqn:Q.
  - assert (Fl : first_line (lit "ACTION") ls l) by now apply first_line_find.
    assert (U : forall l', first_line (lit "ACTION") ls l' -> l' = l) by (intros l' H; apply first_line_find in H; congruence).
    assert (Hl : In l ls /\ cl_key l = lit "ACTION").
    { destruct Fl as (b & c & -> & K & _). split; auto. apply in_app_iff. right. now left. }
    destruct Hl as [Hl K].
    assert (Na : ~ absent (lit "ACTION") ls) by (unfold absent; rewrite Forall_forall; intros H; now apply (H l)).
    assert (M : forall {A B} (f : A -> B) (o : outcome A), omap f o = Panic <-> o = Panic) by (intros A B f o; destruct o; cbn; split; congruence).
    assert (P1 : omap AAudio (audio_of_lines ls) = Panic <-> (exists t, last_line (lit "TRIGGER") ls t /\ fatal_trigger_line t) \/ crash audio_read audio_required fatal_duration_line ls).
    { rewrite M. unfold audio_of_lines. rewrite (crash_iff audio_schema audio_of audio_read audio_required fatal_duration_line ls audio_distinct eq_refl audio_fatal C11_audio_read).
      unfold audio_schema at 1. rewrite (trigger_second _ ls l Hl K) by all_calm. tauto. }
    assert (P2 : omap ADisplay (display_of_lines ls) = Panic <-> (exists t, last_line (lit "TRIGGER") ls t /\ fatal_trigger_line t) \/ crash display_read display_required fatal_duration_line ls).
    { rewrite M. unfold display_of_lines. rewrite (crash_iff display_schema display_of display_read display_required fatal_duration_line ls display_distinct eq_refl display_fatal C11_display_read).
      unfold display_schema at 1. rewrite (trigger_second _ ls l Hl K) by all_calm. tauto. }
    assert (P3 : omap AEmail (email_of_lines ls) = Panic <-> (exists t, last_line (lit "TRIGGER") ls t /\ fatal_trigger_line t) \/ crash email_read email_required fatal_duration_line ls).
    { rewrite M. unfold email_of_lines. rewrite (crash_iff email_schema email_of email_read email_required fatal_duration_line ls email_distinct eq_refl email_fatal C11_email_read).
      unfold email_schema at 1. rewrite (trigger_second _ ls l Hl K) by all_calm. tauto. }
    assert (D12 : lit "AUDIO" <> lit "DISPLAY") by (vm_compute; discriminate). assert (D13 : lit "AUDIO" <> lit "EMAIL") by (vm_compute; discriminate).
    assert (D23 : lit "DISPLAY" <> lit "EMAIL") by (vm_compute; discriminate).
    destruct (str_eqb (cl_value l) (lit "AUDIO")) eqn:A1; [|destruct (str_eqb (cl_value l) (lit "DISPLAY")) eqn:A2; [|destruct (str_eqb (cl_value l) (lit "EMAIL")) eqn:A3]];
      rewrite ?str_eqb_eq, ?str_eqb_neq in *.
    + rewrite P1. split.
      * intros H. right. exists l. split; auto. tauto.
      * intros [H|(l' & H & X)]; [tauto|]. apply U in H. subst l'. rewrite A1 in X. intuition congruence.
    + rewrite P2. split.
      * intros H. right. exists l. split; auto. tauto.
      * intros [H|(l' & H & X)]; [tauto|]. apply U in H. subst l'. rewrite A2 in X. intuition congruence.
    + rewrite P3. split.
      * intros H. right. exists l. split; auto. tauto.
      * intros [H|(l' & H & X)]; [tauto|]. apply U in H. subst l'. rewrite A3 in X. intuition congruence.
    + split; [discriminate|]. intros [H|(l' & H & X)]; [tauto|]. apply U in H. subst l'. intuition congruence.
  - split; auto. intros _. left. unfold absent. apply Forall_forall. intros l Hl. pose proof (find_none _ _ Q l Hl) as X. now apply str_eqb_neq in X.
Qed.

(** ** Texts *)
Lemma component_crash {A} n (f : list content_line -> outcome A) (lc : list content_line -> Prop) s :
  (forall ls, f ls = Panic <-> lc ls) -> (p_component n f s = PPanic <-> simple_crash n lc s).
Proof.
  intros Hf. unfold simple_crash. split.
  - intros H. unfold p_component in H. apply pmap_res_panic in H as [H|(r & ls & P & Q)].
    + exfalso. apply delim_panic in H as (t & _ & P). now apply calm_lines in P.
    + apply delim_POk in P as (t & -> & P). apply lines_parse_only in P. exists t, ls, r. rewrite <- ?app_assoc in *. split; auto. split; auto. now apply Hf.
  - intros (t & ls & rest & -> & L & C). unfold p_component, pmap_res.
    assert (P : delimited (tag (lit "BEGIN:" ++ n ++ CRLF)) p_content_lines (tag (lit "END:" ++ n ++ CRLF)) (lit "BEGIN:" ++ n ++ [CR; LF] ++ t) = POk rest ls).
    { apply delim_POk. exists t. rewrite <- ?app_assoc. split; auto. apply lines_parse; auto. right. rewrite <- ?app_assoc. apply begins_app. }
    unfold pbind at 1. rewrite P. apply Hf in C. now rewrite C.
Qed.
Lemma simple_crash_head n lc s : simple_crash n lc s -> begins (lit "BEGIN:" ++ n ++ CRLF) s.
Proof. intros (t & ls & r & -> & _). exists t. rewrite <- ?app_assoc. reflexivity. Qed.
Lemma many_crash {A} (p : parser A) (one : str -> A -> str -> Prop) (bad : str -> Prop) :
  tails p -> (forall s r a, p s = POk r a -> (length r < length s)%nat) -> (forall s a r, p s = POk r a <-> one s a r) -> (forall s, p s = PPanic <-> bad s) ->
  forall s, many0 p s = PPanic <-> exists cs t, seq_text one s cs t /\ bad t.
Proof.
  intros Ht Hl Hp Hb s. pose proof (many0_spec p Ht s) as X. split.
  - intros H. rewrite H in X. clear H. induction X as [s H|s r a H L R IH].
    + exists [], s. split; [constructor|now apply Hb].
    + destruct IH as (cs & t & Q & B). exists (a :: cs), t. split; auto. econstructor; eauto. now apply Hp.
  - intros (cs & t & Q & B). assert (M : many_panic p s).
    { clear X. induction Q as [s|s a r l rest O R IH]; [constructor; now apply Hb|]. apply Hp in O. eapply mp_later; eauto. }
    clear Q. destruct (many0 p s) as [r l| |]; auto; exfalso.
    + now apply (many_run_not_panic p) in X.
    + clear -X M Hl. induction M as [s H|s r a H L R IH]; inv X; try congruence. 
      all: match goal with H1 : ?q ?s = POk _ _, H2 : ?q ?s = POk _ _ |- _ => rewrite H1 in H2; inv H2 end; auto; try lia.
Qed.
(** Lines, then sub-components. *)
Lemma nested_crash_iff {A B} n (q : parser A) (one : str -> A -> str -> Prop) (bad : str -> Prop) endn (f : list content_line * list A -> outcome B) (own : list content_line -> Prop) s :
  tails q -> (forall s r a, q s = POk r a -> (length r < length s)%nat) -> (forall s a r, q s = POk r a <-> one s a r) -> (forall s, q s = PPanic <-> bad s) ->
  (forall s a r, one s a r -> begins (lit "BEGIN:") s) -> (forall s, bad s -> begins (lit "BEGIN:") s) ->
  begins (lit "END:") endn -> (forall s, begins (lit "END:") s -> q s = PErr) ->
  (forall ls cs, f (ls, cs) = Panic <-> own ls) ->
  (pmap_res (delimited (tag (lit "BEGIN:" ++ n ++ CRLF)) (do ls <- p_content_lines ;; do al <- many0 q ;; pret (ls, al)) (tag endn)) f s = PPanic <->
   nested_crash n one (fun ls t => bad t \/ (exists rest, t = endn ++ rest) /\ own ls) s).
Proof.
  intros Ht Hl Hq Hb H1 H2 He Hs Hf. unfold nested_crash. split.
  - intros H. apply pmap_res_panic in H as [H|(r & [ls cs] & P & Q)].
    + apply delim_panic in H as (t & -> & P). unfold pbind in P. destruct (p_content_lines t) as [t2 ls| |] eqn:L; try discriminate; [|now apply calm_lines in L].
      assert (Q : many0 q t2 = PPanic) by (destruct (many0 q t2); auto; discriminate). apply (many_crash q one bad Ht Hl Hq Hb) in Q as (cs & t3 & S3 & B3).
      apply lines_parse_only in L. exists t, ls, t2, cs, t3. rewrite <- ?app_assoc. auto.
    + apply delim_POk in P as (t & -> & P). apply pair_POk in P as (t2 & L & P). apply lines_parse_only in L. apply Hf in Q.
      exists t, ls, t2, cs, (endn ++ r). rewrite <- ?app_assoc. split; auto. split; auto. split; [|eauto]. eapply many0_text_only; [exact Ht| |exact P]. intros; now apply Hq.
  - intros (t & ls & t2 & cs & t3 & -> & L & S3 & X).
    assert (D3 : delimiter t3). { destruct X as [X|[[r ->] _]]; [left; auto|right]. destruct He as [e ->]. rewrite <- app_assoc. apply begins_app. }
    assert (D2 : delimiter t2) by (destruct S3; auto; left; eauto).
    apply lines_parse in L; auto. unfold pmap_res, delimited, pbind. replace (lit "BEGIN:" ++ n ++ [CR; LF] ++ t) with ((lit "BEGIN:" ++ n ++ CRLF) ++ t) by (rewrite <- ?app_assoc; reflexivity).
    rewrite tag_app, L. destruct X as [X|[[r ->] O]].
    + assert (Q : many0 q t2 = PPanic) by (apply (many_crash q one bad Ht Hl Hq Hb); eauto). now rewrite Q.
    + apply (many0_text q one (begins (lit "END:"))) in S3; auto.
      2:{ destruct He as [e ->]. rewrite <- app_assoc. apply begins_app. }
      rewrite S3. cbn [pret]. rewrite tag_app. apply Hf with (cs := cs) in O. cbn [pret]. now rewrite O.
Qed.
(** An alarm without one of the properties its kind needs: an error, unless its TRIGGER is fatal. *)
Theorem C10_alarm_missing : forall ls n l, first_line (lit "ACTION") ls l ->
  cl_value l = lit "AUDIO" /\ In n audio_required \/ cl_value l = lit "DISPLAY" /\ In n display_required \/ cl_value l = lit "EMAIL" /\ In n email_required -> absent n ls ->
  (exists e, valarm_of_lines ls = Err e) \/ (valarm_of_lines ls = Panic /\ exists t, last_line (lit "TRIGGER") ls t /\ fatal_trigger_line t).
Proof.
  intros ls n l Fl K Ha.
  assert (U : forall l', first_line (lit "ACTION") ls l' -> l' = l) by (intros l' H; apply first_line_find in H, Fl; congruence).
  assert (D12 : lit "AUDIO" <> lit "DISPLAY") by (vm_compute; discriminate). assert (D13 : lit "AUDIO" <> lit "EMAIL") by (vm_compute; discriminate).
  assert (D23 : lit "DISPLAY" <> lit "EMAIL") by (vm_compute; discriminate).
  assert (Sub : forall (b : list content_line) x a f, ls = b ++ x :: a -> absent n (b ++ filter f a)).
  { intros b x a f ->. unfold absent in *. apply Forall_app in Ha as [A1 A2]. inv A2. apply Forall_app. split; auto. rewrite Forall_forall in *. intros y Hy. apply filter_In in Hy as [Hy _]. auto. }
  destruct (valarm_of_lines ls) as [a|e|] eqn:Q; [exfalso|left; eauto|right; split; auto].
  - apply (C17_dispatch ls) in Q as (l' & F' & R). apply U in F'. subst l'.
    destruct a; destruct R as [V R]; rewrite V in K; destruct K as [[K1 K]|[[K1 K]|[K1 K]]]; try congruence.
    + apply C11_audio_read in R. exact (C10_audio_missing ls n _ K Ha R).
    + apply C11_display_read in R. exact (C10_display_missing ls n _ K Ha R).
    + apply C11_email_read in R. exact (C10_email_missing ls n _ K Ha R).
  - apply C16_alarm_lines in Q as [Na|(l' & F' & C)].
    + exfalso. destruct Fl as (b & c & -> & Kk & _). unfold absent in Na. rewrite Forall_forall in Na. apply (Na l); auto. apply in_app_iff. right. now left.
    + apply U in F'. subst l'. destruct C as [[_ C]|C]; [exact C|exfalso].
      destruct C as [(V & b & x & a & v & P & _ & R)|[(V & b & x & a & v & P & _ & R)|(V & b & x & a & v & P & _ & R)]];
        rewrite V in K; destruct K as [[K1 K]|[[K1 K]|[K1 K]]]; try congruence.
      * apply C11_audio_read in R. exact (C10_audio_missing _ n v K (Sub _ _ _ _ P) R).
      * apply C11_display_read in R. exact (C10_display_missing _ n v K (Sub _ _ _ _ P) R).
      * apply C11_email_read in R. exact (C10_email_missing _ n v K (Sub _ _ _ _ P) R).
Qed.
Lemma valarm_text_panic s : p_valarm s = PPanic <-> alarm_crashes s.
Proof. apply component_crash, C16_alarm_lines. Qed.
Lemma nested_ext {A} n (one : str -> A -> str -> Prop) (l1 l2 : list content_line -> str -> Prop) s : (forall ls t, l1 ls t <-> l2 ls t) -> nested_crash n one l1 s <-> nested_crash n one l2 s.
Proof. intros H. unfold nested_crash. setoid_rewrite H. reflexivity. Qed.
Lemma event_text_panic s : p_vevent s = PPanic <-> event_crashes s.
Proof.
  unfold p_vevent, event_crashes. etransitivity; [|apply nested_ext with (l1 := fun ls t => alarm_crashes t \/ (exists rest, t = (lit "END:VEVENT" ++ CRLF) ++ rest) /\ event_crash ls)].
  2:{ intros ls t. split; (intros [H|[[r ->] H]]; [auto|right; split; auto; exists r; rewrite <- ?app_assoc; reflexivity]). }
  apply (nested_crash_iff (lit "VEVENT") p_valarm alarm_text alarm_crashes).
  - apply tails_component.
  - intros ? ? ?. apply component_shrinks.
  - intros. apply alarm_POk.
  - apply valarm_text_panic.
  - intros ? ? ?. apply simple_head.
  - intros x H. apply simple_crash_head in H as [r ->]. rewrite <- ?app_assoc. apply begins_app.
  - apply (begins_app (lit "END:")).
  - intros x Hx. apply component_PErr. revert Hx. apply heads. reflexivity.
  - intros ls cs. rewrite <- C16_event_lines. destruct (vevent_of_lines ls); cbn; split; congruence.
Qed.
Lemma tz_part_panic s : p_tz_part s = PPanic <-> tz_part_crashes s.
Proof.
  unfold p_tz_part, palt, tz_part_crashes.
  assert (S1 : simple_crash (lit "STANDARD") standard_crash s <-> p_standard s = PPanic) by (symmetry; apply component_crash, C16_standard_lines).
  assert (S2 : simple_crash (lit "DAYLIGHT") daylight_crash s <-> p_daylight s = PPanic) by (symmetry; apply component_crash, C16_daylight_lines).
  rewrite S1, S2. clear S1 S2.
  unfold pmap, pbind. destruct (p_standard s) as [r a| |] eqn:P; cbn [pret].
  - split; [discriminate|]. intros [H|H]; [discriminate|]. exfalso. apply standard_POk in P as (t & ls & -> & _).
    unfold p_daylight in H. rewrite component_PErr in H; [discriminate|]. apply (heads (lit "BEGIN:STANDARD")); [reflexivity|]. apply (begins_app (lit "BEGIN:STANDARD")).
  - destruct (p_daylight s) as [r a| |]. split; [discriminate|intros [H|H]; discriminate]. split; [discriminate|intros [H|H]; discriminate]. tauto.
  - intuition congruence.
Qed.
Lemma timezone_text_panic s : p_vtimezone s = PPanic <-> timezone_crashes s.
Proof.
  unfold p_vtimezone, timezone_crashes. etransitivity; [|apply nested_ext with (l1 := fun ls t => tz_part_crashes t \/ (exists rest, t = (lit "END:VTIMEZONE" ++ CRLF) ++ rest) /\ False)].
  2:{ intros ls t. tauto. }
  apply (nested_crash_iff (lit "VTIMEZONE") p_tz_part tz_part_text tz_part_crashes).
  - apply tails_tz_part.
  - intros x r a H. apply tz_part_POk in H. destruct a as [y|y]; [apply standard_POk in H|apply daylight_POk in H]; now apply component_shrinks in H.
  - intros. apply tz_part_POk.
  - apply tz_part_panic.
  - intros ? [y|y] ?; apply simple_head.
  - intros x [H|H]; apply simple_crash_head in H as [r ->]; rewrite <- ?app_assoc; apply begins_app.
  - apply (begins_app (lit "END:")).
  - intros x Hx. unfold p_tz_part, palt. rewrite !map_PErr; auto; apply component_PErr; revert Hx; apply heads; reflexivity.
  - intros ls cs. split; [|intros []]. intros H. assert (Q : vtimezone_of_lines ls = Panic) by (destruct (vtimezone_of_lines ls); cbn in H; congruence).
    assert (P : comp_of_lines vtimezone_schema ls = Panic) by (unfold vtimezone_of_lines in Q; destruct (comp_of_lines vtimezone_schema ls); cbn in Q; congruence).
    apply comp_panic_iff in P as [P|(a & l & b & c & _ & F & _)]; [| |exact vtimezone_distinct].
    + revert P. apply new_fields_calm. all_calm.
    + exact (vtimezone_fatal _ F).
Qed.
Lemma pmap_panic_iff {A B} (p : parser A) (f : A -> B) s : pmap p f s = PPanic <-> p s = PPanic.
Proof. unfold pmap, pbind, pret. destruct (p s); split; congruence. Qed.
Lemma nested_head {A} n (one : str -> A -> str -> Prop) last s : nested_crash n one last s -> begins (lit "BEGIN:" ++ n ++ CRLF) s.
Proof. intros (t & ls & t2 & cs & t3 & -> & _). exists t. rewrite <- ?app_assoc. reflexivity. Qed.
Lemma child_panic s : p_any_component s = PPanic <-> child_crashes s.
Proof.
  rewrite any_component_eq. unfold child_crashes.
  assert (F : p_vfreebusy s = PPanic <-> simple_crash (lit "VFREEBUSY") freebusy_crash s) by apply component_crash, C16_freebusy_lines.
  assert (J : p_vjournal s = PPanic <-> simple_crash (lit "VJOURNAL") journal_crash s) by apply component_crash, C16_journal_lines.
  assert (T : p_vtodo s = PPanic <-> simple_crash (lit "VTODO") todo_crash s) by apply component_crash, C16_todo_lines.
  assert (Ha : alarm_crashes s -> begins (lit "BEGIN:VALARM" ++ CRLF) s) by (intros H; exact (simple_crash_head _ _ _ H)).
  assert (He : event_crashes s -> begins (lit "BEGIN:VEVENT" ++ CRLF) s) by (intros H; exact (nested_head _ _ _ _ H)).
  assert (Hf : simple_crash (lit "VFREEBUSY") freebusy_crash s -> begins (lit "BEGIN:VFREEBUSY" ++ CRLF) s) by (intros H; exact (simple_crash_head _ _ _ H)).
  assert (Hj : simple_crash (lit "VJOURNAL") journal_crash s -> begins (lit "BEGIN:VJOURNAL" ++ CRLF) s) by (intros H; exact (simple_crash_head _ _ _ H)).
  assert (Hz : timezone_crashes s -> begins (lit "BEGIN:VTIMEZONE" ++ CRLF) s) by (intros H; exact (nested_head _ _ _ _ H)).
  assert (Ht : simple_crash (lit "VTODO") todo_crash s -> begins (lit "BEGIN:VTODO" ++ CRLF) s) by (intros H; exact (simple_crash_head _ _ _ H)).
  assert (D : forall a b, begins a s -> distinct_heads a b = true -> starts_with b s = false).
  { intros a b Y X. destruct (starts_with b s) eqn:Z; auto. apply begins_starts in Z. exfalso. eapply heads; eauto. }
  split.
  - repeat match goal with |- context [if starts_with ?h s then _ else _] => destruct (starts_with h s) end;
      rewrite ?pmap_panic_iff, ?valarm_text_panic, ?event_text_panic, ?timezone_text_panic, ?F, ?J, ?T; try tauto. discriminate.
  - intros [H|[H|[H|[H|[H|H]]]]].
    + pose proof (Ha H) as B. apply begins_starts in B. rewrite B, pmap_panic_iff. now apply valarm_text_panic.
    + pose proof (He H) as B. rewrite (D _ (lit "BEGIN:VALARM" ++ CRLF) B eq_refl). apply begins_starts in B. rewrite B, pmap_panic_iff. now apply event_text_panic.
    + pose proof (Hf H) as B. rewrite (D _ (lit "BEGIN:VALARM" ++ CRLF) B eq_refl), (D _ (lit "BEGIN:VEVENT" ++ CRLF) B eq_refl). apply begins_starts in B. rewrite B, pmap_panic_iff. now apply F.
    + pose proof (Hj H) as B. rewrite (D _ (lit "BEGIN:VALARM" ++ CRLF) B eq_refl), (D _ (lit "BEGIN:VEVENT" ++ CRLF) B eq_refl), (D _ (lit "BEGIN:VFREEBUSY" ++ CRLF) B eq_refl). apply begins_starts in B. rewrite B, pmap_panic_iff. now apply J.
    + pose proof (Hz H) as B. rewrite (D _ (lit "BEGIN:VALARM" ++ CRLF) B eq_refl), (D _ (lit "BEGIN:VEVENT" ++ CRLF) B eq_refl), (D _ (lit "BEGIN:VFREEBUSY" ++ CRLF) B eq_refl), (D _ (lit "BEGIN:VJOURNAL" ++ CRLF) B eq_refl).
      apply begins_starts in B. rewrite B, pmap_panic_iff. now apply timezone_text_panic.
    + pose proof (Ht H) as B. rewrite (D _ (lit "BEGIN:VALARM" ++ CRLF) B eq_refl), (D _ (lit "BEGIN:VEVENT" ++ CRLF) B eq_refl), (D _ (lit "BEGIN:VFREEBUSY" ++ CRLF) B eq_refl), (D _ (lit "BEGIN:VJOURNAL" ++ CRLF) B eq_refl), (D _ (lit "BEGIN:VTIMEZONE" ++ CRLF) B eq_refl).
      apply begins_starts in B. rewrite B, pmap_panic_iff. now apply T.
Qed.
Lemma child_crash_head s : child_crashes s -> begins (lit "BEGIN:") s.
Proof.
  assert (P : forall n, begins (lit "BEGIN:" ++ n ++ CRLF) s -> begins (lit "BEGIN:") s) by (intros n [r ->]; rewrite <- ?app_assoc; apply begins_app).
  intros [H|[H|[H|[H|[H|H]]]]]; eapply P; first [exact (simple_crash_head _ _ _ H)|exact (nested_head _ _ _ _ H)].
Qed.
Lemma child_text_head s c r : child_text s c r -> begins (lit "BEGIN:") s.
Proof. intros H. apply child_head in H as [x ->]. destruct c; cbn [head_of]; eexists; rewrite <- ?app_assoc; reflexivity. Qed.
Lemma calendar_text_panic s : p_vcalendar s = PPanic <-> calendar_crashes s.
Proof.
  unfold p_vcalendar, calendar_crashes. etransitivity; [|apply nested_ext with (l1 := fun ls t => child_crashes t \/ (exists rest, t = lit "END:VCALENDAR" ++ rest) /\ False)].
  2:{ intros ls t. tauto. }
  apply (nested_crash_iff (lit "VCALENDAR") p_any_component child_text child_crashes).
  - apply tails_any.
  - apply any_shrinks.
  - intros. apply child_POk.
  - apply child_panic.
  - apply child_text_head.
  - apply child_crash_head.
  - apply (begins_app (lit "END:")).
  - apply any_PErr.
  - intros ls cs. split; [|intros []]. intros H. assert (Q : vcalendar_of_lines ls = Panic) by (destruct (vcalendar_of_lines ls); cbn in H; congruence).
    assert (P : comp_of_lines vcalendar_schema ls = Panic) by (unfold vcalendar_of_lines in Q; destruct (comp_of_lines vcalendar_schema ls); cbn in Q; congruence).
    apply comp_panic_iff in P as [P|(a & l & b & c & _ & F & _)]; [| |exact vcalendar_distinct].
    + revert P. apply new_fields_calm. all_calm.
    + exact (vcalendar_fatal _ F).
Qed.
(** ** C16: exactly which texts panic *)
Lemma from_str_panics {A} (p : parser A) (bad : str -> Prop) s : (forall s, p s = PPanic <-> bad s) -> (from_str p s = Panic <-> bad (unfold_lines s)).
Proof. intros H. rewrite <- H. unfold from_str. destruct (p (unfold_lines s)); cbn; split; congruence. Qed.
Theorem C16_calendar_exact : forall s, vcalendar_of_str s = Panic <-> calendar_crashes (unfold_lines s).
Proof. intros s. apply from_str_panics, calendar_text_panic. Qed.
Theorem C16_event_exact : forall s, vevent_of_str s = Panic <-> event_crashes (unfold_lines s).
Proof. intros s. apply from_str_panics, event_text_panic. Qed.
Theorem C16_timezone_exact : forall s, vtimezone_of_str s = Panic <-> timezone_crashes (unfold_lines s).
Proof. intros s. apply from_str_panics, timezone_text_panic. Qed.
Theorem C16_alarm_exact : forall s, valarm_of_str s = Panic <-> alarm_crashes (unfold_lines s).
Proof. intros s. apply from_str_panics, valarm_text_panic. Qed.
Theorem C16_todo_exact : forall s, vtodo_of_str s = Panic <-> simple_crash (lit "VTODO") todo_crash (unfold_lines s).
Proof. intros s. apply from_str_panics. intros. apply component_crash, C16_todo_lines. Qed.
Theorem C16_journal_exact : forall s, vjournal_of_str s = Panic <-> simple_crash (lit "VJOURNAL") journal_crash (unfold_lines s).
Proof. intros s. apply from_str_panics. intros. apply component_crash, C16_journal_lines. Qed.
Theorem C16_freebusy_text_exact : forall s, vfreebusy_of_str s = Panic <-> simple_crash (lit "VFREEBUSY") freebusy_crash (unfold_lines s).
Proof. intros s. apply from_str_panics. intros. apply component_crash, C16_freebusy_lines. Qed.
Theorem C16_standard_exact : forall s, standard_of_str s = Panic <-> simple_crash (lit "STANDARD") standard_crash (unfold_lines s).
Proof. intros s. apply from_str_panics. intros. apply component_crash, C16_standard_lines. Qed.
Theorem C16_daylight_exact : forall s, daylight_of_str s = Panic <-> simple_crash (lit "DAYLIGHT") daylight_crash (unfold_lines s).
Proof. intros s. apply from_str_panics. intros. apply component_crash, C16_daylight_lines. Qed.
(** One fatal line added anywhere to a component that can be read makes it panic. *)
Lemma new_fields_other s l a b : ~ In (cl_key l) (req_names s) -> new_fields s (a ++ l :: b) = new_fields s (a ++ b).
Proof.
  induction s as [|[n f] r IH]; intros H; cbn [new_fields]; auto. rewrite req_names_cons in H.
  rewrite IH by (destruct (is_req f); [intros K; apply H; now right|auto]).
  replace (f_new n f (a ++ l :: b)) with (f_new n f (a ++ b)); auto. destruct f; cbn [f_new is_req] in *; auto.
  rewrite filter_last_other; auto. intros K. apply H. left. auto.
Qed.
Lemma fatal_insert {R} s (of : comp s -> R) a l b v : NoDup (arm_names s) -> s_fatal s l -> omap of (comp_of_lines s (a ++ b)) = Ok v -> omap of (comp_of_lines s (a ++ l :: b)) = Panic.
Proof.
  intros Hd F H. unfold comp_of_lines in *. rewrite new_fields_other by now apply s_fatal_not_req.
  destruct (new_fields s (a ++ b)) as [vs|e|]; cbn [obind omap] in *; try discriminate. rewrite step_lines_app in *.
  destruct (step_lines (mk_comp vs [] []) a) as [c|e|]; cbn [obind omap] in *; try discriminate.
  apply (step_fatal s c l Hd) in F. cbn [step_lines]. now rewrite F.
Qed.
Theorem C16_one_line_crashes : forall a b l,
  (forall v, vevent_of_lines (a ++ b) = Ok v -> fatal_scheduled l -> vevent_of_lines (a ++ l :: b) = Panic) /\
  (forall v, vtodo_of_lines (a ++ b) = Ok v -> fatal_scheduled l -> vtodo_of_lines (a ++ l :: b) = Panic) /\
  (forall v, vjournal_of_lines (a ++ b) = Ok v -> fatal_recurrence l -> vjournal_of_lines (a ++ l :: b) = Panic) /\
  (forall v, vfreebusy_of_lines (a ++ b) = Ok v -> fatal_freebusy_line l -> vfreebusy_of_lines (a ++ l :: b) = Panic) /\
  (forall v, standard_of_lines (a ++ b) = Ok v -> fatal_recurrence l -> standard_of_lines (a ++ l :: b) = Panic) /\
  (forall v, daylight_of_lines (a ++ b) = Ok v -> fatal_recurrence l -> daylight_of_lines (a ++ l :: b) = Panic).
Proof.
  intros a b l. split; [|split; [|split; [|split; [|split]]]]; intros v H F.
  - exact (fatal_insert vevent_schema vevent_of a l b v vevent_distinct (proj2 (vevent_fatal l) F) H).
  - exact (fatal_insert vtodo_schema vtodo_of a l b v vtodo_distinct (proj2 (vtodo_fatal l) F) H).
  - exact (fatal_insert vjournal_schema vjournal_of a l b v vjournal_distinct (proj2 (vjournal_fatal l) F) H).
  - exact (fatal_insert vfreebusy_schema vfreebusy_of a l b v vfreebusy_distinct (proj2 (vfreebusy_fatal l) F) H).
  - exact (fatal_insert standard_schema standard_of a l b v standard_distinct (proj2 (standard_fatal l) F) H).
  - exact (fatal_insert daylight_schema daylight_of a l b v daylight_distinct (proj2 (daylight_fatal l) F) H).
Qed.
End PropFatal.

(** The examples of C16 meet the conditions; the order of the lines matters. *)
Example C16_exact_nonvacuous : forall E : Env,
  fatal_scheduled (mk_cl (lit "RRULE") [] (lit "INTERVAL=2;x")) /\
  ~ fatal_scheduled (mk_cl (lit "RRULE") [] (lit "INTERVAL=2;FREQ=DAILY")) /\
  fatal_scheduled (mk_cl (lit "RDATE") [(lit "VALUE", lit "PERIOD")] (lit "20240101T000000Z/PT1H,20240101T000000Z")) /\
  fatal_freebusy_line (mk_cl (lit "FREEBUSY") [] (lit "20240101T000000Z/P9999999999999999W")) /\
  ~ fatal_freebusy_line (mk_cl (lit "FREEBUSY") [] (lit "x,20240101T000000Z")) /\
  calendar_crashes (unfold_lines (calendar_with (event_with [lit "RRULE:INTERVAL=2"]))) /\
  ~ calendar_crashes (unfold_lines (calendar_with (event_with [lit "PRIORITY:x"; lit "RRULE:INTERVAL=2"]))) /\
  calendar_crashes (unfold_lines (calendar_with (event_with [lit "RRULE:INTERVAL=2"; lit "PRIORITY:x"]))).
Proof.
  intros E.
  assert (R : forall v, fatal_rule v <-> parse_rrule (mk_cl (lit "RRULE") [] v) = Panic) by (intros v; symmetry; apply (C16_rule_exact (mk_cl (lit "RRULE") [] v))).
  assert (P : forall v, fatal_periods v <-> parse_freebusy (mk_cl (lit "FREEBUSY") [] v) = Panic) by (intros v; symmetry; apply (C16_freebusy_exact (mk_cl (lit "FREEBUSY") [] v))).
  split; [left; split; [reflexivity|]; apply R; vm_compute; reflexivity|].
  split. { intros [[_ H]|[[K _]|[K _]]]; [apply R in H; vm_compute in H; discriminate|vm_compute in K; discriminate|vm_compute in K; discriminate]. }
  split; [right; left; split; [reflexivity|]; split; [reflexivity|]; apply P; vm_compute; reflexivity|].
  split; [split; [reflexivity|]; apply P; vm_compute; reflexivity|].
  split. { intros [_ H]. apply P in H. vm_compute in H. discriminate. }
  split; [apply C16_calendar_exact; vm_compute; reflexivity|].
  split. { rewrite <- C16_calendar_exact. intros H. vm_compute in H. discriminate. }
  apply C16_calendar_exact. vm_compute. reflexivity.
Qed.
