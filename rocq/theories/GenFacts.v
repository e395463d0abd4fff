(** * The code that [#[derive(Component)]] generates, against the description of it in Derive.v.

    A schema whose fields carry the codes of their types ([cschema]) is between the
    two: [schema_of] forgets the codes, [code_for] is the generated code. *)
From Verif Require Import Base BaseFacts Env Chrono Nom Types Ser Parser Derive Components PropComp Macros SpecMacro MacroFacts Generator.

Section GenFacts.
Context {E : Env}.

Inductive cfield :=
| CReq (t : rty) (S : serialize (den t)) (p : content_line -> outcome (den t))
| COpt (t : rty) (S : serialize (den t)) (p : content_line -> outcome (den t))
| CVec (t : rty) (S : serialize (den t)) (p : content_line -> outcome (den t))
| CApp (t : rty) (S : serialize (den t)) (p : content_line -> outcome (list (den t)))
| CIgn (t : rty) (S : serialize (den t)).
Definition code_ty (cf : cfield) : rty :=
  match cf with CReq t _ _ => t | COpt t _ _ => TOpt t | CVec t _ _ | CApp t _ _ | CIgn t _ => TVec t end.
Definition plain (cf : cfield) : Derive.field :=
  match cf with
  | CReq t Sr p => @FReq (den t) Sr p | COpt t Sr p => @FOpt (den t) Sr p | CVec t Sr p => @FVec (den t) Sr p
  | CApp t Sr p => @FApp (den t) Sr p | CIgn t Sr => @FIgn (den t) Sr end.
Definition unplain (cf : cfield) : fty (plain cf) -> den (code_ty cf) :=
  match cf with CReq _ _ _ | COpt _ _ _ | CVec _ _ _ | CApp _ _ _ | CIgn _ _ => fun x => x end.
Definition cschema := list (str * cfield).
Definition schema_of (cs : cschema) : schema := map (fun x => (field_key (fst x), plain (snd x))) cs.
Fixpoint named (cs : cschema) : fields (schema_of cs) -> list (str * typed) :=
  match cs with
  | [] => fun _ => []
  | (i, cf) :: r => fun vs => (i, existT den (code_ty cf) (unplain cf (fst vs))) :: named r (snd vs)
  end.
Definition extra (x i : smap content_line) : list (str * typed) := [(lit "x_prop", existT den TExt x); (lit "iana_prop", existT den TExt i)].
Definition all_named (cs : cschema) (c : comp (schema_of cs)) : list (str * typed) := named cs (c_fields c) ++ extra (c_xprop c) (c_iana c).

Definition arm_of (i : str) (cf : cfield) : option arm :=
  match cf with CReq _ _ _ => Some AUnit | COpt _ _ _ => Some (ASome i) | CVec _ _ _ => Some (APush i) | CApp _ _ _ => Some (AAppend i) | CIgn _ _ => None end.
Definition arms_for (cs : cschema) : list (str * arm) :=
  flat_map (fun x => match arm_of (fst x) (snd x) with Some a => [(field_key (fst x), a)] | None => [] end) cs.
Definition news_for (cs : cschema) : list (str * str) :=
  flat_map (fun x => match snd x with CReq _ _ _ => [(fst x, field_key (fst x))] | _ => [] end) cs.
Definition stmt_of (i : str) (cf : cfield) : stmt :=
  match cf with CReq _ _ _ | COpt _ _ _ => WOne (field_key i) i | _ => WVec (field_key i) i end.
Definition code_for (cs : cschema) (name lname : str) : code :=
  mk_code (news_for cs) (arms_for cs)
    (map (fun x => stmt_of (fst x) (snd x)) cs ++ [WOne (lit "X-PROP") (lit "x_prop"); WOne (lit "IANA-PROP") (lit "iana_prop")]) name lname.
(** The functions that the generated code refers to are those of the schema. *)
Definition known (x : str * cfield) : Prop :=
  match snd x with
  | CReq t Sr p => parser_fn (fst x) = Some (lp t p) /\ ser_of t = Some Sr
  | COpt t Sr p => parser_fn (fst x) = Some (lp t p) /\ ser_of t = Some Sr
  | CVec t Sr p => parser_fn (fst x) = Some (lp t p) /\ ser_of t = Some Sr
  | CApp t Sr p => parser_fn (fst x) = Some (lp (TVec t) p) /\ ser_of t = Some Sr
  | CIgn t Sr => ser_of t = Some Sr
  end.
(** The default of a field that is not required. *)
Definition blank (cf : cfield) : option (den (code_ty cf)) :=
  match cf with CReq _ _ _ => None | COpt _ _ _ => Some None | CVec _ _ _ | CApp _ _ _ | CIgn _ _ => Some [] end.
Definition blank_at (st : strct) (x : str * cfield) : Prop :=
  match blank (snd x) with Some b => get_field st (default_of st) (fst x) = Some (existT den (code_ty (snd x)) b) | None => True end.

Lemma types_of st v : map (fun p => (fst p, projT1 (snd p))) (fields_of st v) = struct_fields st.
Proof. destruct st; reflexivity. Qed.
Lemma names_nodup st : NoDup (map fst (struct_fields st)).
Proof. destruct st; apply distinct_NoDup; vm_compute; reflexivity. Qed.
Section Link.
Context (st : strct) (cs : cschema) (to : rec_of st -> comp (schema_of cs)) (of : comp (schema_of cs) -> rec_of st).
Record link : Prop := {
  l_of_to : forall v, of (to v) = v;
  l_to_of : forall c, to (of c) = c;
  l_fields : forall v, fields_of st v = all_named cs (to v);
  l_known : Forall known cs;
  l_blank : Forall (blank_at st) cs;
  l_xblank : get_field st (default_of st) (lit "x_prop") = Some (existT den TExt []) /\ get_field st (default_of st) (lit "iana_prop") = Some (existT den TExt []);
}.
Context (L : link).

Lemma fields_nodup v : NoDup (map fst (fields_of st v)).
Proof. rewrite names_of. apply names_nodup. Qed.
Lemma in_types v f t x : In (f, existT den t x) (fields_of st v) -> In (f, t) (struct_fields st).
Proof. intros H. rewrite <- (types_of st v). apply in_map_iff. exists (f, existT den t x). auto. Qed.
Lemma in_get v f x : In (f, x) (fields_of st v) -> get_field st v f = Some x.
Proof.
  unfold get_field. generalize (fields_nodup v). generalize (fields_of st v) as l. induction l as [|[g y] l IH]; [intros _ []|].
  intros N I. inversion N as [|? ? N1 N2]; subst. cbn [find fst]. destruct I as [I|I].
  - injection I as <- <-. rewrite str_eqb_refl. reflexivity.
  - destruct (str_eqb g f) eqn:Q; [|apply IH; auto]. apply str_eqb_eq in Q. subst. exfalso. apply N1. apply in_map_iff. exists (f, x). auto.
Qed.
Lemma upd_off f x (l : list (str * typed)) : ~ In f (map fst l) -> map (upd f x) l = l.
Proof.
  induction l as [|[g y] l IH]; [reflexivity|]. cbn [map fst In]. intros H. rewrite IH by tauto. f_equal. unfold upd. cbn [fst].
  destruct (str_eqb g f) eqn:Q; [|reflexivity]. apply str_eqb_eq in Q. subst. tauto.
Qed.
Lemma upd_same f x (l : list (str * typed)) : NoDup (map fst l) -> In (f, x) l -> map (upd f x) l = l.
Proof.
  induction l as [|[g y] l IH]; [intros _ []|]. intros N I. inversion N as [|? ? N1 N2]; subst. cbn [map]. destruct I as [I|I].
  - injection I as -> ->. rewrite upd_off by exact N1. unfold upd. cbn [fst]. rewrite str_eqb_refl. reflexivity.
  - rewrite IH by auto. f_equal. unfold upd. cbn [fst]. destruct (str_eqb g f) eqn:Q; [|reflexivity]. apply str_eqb_eq in Q. subst. exfalso. apply N1.
    apply in_map_iff. exists (f, x). auto.
Qed.
(** Assigning a field the struct has, in terms of the list of its fields. *)
Lemma put_in v f t x y w : In (f, existT den t x) (fields_of st v) -> fields_of st w = map (upd f (existT den t y)) (fields_of st v) ->
  put_field st f (existT den t y) v = Some w.
Proof.
  intros I F. destruct (put_fields st f t (in_types _ _ _ _ I) y v) as (w' & P & F'). rewrite P. f_equal. apply fields_ext. congruence.
Qed.

Definition cstep (cf : cfield) (l : content_line) : den (code_ty cf) -> outcome (den (code_ty cf)) :=
  match cf with
  | CReq _ _ _ => fun v => Ok v
  | COpt _ _ p => fun _ => let* x := p l in Ok (Some x)
  | CVec _ _ p => fun v => let* x := p l in Ok (v ++ [x])
  | CApp _ _ p => fun v => let* xs := p l in Ok (v ++ xs)
  | CIgn _ _ => fun v => Ok v
  end.
Lemma named_names cs' vs : map fst (named cs' vs) = map fst cs'.
Proof. induction cs' as [|[i cf] r IH]; [reflexivity|]. cbn [named map fst]. f_equal. apply IH. Qed.
Lemma has_arm_of i cf : has_arm (plain cf) = match arm_of i cf with Some _ => true | None => false end.
Proof. destruct cf; reflexivity. Qed.
Lemma step_cons i cf r l (vs : fty (plain cf) * fields (schema_of r)) : step_fields (schema_of ((i, cf) :: r)) l vs =
  if has_arm (plain cf) && str_eqb (cl_key l) (field_key i)
  then Some (let* v := f_step (plain cf) l (fst vs) in Ok (v, snd vs))
  else option_map (omap (fun vs' => (fst vs, vs'))) (step_fields (schema_of r) l (snd vs)).
Proof. reflexivity. Qed.
(** The first arm with the key of the line. *)
Lemma step_named cs' l (vs : fields (schema_of cs')) : NoDup (map fst cs') ->
  (find (fun a => str_eqb (cl_key l) (fst a)) (arms_for cs') = None /\ step_fields (schema_of cs') l vs = None) \/
  exists i cf a x (up : den (code_ty cf) -> fields (schema_of cs')),
    In (i, cf) cs' /\ arm_of i cf = Some a /\ find (fun a => str_eqb (cl_key l) (fst a)) (arms_for cs') = Some (field_key i, a) /\
    In (i, existT den (code_ty cf) x) (named cs' vs) /\ step_fields (schema_of cs') l vs = Some (omap up (cstep cf l x)) /\
    forall y, named cs' (up y) = map (upd i (existT den (code_ty cf) y)) (named cs' vs).
Proof.
  induction cs' as [|[i cf] r IH]; intros N; [left; split; reflexivity|].
  inversion N as [|? ? N1 N2]; subst. change (fty (plain cf) * fields (schema_of r))%type in vs.
  specialize (IH (snd vs) N2).
  rewrite step_cons, (has_arm_of i).
  cbn [arms_for flat_map fst snd]. fold (arms_for r).
  destruct (arm_of i cf) as [a|] eqn:A.
  - cbn [app find fst]. cbn [andb]. destruct (str_eqb (cl_key l) (field_key i)) eqn:K.
    + right. destruct vs as [v vs]. cbn [fst snd] in *.
      exists i, cf, a, (unplain cf v).
      exists (match cf as c return den (code_ty c) -> (fty (plain c) * fields (schema_of r))%type with
              | CReq _ _ _ | COpt _ _ _ | CVec _ _ _ | CApp _ _ _ | CIgn _ _ => fun y => (y, vs) end).
      split; [left; reflexivity|]. split; [exact A|]. split; [reflexivity|]. split; [left; reflexivity|]. split.
      * destruct cf; cbn [plain f_step cstep unplain]; try reflexivity; try (destruct (p l); reflexivity).
      * intros y. cbn [named map]. assert (Q : upd i (existT den (code_ty cf) y) (i, existT den (code_ty cf) (unplain cf v)) = (i, existT den (code_ty cf) y)).
        { unfold upd. cbn [fst]. rewrite str_eqb_refl. reflexivity. }
        cbn [fst snd]. rewrite Q. destruct cf; cbn [fst snd unplain]; f_equal; symmetry; apply upd_off; rewrite named_names; exact N1.
    + destruct IH as [[F S]|(j & cg & b & x & up & I & B & F & J & S & U)]; [left; split; [exact F|rewrite S; reflexivity]|].
      right. exists j, cg, b, x. exists (fun y => (fst vs, up y)). split; [right; exact I|]. split; [exact B|]. split; [exact F|]. split; [right; exact J|]. split.
      * rewrite S. cbn [option_map]. unfold omap. destruct (cstep cg l x); reflexivity.
      * intros y. cbn [named map fst snd]. rewrite U. f_equal. unfold upd. cbn [fst]. destruct (str_eqb i j) eqn:Q; [|reflexivity].
        apply str_eqb_eq in Q. subst. exfalso. apply N1. apply in_map_iff. exists (j, cg). auto.
  - cbn [app find fst]. cbn [andb].
    destruct IH as [[F S]|(j & cg & b & x & up & I & B & F & J & S & U)]; [left; split; [exact F|rewrite S; reflexivity]|].
    right. exists j, cg, b, x. exists (fun y => (fst vs, up y)). split; [right; exact I|]. split; [exact B|]. split; [exact F|]. split; [right; exact J|]. split.
    * rewrite S. cbn [option_map]. unfold omap. destruct (cstep cg l x); reflexivity.
    * intros y. cbn [named map fst snd]. rewrite U. f_equal. unfold upd. cbn [fst]. destruct (str_eqb i j) eqn:Q; [|reflexivity].
      apply str_eqb_eq in Q. subst. exfalso. apply N1. apply in_map_iff. exists (j, cg). auto.
Qed.
Lemma names_cs : NoDup (map fst cs) /\ ~ In (lit "x_prop") (map fst cs) /\ ~ In (lit "iana_prop") (map fst cs).
Proof.
  pose proof (fields_nodup (default_of st)) as N. rewrite (l_fields L) in N. unfold all_named, extra in N. rewrite map_app, named_names in N. cbn [map fst] in N.
  revert N. generalize (map fst cs) as m. clear. intros m N. induction m as [|a m IH]; [repeat split; auto; constructor|]. cbn [app] in N. inversion N as [|? ? N1 N2]; subst.
  destruct (IH N2) as (A & B & C). repeat split.
  - constructor; auto. intros I. apply N1. apply in_or_app. auto.
  - intros [I|I]; [|auto]. apply N1. subst. apply in_or_app. right. left. reflexivity.
  - intros [I|I]; [|auto]. apply N1. subst. apply in_or_app. right. right. left. reflexivity.
Qed.

Lemma run_arm_named i cf a l v x : In (i, cf) cs -> arm_of i cf = Some a -> In (i, existT den (code_ty cf) x) (fields_of st v) ->
  forall w, (forall y, fields_of st (w y) = map (upd i (existT den (code_ty cf) y)) (fields_of st v)) ->
  run_arm st a l v = Some (omap w (cstep cf l x)).
Proof.
  intros I A J w W. pose proof (proj1 (Forall_forall _ _) (l_known L) _ I) as K.
  destruct cf as [t Sr p|t Sr p|t Sr p|t Sr p|t Sr]; cbn [arm_of] in A; try discriminate; injection A as <-; unfold known in K; cbn [fst snd] in K; cbn [code_ty cstep] in *.
  - cbn [run_arm]. unfold omap. cbn [obind]. do 2 f_equal. apply fields_ext. rewrite W. rewrite upd_same; auto. apply fields_nodup.
  - destruct K as [K _]. cbn [run_arm]. rewrite K. unfold lp. unfold then_, omap. destruct (p l); cbn [obind]; auto.
    erewrite put_in; [reflexivity|exact J|apply W].
  - destruct K as [K _]. cbn [run_arm]. rewrite K, (in_get _ _ _ J). unfold lp. rewrite cast_same. unfold then_, omap. destruct (p l); cbn [obind]; auto.
    erewrite put_in; [reflexivity|exact J|apply W].
  - destruct K as [K _]. cbn [run_arm]. rewrite K, (in_get _ _ _ J). unfold lp. rewrite cast_same. unfold then_, omap. destruct (p l); cbn [obind]; auto.
    erewrite put_in; [reflexivity|exact J|apply W].
Qed.
Lemma run_insert_named v f m l w : In (f, existT den TExt m) (fields_of st v) -> fields_of st w = map (upd f (existT den TExt (minsert (cl_key l) l m))) (fields_of st v) ->
  run_insert st f l v = Some (Ok w).
Proof. intros I F. unfold run_insert. rewrite (in_get _ _ _ I), cast_same. erewrite put_in; [reflexivity|exact I|exact F]. Qed.

Lemma run_line_eq name lname l v : run_line st (code_for cs name lname) l v = Some (omap of (step_line (to v) l)).
Proof.
  destruct names_cs as (N & NX & NI). unfold run_line, step_line, code_for. cbn [k_arms].
  destruct (step_named cs l (c_fields (to v)) N) as [[F S]|(i & cf & a & x & up & I & A & F & J & S & U)].
  - rewrite F, S. assert (IX : In (lit "x_prop", existT den TExt (c_xprop (to v))) (fields_of st v)) by (rewrite (l_fields L); apply in_or_app; right; left; reflexivity).
    assert (II : In (lit "iana_prop", existT den TExt (c_iana (to v))) (fields_of st v)) by (rewrite (l_fields L); apply in_or_app; right; right; left; reflexivity).
    destruct (starts_with (lit "X-") (cl_key l)); unfold omap; cbn [obind].
    + apply (run_insert_named v (lit "x_prop") _ l _ IX). rewrite (l_fields L), (l_to_of L), (l_fields L v). unfold all_named. cbn [c_fields c_xprop c_iana].
      rewrite map_app, upd_off by (rewrite named_names; exact NX). reflexivity.
    + apply (run_insert_named v (lit "iana_prop") _ l _ II). rewrite (l_fields L), (l_to_of L), (l_fields L v). unfold all_named. cbn [c_fields c_xprop c_iana].
      rewrite map_app, upd_off by (rewrite named_names; exact NI). reflexivity.
  - rewrite F, S. assert (J' : In (i, existT den (code_ty cf) x) (fields_of st v)) by (rewrite (l_fields L); apply in_or_app; auto).
    rewrite (run_arm_named i cf a l v x I A J' (fun y => of (mk_comp (up y) (c_xprop (to v)) (c_iana (to v))))).
    + f_equal. unfold omap. destruct (cstep cf l x); reflexivity.
    + intros y. rewrite (l_fields L), (l_to_of L), (l_fields L v). unfold all_named. cbn [c_fields c_xprop c_iana]. rewrite map_app, U. f_equal.
      symmetry. apply upd_off. assert (I' : In i (map fst cs)) by (apply in_map_iff; exists (i, cf); auto). cbn [extra map fst]. intros [Q|[Q|[]]]; subst i; contradiction.
Qed.
Lemma run_lines_eq name lname ls : forall v, run_lines st (code_for cs name lname) ls v = Some (omap of (step_lines (to v) ls)).
Proof.
  induction ls as [|l ls IH]; intros v; cbn [run_lines step_lines].
  - unfold omap. cbn [obind]. rewrite (l_of_to L). reflexivity.
  - rewrite run_line_eq. destruct (step_line (to v) l) as [c|e|]; unfold omap; cbn [obind]; auto. rewrite IH, (l_to_of L). reflexivity.
Qed.

(** The required fields. *)
Lemma new_named ls cs' : Forall known cs' ->
  match seq_list (map (run_entry ls) (news_for cs')), new_fields (schema_of cs') ls with
  | Some (Ok xs), Ok vs =>
      (forall f x, In (f, x) xs -> In (f, x) (named cs' vs)) /\ map fst xs = map fst (news_for cs') /\
      (forall f x, In (f, x) (named cs' vs) -> In (f, x) xs \/ exists cf b, In (f, cf) cs' /\ blank cf = Some b /\ x = existT den (code_ty cf) b)
  | Some (Err e), Err e' => e = e'
  | Some Panic, Panic => True
  | _, _ => False end.
Proof.
  induction cs' as [|[i cf] r IH]; intros K.
  - cbn. repeat split; auto.
  - inversion K as [|? ? K1 K2]; subst. specialize (IH K2). cbn [schema_of map fst snd new_fields]. fold (schema_of r).
    unfold known in K1. cbn [fst snd] in K1.
    destruct cf as [t Sr p|t Sr p|t Sr p|t Sr p|t Sr]; cbn [news_for flat_map fst snd app map]; fold (news_for r);
      [|cbn [plain f_new]; cbn [obind]; destruct (seq_list (map (run_entry ls) (news_for r))) as [[xs|e|]|]; destruct (new_fields (schema_of r) ls) as [vs|e'|]; try contradiction; cbn [obind]; auto;
        destruct IH as (A & B & C); (split; [intros f x I; right; apply A; exact I|]); (split; [exact B|]); intros f x I; cbn [named fst snd] in I;
        (destruct I as [I|I]; [injection I as <- <-; right; eexists; eexists; (split; [left; reflexivity|]); (split; reflexivity)|]);
        destruct (C f x I) as [D|(cf & b & D1 & D2)]; [left; exact D|right; exists cf, b; (split; [right; exact D1|exact D2])] ..].
    destruct K1 as [K1 _]. cbn [seq_list fold_right]. fold (seq_list (map (run_entry ls) (news_for r))).
    unfold run_entry at 1. cbn [fst snd]. rewrite K1. unfold lp. cbn [plain f_new].
    destruct (last_opt _) as [l|] eqn:LL; cbn [obind].
    + destruct (seq_list (map (run_entry ls) (news_for r))) as [o|] eqn:Q; [|destruct (new_fields (schema_of r) ls); contradiction].
      destruct (p l) as [x|e|]; cbn [obind]; auto.
      destruct o as [xs|e|]; destruct (new_fields (schema_of r) ls) as [vs|e'|]; try contradiction; cbn [obind]; auto.
      destruct IH as (A & B & C). split; [|split].
      * intros f y [I|I]; [left; exact I|right; apply A; exact I].
      * cbn [map fst]. f_equal. exact B.
      * intros f y I. cbn [named fst snd] in I. destruct I as [I|I]; [left; left; exact I|].
        destruct (C f y I) as [D|(cf & b & D1 & D2)]; [left; right; exact D|right; exists cf, b; (split; [right; exact D1|exact D2])].
    + destruct (seq_list (map (run_entry ls) (news_for r))) as [o|] eqn:Q; [auto|destruct (new_fields (schema_of r) ls); contradiction].
Qed.
Lemma news_names : NoDup (map fst (news_for cs)).
Proof.
  pose proof (proj1 names_cs) as N. revert N. clear. induction cs as [|[i cf] r IH]; [constructor|]. cbn [map fst]. intros N. inversion N as [|? ? N1 N2]; subst.
  specialize (IH N2). assert (S : forall j, In j (map fst (news_for r)) -> In j (map fst r)).
  { clear. induction r as [|[i cf] r IH]; [auto|]. intros j. cbn [news_for flat_map fst snd]. fold (news_for r). rewrite map_app. intros I. apply in_app_or in I.
    destruct I as [I|I]; [|right; apply IH; exact I]. destruct cf; cbn in I; try contradiction. left. destruct I as [I|[]]; auto. }
  cbn [news_for flat_map fst snd]. fold (news_for r). destruct cf; cbn [app]; auto. constructor; auto.
Qed.
Lemma named_lookup (cs' : cschema) vs f x y : NoDup (map fst cs') -> In (f, x) (named cs' vs) -> In (f, y) (named cs' vs) -> x = y.
Proof.
  intros N. rewrite <- (named_names cs' vs) in N. revert N. generalize (named cs' vs) as l. induction l as [|[g z] l IH]; [intros _ []|].
  intros N. inversion N as [|? ? N1 N2]; subst. intros [I|I] [J|J].
  - congruence.
  - injection I as -> ->. exfalso. apply N1. apply in_map_iff. exists (f, y). auto.
  - injection J as -> ->. exfalso. apply N1. apply in_map_iff. exists (f, x). auto.
  - apply IH; auto.
Qed.
Lemma run_new_eq name lname ls : run_new st (code_for cs name lname) ls = Some (omap of (let* vs := new_fields (schema_of cs) ls in Ok (mk_comp vs [] []))).
Proof.
  pose proof (new_named ls cs (l_known L)) as NN. unfold run_new, code_for. cbn [k_new].
  destruct (seq_list (map (run_entry ls) (news_for cs))) as [[xs|e|]|]; destruct (new_fields (schema_of cs) ls) as [vs|e'|]; try contradiction; unfold omap; cbn [obind]; try congruence.
  destruct NN as (A & B & C). destruct names_cs as (N & NX & NI).
  set (w := of (mk_comp vs [] [])).
  assert (FW : fields_of st w = named cs vs ++ extra [] []) by (rewrite (l_fields L); unfold w; rewrite (l_to_of L); reflexivity).
  assert (T1 : forall f x, In (f, x) xs -> In (f, projT1 x) (struct_fields st)).
  { intros f [t x] I. cbn [projT1]. apply (in_types w f t x). rewrite FW. apply in_or_app. left. apply A. exact I. }
  assert (T2 : NoDup (map fst xs)) by (rewrite B; apply news_names).
  destruct (assign_spec st xs T1 T2 (default_of st)) as (v' & P & G & O).
  - rewrite P. cbn [option_map]. do 2 f_equal. apply field_ext. intros f.
    destruct (in_dec (list_eq_dec Z.eq_dec) f (map fst xs)) as [I|I].
    + apply in_map_iff in I. destruct I as ([f' x] & Q & I). cbn [fst] in Q. subst f'. rewrite (G f x I). symmetry. apply in_get. rewrite FW. apply in_or_app. left. apply A. exact I.
    + rewrite (O f I). destruct (find (fun p => str_eqb (fst p) f) (fields_of st w)) as [[g y]|] eqn:FF.
      * assert (FF' := FF). apply find_some in FF'. destruct FF' as [J Q]. cbn [fst] in Q. apply str_eqb_eq in Q. subst g.
        change (field st w f) with (get_field st w f). rewrite (in_get w f y J). rewrite FW in J. apply in_app_or in J. destruct J as [J|J].
        -- destruct (C f y J) as [D|(cf & b & D1 & D2 & ->)]; [exfalso; apply I; apply in_map_iff; exists (f, y); auto|].
           pose proof (proj1 (Forall_forall _ _) (l_blank L) _ D1) as K. unfold blank_at in K. cbn [fst snd] in K. rewrite D2 in K. exact K.
        -- cbn [extra In] in J. destruct (l_xblank L) as [X1 X2]. destruct J as [J|[J|[]]]; injection J as <- <-; [exact X1|exact X2].
      * unfold field at 2. rewrite FF. cbn [option_map]. unfold field. destruct (find (fun p => str_eqb (fst p) f) (fields_of st (default_of st))) as [[g y]|] eqn:GG; [|reflexivity].
        exfalso. apply find_some in GG. destruct GG as [J Q]. cbn [fst] in Q. apply str_eqb_eq in Q. subst g.
        assert (In f (map fst (fields_of st w))) as M by (rewrite names_of, <- (names_of st (default_of st)); apply in_map_iff; exists (f, y); auto).
        apply in_map_iff in M. destruct M as (q & <- & M). pose proof (find_none _ _ FF _ M) as M'. cbn beta in M'. rewrite str_eqb_refl in M'. discriminate.
Qed.
(** The generated [try_from] is [comp_of_lines]. *)
Lemma run_read_eq name lname ls : run_read st (code_for cs name lname) ls = Some (omap of (comp_of_lines (schema_of cs) ls)).
Proof.
  unfold run_read, comp_of_lines. rewrite run_new_eq. destruct (new_fields (schema_of cs) ls) as [vs|e|]; unfold omap; cbn [obind]; auto.
  rewrite run_lines_eq, (l_to_of L). reflexivity.
Qed.

(** Writing. *)
Lemma seq_app {A} (a b : list (option (outcome A))) : seq_list (a ++ b) =
  match seq_list a, seq_list b with Some x, Some y => Some (let* x' := x in let* y' := y in Ok (x' ++ y')) | _, _ => None end.
Proof.
  induction a as [|o a IH]; cbn [app].
  - cbn [seq_list fold_right]. destruct (seq_list b) as [[y|e|]|]; reflexivity.
  - cbn [seq_list fold_right]. fold (seq_list (a ++ b)). fold (seq_list a). rewrite IH. destruct o as [o|]; [|reflexivity].
    destruct (seq_list a) as [x|]; [|reflexivity]. destruct (seq_list b) as [y|]; [|reflexivity].
    destruct o as [o|e|]; cbn [obind]; auto. destruct x as [x|e|]; cbn [obind]; auto. destruct y; reflexivity.
Qed.
Lemma stmt_named v i cf vx : known (i, cf) -> In (i, existT den (code_ty cf) (unplain cf vx)) (fields_of st v) ->
  run_stmt st v (stmt_of i cf) = Some (f_ser (field_key i) (plain cf) vx).
Proof.
  unfold known. cbn [fst snd]. intros K I.
  destruct cf as [t Sr p|t Sr p|t Sr p|t Sr p|t Sr]; cbn [stmt_of run_stmt code_ty unplain] in *; rewrite (in_get _ _ _ I); cbn [plain f_ser].
  - destruct K as [_ ->]. reflexivity.
  - destruct K as [_ K]. cbn [ser_of]. rewrite K. reflexivity.
  - destruct K as [_ ->]. reflexivity.
  - destruct K as [_ ->]. reflexivity.
  - rewrite K. reflexivity.
Qed.
Lemma ser_cons i cf r (vs : fty (plain cf) * fields (schema_of r)) : ser_fields (schema_of ((i, cf) :: r)) vs =
  let* a := f_ser (field_key i) (plain cf) (fst vs) in let* b := ser_fields (schema_of r) (snd vs) in Ok (a ++ b).
Proof. reflexivity. Qed.
Lemma ser_named v (cs' : cschema) vs : Forall known cs' -> (forall f x, In (f, x) (named cs' vs) -> In (f, x) (fields_of st v)) ->
  option_map (omap (@concat char)) (seq_list (map (run_stmt st v) (map (fun x => stmt_of (fst x) (snd x)) cs'))) = Some (ser_fields (schema_of cs') vs).
Proof.
  induction cs' as [|[i cf] r IH]; intros K S; [reflexivity|]. inversion K as [|? ? K1 K2]; subst.
  change (fty (plain cf) * fields (schema_of r))%type in vs.
  cbn [map fst snd]. cbn [seq_list fold_right]. match goal with |- context [fold_right _ _ ?l] => fold (seq_list l) end.
  rewrite (stmt_named v i cf (fst vs) K1) by (apply S; left; reflexivity).
  specialize (IH (snd vs) K2 (fun f x I => S f x (or_intror I))).
  destruct (seq_list (map (run_stmt st v) _)) as [o|]; [|discriminate]. cbn [option_map] in IH |- *. injection IH as IH.
  rewrite ser_cons, <- IH. f_equal. unfold omap.
  destruct (f_ser (field_key i) (plain cf) (fst vs)) as [a|e|]; cbn [obind]; auto. destruct o as [ps|e|]; cbn [obind]; auto.
Qed.
(** The generated [ical] is [comp_ical]. *)
Lemma run_write_eq name lname v : run_write st (code_for cs name lname) v = Some (comp_ical name (to v)).
Proof.
  unfold run_write, code_for. cbn [k_ser k_component]. rewrite map_app, seq_app.
  assert (IX : In (lit "x_prop", existT den TExt (c_xprop (to v))) (fields_of st v)) by (rewrite (l_fields L); apply in_or_app; right; left; reflexivity).
  assert (II : In (lit "iana_prop", existT den TExt (c_iana (to v))) (fields_of st v)) by (rewrite (l_fields L); apply in_or_app; right; right; left; reflexivity).
  pose proof (ser_named v cs (c_fields (to v)) (l_known L)) as SN. specialize (SN (fun f x I => eq_ind_r (fun l => In (f, x) l) (in_or_app _ _ _ (or_introl I)) (l_fields L v))).
  destruct (seq_list (map (run_stmt st v) (map _ cs))) as [o|]; [|discriminate]. cbn [option_map] in SN. injection SN as SN.
  cbn [map run_stmt]. rewrite (in_get _ _ _ IX), (in_get _ _ _ II). cbn [ser_of option_map].
  cbn [seq_list fold_right]. cbn [option_map]. f_equal. unfold comp_ical. rewrite <- SN. unfold omap.
  change (den TExt) with (smap content_line). destruct o as [ps|e|]; cbn [obind]; auto.
  destruct (ser_field (ser_map ser_cl) (lit "X-PROP") (c_xprop (to v))) as [a|e|]; cbn [obind]; auto.
  destruct (ser_field (ser_map ser_cl) (lit "IANA-PROP") (c_iana (to v))) as [b|e|]; cbn [obind]; auto.
  rewrite concat_app. cbn [concat]. rewrite app_nil_r, <- !app_assoc. reflexivity.
Qed.
End Link.

(** The same for a schema that is equal to [schema_of cs]. *)
Lemma generated st cs s (e : schema_of cs = s) (to : rec_of st -> comp s) (of : comp s -> rec_of st) name lname :
  (forall v, of (to v) = v) -> (forall c, to (of c) = c) ->
  (forall v, fields_of st v = all_named cs (eq_rect_r comp (to v) e)) -> Forall known cs -> Forall (blank_at st) cs ->
  get_field st (default_of st) (lit "x_prop") = Some (existT den TExt []) -> get_field st (default_of st) (lit "iana_prop") = Some (existT den TExt []) ->
  (forall ls, run_read st (code_for cs name lname) ls = Some (omap of (comp_of_lines s ls))) /\
  (forall v, run_write st (code_for cs name lname) v = Some (comp_ical name (to v))).
Proof.
  destruct e. intros A B F K D X1 X2. assert (L : link st cs to of) by (constructor; auto).
  split; intros; [exact (run_read_eq st cs to of L name lname ls)|exact (run_write_eq st cs to of L name lname v)].
Qed.
End GenFacts.
