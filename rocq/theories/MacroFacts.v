(** * Facts about the construction macros, used in PropMacro.v. *)
From Coq Require Import Eqdep_dec.
From Verif Require Import Base BaseFacts Env Chrono Types Parser Components Macros SpecMacro.

(** One case for every field of every struct. *)
Ltac by_field H :=
  revert H;
  match goal with |- In (?f, _) (struct_fields ?st) -> _ => destruct st; intros H; cbn [struct_fields In] in H end;
  repeat (destruct H as [H|H]; [first [discriminate H|injection H as <- <-|injection H as <-]|]); try (destruct H; fail).
(** One case for every slot. *)
Ltac by_slot H := destruct H as [H|H]; by_field H.

Definition upd (f : str) (x : typed) (p : str * typed) : str * typed := if str_eqb (fst p) f then (fst p, x) else p.
Lemma put_fields st f t : In (f, t) (struct_fields st) ->
  forall x v, exists v', put_field st f (existT den t x) v = Some v' /\ fields_of st v' = map (upd f (existT den t x)) (fields_of st v).
Proof. intros H. by_field H; intros x v; eexists; (split; [reflexivity|reflexivity]). Qed.
Lemma put_unknown st f x v : field_type st f = None -> put_field st f x v = None.
Proof.
  unfold field_type. destruct (find _ _) as [p|] eqn:F; [discriminate|]. intros _.
  assert (N : forall g t, In (g, t) (struct_fields st) -> str_eqb f g = false).
  { intros g t I. pose proof (find_none _ _ F _ I) as K. cbn [fst] in K. destruct (str_eqb f g) eqn:Q; [|reflexivity].
    apply str_eqb_eq in Q. subst. rewrite (proj2 (str_eqb_eq g g) eq_refl) in K. discriminate. }
  clear F. destruct st; cbn [put_field];
  match goal with |- ?p _ _ _ = _ => unfold p end;
  repeat (erewrite N; [|cbn [struct_fields In]; intuition eauto; fail]); reflexivity.
Qed.
Lemma field_type_iff st f t : field_type st f = Some t <-> In (f, t) (struct_fields st).
Proof.
  split.
  - unfold field_type. destruct (find _ _) as [[g u]|] eqn:F; [|discriminate]. cbn. intros H. injection H as <-.
    apply find_some in F. destruct F as [I Q]. cbn in Q. apply str_eqb_eq in Q. subst. exact I.
  - intros H. by_field H; reflexivity.
Qed.
Lemma field_cons (f g : str) t (x y : den t) (l m : list (str * typed)) : (f, existT den t x) :: l = (g, existT den t y) :: m -> x = y /\ l = m.
Proof. intros H. split; [|congruence]. apply (inj_pair2_eq_dec _ rty_eq_dec). congruence. Qed.
Lemma fields_ext st (a b : rec_of st) : fields_of st a = fields_of st b -> a = b.
Proof.
  destruct st; destruct a, b; cbn [fields_of]; intros H;
  match type of H with (?g _ = _) => unfold g in H end;
  repeat (apply field_cons in H; let H' := fresh in destruct H as [H' H]);
  cbn in *; subst; reflexivity.
Qed.
Lemma names_of st v : map fst (fields_of st v) = map fst (struct_fields st).
Proof. destruct st; reflexivity. Qed.
Lemma find_upd f x g l :
  find (fun p => str_eqb (fst p) g) (map (upd f x) l) = option_map (upd f x) (find (fun p => str_eqb (fst p) g) l).
Proof.
  induction l as [|p l IH]; [reflexivity|]. cbn [map find].
  replace (fst (upd f x p)) with (fst p) by (unfold upd; destruct (str_eqb (fst p) f); reflexivity).
  destruct (str_eqb (fst p) g); [reflexivity|exact IH].
Qed.
Lemma str_eqb_refl s : str_eqb s s = true.
Proof. apply str_eqb_eq. reflexivity. Qed.
Lemma field_put st f t x v v' : In (f, t) (struct_fields st) -> fields_of st v' = map (upd f (existT den t x)) (fields_of st v) ->
  field st v' f = Some (existT den t x) /\ (forall g, g <> f -> field st v' g = field st v g).
Proof.
  intros I F. unfold field. rewrite F. split.
  - rewrite find_upd. destruct (find _ _) as [p|] eqn:Q.
    + cbn. apply find_some in Q. destruct Q as [_ Q]. unfold upd. rewrite Q. reflexivity.
    + exfalso. assert (K : In f (map fst (fields_of st v))) by (rewrite names_of; apply (in_map fst _ _ I)).
      apply in_map_iff in K. destruct K as (p & <- & K). pose proof (find_none _ _ Q _ K) as C. cbn in C. rewrite str_eqb_refl in C. discriminate.
  - intros g N. rewrite find_upd. destruct (find _ _) as [p|] eqn:Q; [|reflexivity]. cbn. apply find_some in Q. destruct Q as [_ Q].
    apply str_eqb_eq in Q. subst g. unfold upd. destruct (str_eqb (fst p) f) eqn:C; [|reflexivity]. apply str_eqb_eq in C. contradiction.
Qed.
Lemma assign_spec st xs : (forall f x, In (f, x) xs -> In (f, projT1 x) (struct_fields st)) -> NoDup (map fst xs) ->
  forall v, exists v', assign st xs v = Some v' /\ (forall f x, In (f, x) xs -> field st v' f = Some x)
    /\ (forall f, ~ In f (map fst xs) -> field st v' f = field st v f).
Proof.
  induction xs as [|[f x] xs IH]; intros T N v.
  - exists v. split; [reflexivity|]. split; [intros ? ? []|reflexivity].
  - inversion N as [|? ? N1 N2]; subst. destruct x as [t x]. change (existT (fun t => den t) t x) with (existT den t x) in *. pose proof (T f (existT den t x) (or_introl eq_refl)) as I. cbn in I.
    destruct (put_fields st f t I x v) as (v1 & P & F). destruct (field_put st f t x v v1 I F) as [F1 F2].
    destruct (IH (fun g y K => T g y (or_intror K)) N2 v1) as (v' & A & G & O).
    exists v'. split; [cbn [assign]; rewrite P; exact A|]. split.
    + intros g y [K|K].
      * injection K as <- <-. rewrite (O f N1). exact F1.
      * apply G. exact K.
    + intros g K. cbn [map fst In] in K. rewrite (O g); [|tauto]. apply F2. intros ->. tauto.
Qed.
Lemma field_ext st (a b : rec_of st) : (forall f, field st a f = field st b f) -> a = b.
Proof.
  intros H. apply fields_ext.
  assert (G : forall (l m : list (str * typed)), map fst l = map fst m -> NoDup (map fst l) ->
     (forall f, option_map snd (find (fun p => str_eqb (fst p) f) l) = option_map snd (find (fun p => str_eqb (fst p) f) m)) -> l = m).
  { induction l as [|[f x] l IH]; intros [|[g y] m] M N K; try discriminate; [reflexivity|].
    cbn [map fst] in M. assert (f = g) by congruence. subst g. assert (M' : map fst l = map fst m) by congruence.
    inversion N as [|? ? N1 N2]; subst. f_equal.
    - specialize (K f). cbn [find fst] in K. rewrite str_eqb_refl in K. cbn in K. congruence.
    - apply IH; [exact M'|exact N2|]. intros h. specialize (K h). cbn [find fst] in K. destruct (str_eqb f h) eqn:Q; [|exact K].
      apply str_eqb_eq in Q. subst h.
      assert (Z : forall (q : list (str * typed)), ~ In f (map fst q) -> find (fun p => str_eqb (fst p) f) q = None).
      { intros q Hq. destruct (find _ q) as [p|] eqn:C; [|reflexivity]. apply find_some in C. destruct C as [C1 C2]. apply str_eqb_eq in C2.
        exfalso. apply Hq. apply in_map_iff. eauto. }
      rewrite (Z l N1), (Z m); [reflexivity|]. rewrite <- M'. exact N1. }
  apply G; [rewrite !names_of; reflexivity| |exact H].
  rewrite names_of. clear. destruct st; cbn [struct_fields map fst]; repeat constructor;
  cbn [In]; intuition discriminate.
Qed.

Lemma seq_list_none {A} (l : list (option (outcome A))) : seq_list l = None <-> In None l.
Proof.
  induction l as [|[x|] l IH]; [split; [discriminate|intros []]| |].
  - cbn [seq_list fold_right] in *. fold (seq_list l) in *. destruct (seq_list l) as [y|].
    + split; [discriminate|]. intros [K|K]; [discriminate|]. apply IH in K. discriminate.
    + split; [intros _; right; apply IH; reflexivity|reflexivity].
  - split; [intros _; left; reflexivity|reflexivity].
Qed.
Lemma seq_list_ok {A} (l : list (option (outcome A))) xs : seq_list l = Some (Ok xs) <-> l = map (fun x => Some (Ok x)) xs.
Proof.
  revert xs. induction l as [|[x|] l IH]; intros xs.
  - destruct xs; (split; [try discriminate|try discriminate]); reflexivity.
  - cbn [seq_list fold_right]. fold (seq_list l). destruct (seq_list l) as [y|].
    + split.
      * intros H. destruct x as [x|e|]; cbn in H; try discriminate. destruct y as [ys|e|]; cbn in H; try discriminate. injection H as <-.
        cbn [map]. f_equal. apply IH. reflexivity.
      * intros H. destruct xs as [|z zs]; [discriminate|]. injection H as -> K. cbn. apply IH in K. injection K as ->. reflexivity.
    + split; [discriminate|]. intros H. destruct xs as [|z zs]; [discriminate|]. injection H as -> K. apply IH in K. discriminate.
  - split; [discriminate|]. destruct xs; discriminate.
Qed.
(** The first failure of a list. *)
Definition fails {A B} (o : outcome A) (o' : outcome B) : Prop :=
  match o, o' with Err e, Err e' => e = e' | Panic, Panic => True | _, _ => False end.
Lemma seq_list_fail {A} (l : list (option (outcome A))) (o : outcome (list A)) : (forall x, o <> Ok x) ->
  (seq_list l = Some o <-> ~ In None l /\ exists xs o' b, l = map (fun x => Some (Ok x)) xs ++ Some o' :: b /\ fails o' o).
Proof.
  intros NO. induction l as [|[x|] l IH].
  - split; [intros H; injection H as <-; exfalso; eapply NO; reflexivity|]. intros [_ ([|? ?] & o' & b & H & _)]; discriminate.
  - cbn [seq_list fold_right]. fold (seq_list l). destruct (seq_list l) as [y|] eqn:Q.
    + assert (NN : ~ In None l) by (intros C; apply seq_list_none in C; congruence).
      assert (NN' : ~ In None (Some x :: l)) by (intros [C|C]; [discriminate|contradiction]).
      split.
      * intros H. split; [exact NN'|]. destruct x as [x|e|]; cbn in H.
        -- destruct y as [ys|e|]; cbn in H.
           ++ injection H as <-. exfalso. eapply NO. reflexivity.
           ++ injection H as <-. destruct (proj1 IH eq_refl) as [_ (xs & o' & b & -> & F)]. exists (x :: xs), o', b. split; [reflexivity|exact F].
           ++ injection H as <-. destruct (proj1 IH eq_refl) as [_ (xs & o' & b & -> & F)]. exists (x :: xs), o', b. split; [reflexivity|exact F].
        -- injection H as <-. exists [], (Err e), l. split; [reflexivity|]. cbn. reflexivity.
        -- injection H as <-. exists [], Panic, l. split; [reflexivity|]. cbn. exact I.
      * intros [_ ([|z zs] & o' & b & H & F)].
        -- injection H as -> ->. destruct o', o; cbn in F; try contradiction; subst; reflexivity.
        -- injection H as -> H. assert (K : seq_list l = Some o).
           { rewrite Q. apply IH. split; [exact NN|]. exists zs, o', b. split; [exact H|exact F]. }
           rewrite Q in K. injection K as ->. destruct o; cbn; try reflexivity. exfalso. eapply NO. reflexivity.
    + split; [discriminate|]. intros [C _]. exfalso. apply C. right. apply seq_list_none. exact Q.
  - split; [discriminate|]. intros [C _]. exfalso. apply C. left. reflexivity.
Qed.

Section Env.
Context {E : Env}.
Context (scope : str -> option typed).
Definition entry (st : strct) (fv : str * value) : option (outcome (str * typed)) :=
  match field_type st (fst fv) with
  | Some t => option_map (omap (fun x => (fst fv, existT den t x))) (given scope st (fst fv) t (snd fv))
  | None => None end.
Lemma expand_not_short ty f v : v <> VNone -> expand_value ty f v <> RShort.
Proof.
  destruct v as [|e|l|l]; cbn [expand_value]; intros H; try contradiction.
  - unfold expand_single. destruct (is_option ty f); [discriminate|]. destruct (should_parsed f).
    + destruct (str_eqb f (lit "duration")); discriminate.
    + destruct (should_convert f); [discriminate|]. destruct (enum_of f); discriminate.
  - destruct (object_of f); [|discriminate]. destruct (is_option ty f); discriminate.
  - discriminate.
Qed.
Lemma no_twice_iff l : no_twice l = true <-> NoDup l.
Proof.
  induction l as [|x l IH]; [split; [constructor|reflexivity]|]. cbn [no_twice]. rewrite andb_true_iff, negb_true_iff. split.
  - intros [A B]. constructor; [|apply IH; exact B]. intros C. unfold among in A.
    assert (existsb (str_eqb x) l = true) by (apply existsb_exists; exists x; split; [exact C|apply str_eqb_refl]). congruence.
  - intros H. inversion H as [|? ? A B]; subst. split; [|apply IH; exact B]. unfold among. destruct (existsb _ _) eqn:C; [|reflexivity].
    apply existsb_exists in C. destruct C as (y & C & Q). apply str_eqb_eq in Q. subst. contradiction.
Qed.
Lemma struct_of_name_of st : struct_of_name (struct_name st) = Some st.
Proof. destruct st; reflexivity. Qed.
Lemma cast_same t (x : den t) : cast (existT den t x) t = Some x.
Proof. unfold cast. cbn [projT1 projT2]. destruct (rty_eq_dec t t) as [e|n]; [|contradiction]. rewrite (UIP_dec rty_eq_dec e eq_refl). reflexivity. Qed.
Lemma cast_other t u (x : den t) : t <> u -> cast (existT den t x) u = None.
Proof. intros N. unfold cast. cbn [projT1]. destruct (rty_eq_dec t u); [contradiction|reflexivity]. Qed.
Lemma cast_type t u (x : den t) y : cast (existT den t x) u = Some y -> t = u.
Proof. unfold cast. cbn [projT1]. destruct (rty_eq_dec t u); [auto|discriminate]. Qed.
Lemma val_into_types u x t y : val_into (existT den u x) t = Some y ->
  u = t \/ t = TOpt u \/ ((t = TText \/ t = TUri) /\ u = TString) \/ (t = TDateTime \/ t = TDate)
  \/ (t = TAlarm /\ (u = TStruct SAudio \/ u = TStruct SDisplay \/ u = TStruct SEmail)).
Proof.
  clear scope. unfold val_into. destruct (cast _ t) eqn:C; [intros _; left; eapply cast_type; exact C|]. unfold from_impl. clear C. destruct t; try discriminate; try tauto.
  - destruct (cast _ TString) eqn:C; [|discriminate]. apply cast_type in C. tauto.
  - destruct (cast _ TString) eqn:C; [|discriminate]. apply cast_type in C. tauto.
  - destruct (cast _ (TStruct SAudio)) eqn:C; [apply cast_type in C; tauto|].
    destruct (cast _ (TStruct SDisplay)) eqn:C2; [apply cast_type in C2; tauto|].
    destruct (cast _ (TStruct SEmail)) eqn:C3; [apply cast_type in C3; tauto|discriminate].
  - destruct (cast _ t) eqn:C; [|discriminate]. apply cast_type in C. subst. tauto.
Qed.
Lemma macro_value_eq st l : macro_value scope st l =
  if no_twice (map fst l) then
    match seq_list (map (entry st) l) with
    | Some (Ok xs) => option_map Ok (assign st xs (default_of st))
    | Some (Err e) => Some (Err e) | Some Panic => Some Panic | None => None end
  else None.
Proof.
  unfold macro_value, expand_map. cbn [check]. rewrite struct_of_name_of, !map_map. cbn [fst snd].
  replace (map (fun x => fst x) l) with (map fst l) by (apply map_ext; reflexivity).
  destruct (no_twice (map fst l)); [|reflexivity].
  match goal with |- match seq_list ?a with _ => _ end = match seq_list ?b with _ => _ end => assert (EQ : a = b) end.
  { apply map_ext. intros [f v]. unfold entry. cbn [fst snd]. destruct (field_type st f) as [t|]; [|reflexivity]. f_equal.
    unfold given. destruct v as [|e|m|m]; [reflexivity|..].
    all: match goal with |- (match ?r with RShort => _ | _ => _ end) = _ => pose proof (expand_not_short (struct_name st) f) as N end.
    - specialize (N (VSingle e) ltac:(discriminate)). destruct (expand_value _ _ (VSingle e)); try reflexivity. contradiction.
    - specialize (N (VObject m) ltac:(discriminate)). destruct (expand_value _ _ (VObject m)); try reflexivity. contradiction.
    - specialize (N (VCollection m) ltac:(discriminate)). destruct (expand_value _ _ (VCollection m)); try reflexivity. contradiction. }
  rewrite EQ. destruct (seq_list _) as [[xs|e|]|]; [| | |reflexivity].
  - destruct (assign _ _ _); [|reflexivity]. rewrite cast_same. reflexivity.
  - destruct (rty_eq_dec _ _); [reflexivity|contradiction].
  - destruct (rty_eq_dec _ _); [reflexivity|contradiction].
Qed.
Lemma entry_none st fv : entry st fv = None <-> ~ (exists t o, In (fst fv, t) (struct_fields st) /\ given scope st (fst fv) t (snd fv) = Some o).
Proof.
  unfold entry. destruct (field_type st (fst fv)) as [t|] eqn:T.
  - destruct (given scope st (fst fv) t (snd fv)) as [o|] eqn:G; cbn.
    + split; [discriminate|]. intros N. exfalso. apply N. exists t, o. split; [apply field_type_iff; exact T|exact G].
    + split; [|reflexivity]. intros _ (u & o & I & K). apply field_type_iff in I. rewrite T in I. injection I as <-. congruence.
  - split; [|reflexivity]. intros _ (u & o & I & K). apply field_type_iff in I. congruence.
Qed.
Lemma entry_ok st f v p : entry st (f, v) = Some (Ok p) <-> exists t x, p = (f, existT den t x) /\ In (f, t) (struct_fields st) /\ given scope st f t v = Some (Ok x).
Proof.
  unfold entry. cbn [fst snd]. split.
  - destruct (field_type st f) as [t|] eqn:T; [|discriminate]. destruct (given scope st f t v) as [[x|e|]|] eqn:G; cbn; try discriminate.
    intros H. injection H as <-. exists t, x. split; [reflexivity|]. split; [apply field_type_iff; exact T|exact G].
  - intros (t & x & -> & I & G). apply field_type_iff in I. rewrite I, G. reflexivity.
Qed.
Lemma all_ok st l : (exists xs, map (entry st) l = map (fun x => Some (Ok x)) xs) <-> succeed scope st l.
Proof.
  split.
  - intros [xs H] f v I. assert (K : In (entry st (f, v)) (map (entry st) l)) by (apply in_map; exact I). rewrite H in K.
    apply in_map_iff in K. destruct K as (p & K & _). symmetry in K. apply entry_ok in K. destruct K as (t & x & _ & A & B). eauto.
  - induction l as [|[f v] l IH]; intros S0; [exists []; reflexivity|].
    destruct IH as [xs H]; [intros g w K; apply S0; right; exact K|]. destruct (S0 f v (or_introl eq_refl)) as (t & x & A & B).
    exists ((f, existT den t x) :: xs). cbn [map]. rewrite H. f_equal. apply entry_ok. exists t, x. auto.
Qed.
Lemma ok_keys st l xs : map (entry st) l = map (fun x => Some (Ok x)) xs -> map fst xs = map fst l /\ (forall f x, In (f, x) xs -> In (f, projT1 x) (struct_fields st)).
Proof.
  revert xs. induction l as [|[f v] l IH]; intros [|p xs] H; try discriminate; [split; [reflexivity|intros ? ? []]|].
  cbn [map] in H. injection H as A B. apply IH in B. destruct B as [B C]. apply entry_ok in A. destruct A as (t & x & -> & I & G). split.
  - cbn [map fst]. rewrite B. reflexivity.
  - intros g y [K|K]; [injection K as <- <-; exact I|apply C; exact K].
Qed.
Lemma check_struct_other s l t : t <> TStruct s -> check scope (RStruct (struct_name s) l) t = None.
Proof.
  intros N. cbn [check]. rewrite struct_of_name_of. destruct (no_twice _); [|reflexivity]. destruct (seq_list _) as [[xs|e|]|]; [| | |reflexivity].
  - destruct (assign _ _ _); [|reflexivity]. rewrite cast_other; [reflexivity|]. intros C. apply N. symmetry. exact C.
  - destruct (rty_eq_dec _ _); [|reflexivity]. exfalso. apply N. symmetry. assumption.
  - destruct (rty_eq_dec _ _); [|reflexivity]. exfalso. apply N. symmetry. assumption.
Qed.
Lemma first_fail st l (o : outcome (rec_of st)) : (forall x, o <> Ok x) ->
  (macro_value scope st l = Some o <->
   compiles scope st l /\ exists a f v b t o', l = a ++ (f, v) :: b /\ succeed scope st a /\ In (f, t) (struct_fields st) /\ given scope st f t v = Some o' /\ fails o' o).
Proof.
  intros NO. rewrite macro_value_eq. split.
  - destruct (no_twice (map fst l)) eqn:T; [|discriminate]. apply no_twice_iff in T. intros H.
    destruct (seq_list (map (entry st) l)) as [o1|] eqn:Q; [|discriminate].
    assert (F1 : fails o1 o /\ forall x, o1 <> Ok x).
    { destruct o1 as [xs|e|].
      - destruct (assign _ _ _); cbn in H; [|discriminate]. injection H as <-. exfalso. eapply NO. reflexivity.
      - injection H as <-. split; [reflexivity|discriminate].
      - injection H as <-. split; [exact I|discriminate]. }
    destruct F1 as [F1 NO1]. apply seq_list_fail in Q; [|exact NO1]. destruct Q as [NN (xs & o' & b & Q & F2)].
    apply map_eq_app in Q. destruct Q as (la & lb & -> & Qa & Qb). destruct lb as [|[f v] lb]; [discriminate|]. cbn [map] in Qb. injection Qb as Qf Qb.
    split.
    + split; [exact T|]. intros g w I. destruct (entry st (g, w)) as [p|] eqn:P.
      * unfold entry in P. cbn [fst snd] in P. destruct (field_type st g) as [t|] eqn:F; [|discriminate].
        destruct (given scope st g t w) as [o2|] eqn:G; [|discriminate]. exists t, o2. split; [apply field_type_iff; exact F|exact G].
      * exfalso. apply NN. rewrite <- P. apply in_map. exact I.
    + unfold entry in Qf. cbn [fst snd] in Qf. destruct (field_type st f) as [t|] eqn:F; [|discriminate].
      destruct (given scope st f t v) as [o2|] eqn:G; [|discriminate]. exists la, f, v, lb, t, o2. split; [reflexivity|].
      split; [apply all_ok; exists xs; exact Qa|]. split; [apply field_type_iff; exact F|]. split; [exact G|].
      cbn in Qf. injection Qf as <-. destruct o2, o1, o; cbn in F1, F2 |- *; try contradiction; congruence.
  - intros [[T C] (a & f & v & b & t & o' & -> & SA & I & G & F)]. pose proof (proj2 (no_twice_iff _) T) as T'. rewrite T'.
    apply all_ok in SA. destruct SA as [xs SA].
    pose (o1 := match o' with Err e => Err e | _ => Panic end : outcome (list (str * typed))).
    assert (Q : seq_list (map (entry st) (a ++ (f, v) :: b)) = Some o1).
    { apply seq_list_fail; [unfold o1; destruct o'; discriminate|]. split.
      - intros K. apply in_map_iff in K. destruct K as ([g w] & K & KI). apply entry_none in K. apply K. exact (C g w KI).
      - exists xs, (omap (fun x => (f, existT den t x)) o'), (map (entry st) b). split.
        + rewrite map_app. cbn [map]. rewrite SA. do 2 f_equal. unfold entry. cbn [fst snd]. apply field_type_iff in I. rewrite I, G. reflexivity.
        + unfold o1. destruct o', o; cbn in F |- *; try contradiction; auto. }
    rewrite Q. unfold o1. destruct o', o; cbn in F |- *; try contradiction; congruence.
Qed.
End Env.
