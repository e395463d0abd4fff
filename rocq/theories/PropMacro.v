(** * C59-C60: the construction macros and the defaults. *)
From Verif Require Import Base BaseFacts Env Chrono Types Parser Components Macros SpecMacro MacroFacts.

Section Env.
Context {E : Env}.
Context (scope : str -> option typed).

(** ** C59: one value *)
(** A string given for any field, or in the list of any field: parsed, converted and wrapped as the type of the field wants, whatever
    its name; six fields are left out, and using them does not compile. *)
Theorem C59_string : forall st f t s, slot st f t ->
  given scope st f t (VSingle (EStr s)) = if listed no_string st f then None else of_string t s.
Proof. intros st f t s H. by_slot H; reflexivity. Qed.
(** A [String]: the same, but a duration is only taken from a [&str]. *)
Theorem C59_owned_string : forall st f t s, slot st f t ->
  given scope st f t (VSingle (EVal (existT den TString s)))
  = if listed no_string st f then None else match t with TDuration | TOpt TDuration => None | _ => of_string t s end.
Proof. intros st f t s H. by_slot H; reflexivity. Qed.
(** An integer literal; [.into()] applies before a minus sign, so a negative one does not compile. *)
Theorem C59_integer : forall st f t n, slot st f t ->
  given scope st f t (VSingle (EInt n)) = if n <? 0 then None else option_map Ok (of_integer t n).
Proof.
  intros st f t n H. assert (N : n < 0 -> (0 <=? n) = false) by (intros; apply Z.leb_gt; lia). destruct (Z.ltb_spec n 0) as [L|L].
  - specialize (N L). apply Z.ltb_lt in L. by_slot H; first [reflexivity|cbn; rewrite ?L, ?N; reflexivity].
  - clear N. assert (M : (n <? 0) = false) by (apply Z.ltb_ge; exact L). by_slot H; first [reflexivity|cbn; rewrite ?M; try reflexivity; destruct (_ && _); reflexivity].
Qed.
(** A float literal; the coordinates can be negative. *)
Theorem C59_float : forall st f t x, slot st f t ->
  given scope st f t (VSingle (EFloat x)) = if (2147483648 <=? x) && str_eqb f (lit "statcode") then None else option_map Ok (of_float t x).
Proof. intros st f t x H. destruct (2147483648 <=? x) eqn:S0; by_slot H; first [reflexivity|cbn -[Z.leb]; rewrite ?S0; reflexivity]. Qed.
(** The name of a variant: no prefix is needed, and only the variants of the enum of the field are taken. *)
Theorem C59_variant : forall st f t v, slot st f t -> given scope st f t (VSingle (EVariant v)) = option_map Ok (of_variant t v).
Proof. intros st f t v H. by_slot H; destruct v; reflexivity. Qed.
(** A value of the type of the field, or of the optional field: taken as it is unless the type is one that the macros parse. *)
Theorem C59_value : forall st f t x, slot st f t -> (forall b, t <> TOpt b) -> t <> TString ->
  given scope st f t (VSingle (EVal (existT den t x))) = if by_text t then None else Some (Ok x).
Proof. intros st f t x H. by_slot H; intros N1 N2; try reflexivity; try (exfalso; eapply N1; reflexivity); exfalso; apply N2; reflexivity. Qed.
Theorem C59_some_value : forall st f b x, slot st f (TOpt b) -> b <> TString ->
  given scope st f (TOpt b) (VSingle (EVal (existT den b x)))
  = if by_text b && negb (listed [(SRecur, lit "until")] st f) then None else Some (Ok (Some x)).
Proof. intros st f b x H. by_slot H; intros N2; try reflexivity; exfalso; apply N2; reflexivity. Qed.
(** An [Option] is only taken by nine of the optional fields. *)
Theorem C59_option_value : forall st f b x, slot st f (TOpt b) ->
  given scope st f (TOpt b) (VSingle (EVal (existT den (TOpt b) x))) = if listed takes_option st f then Some (Ok x) else None.
Proof. intros st f b x H. by_slot H; reflexivity. Qed.
(** The alarms of a list can be given as any of the three structs; their action is set. *)
Theorem C59_alarm_value : forall st f x, slot st f TAlarm ->
  given scope st f TAlarm (VSingle (EVal (existT den (TStruct SAudio) x))) = Some (Ok (valarm_of_audio x)).
Proof. intros st f x H. by_slot H; reflexivity. Qed.
Theorem C59_alarm_display_value : forall st f x, slot st f TAlarm ->
  given scope st f TAlarm (VSingle (EVal (existT den (TStruct SDisplay) x))) = Some (Ok (valarm_of_display x)).
Proof. intros st f x H. by_slot H; reflexivity. Qed.
Theorem C59_alarm_email_value : forall st f x, slot st f TAlarm ->
  given scope st f TAlarm (VSingle (EVal (existT den (TStruct SEmail) x))) = Some (Ok (valarm_of_email x)).
Proof. intros st f x H. by_slot H; reflexivity. Qed.
(** No other type is taken. *)
Theorem C59_value_types : forall st f t u x o, slot st f t -> given scope st f t (VSingle (EVal (existT den u x))) = Some o ->
  u = TString \/ u = t \/ t = TOpt u \/ (t = TAlarm /\ (u = TStruct SAudio \/ u = TStruct SDisplay \/ u = TStruct SEmail)).
Proof.
  intros st f t u x o H. cbn [given expand_value]. unfold expand_single.
  assert (D : is_option (struct_name st) f = true -> forall t', t = TOpt t' -> (t' = TDateTime \/ t' = TDate) -> should_parsed f = true).
  { clear -H. by_slot H; intros I t' K [->| ->]; try discriminate K; try reflexivity; vm_compute in I; discriminate I. }
  assert (D' : t = TDateTime \/ t = TDate -> should_parsed f = true).
  { clear -H. by_slot H; intros [K|K]; try discriminate K; reflexivity. }
  assert (D2 : forall t', t = TOpt t' -> (forall b, t' <> TOpt b) /\ t' <> TAlarm).
  { clear -H. by_slot H; intros t' K; try discriminate K; injection K as <-; (split; [intros b; discriminate|discriminate]). }
  clear H.
  destruct (is_option (struct_name st) f).
  - destruct t; try discriminate. cbn [check]. destruct (should_parsed f).
    + destruct (str_eqb f (lit "duration")); destruct (enum_of f); cbn [check as_str]; try discriminate.
      destruct (cast _ TString) eqn:C; [|discriminate]. intros _. left. eapply cast_type; exact C.
    + destruct (should_convert f); [destruct (enum_of f); [discriminate|]|destruct (enum_of f); [discriminate|]]; cbn [check].
      * destruct (val_into _ t) eqn:V; [|discriminate]. intros _. apply val_into_types in V.
        destruct (D2 t eq_refl) as [N1 N2].
        destruct V as [->|[->|[[_ V]|[V2|[V _]]]]]; [tauto|exfalso; eapply N1; reflexivity|tauto| |contradiction].
        exfalso. discriminate (D eq_refl _ eq_refl V2).
      * destruct (cast _ t) eqn:C; [|discriminate]. apply cast_type in C. subst. auto.
  - destruct (should_parsed f).
    + destruct (str_eqb f (lit "duration")); destruct (enum_of f); cbn [check as_str]; try discriminate.
      destruct (cast _ TString) eqn:C; [|discriminate]. intros _. left. eapply cast_type; exact C.
    + destruct (should_convert f); [destruct (enum_of f); [discriminate|]|destruct (enum_of f); [discriminate|]]; cbn [check].
      * destruct (val_into _ t) eqn:V; [|discriminate]. intros _. apply val_into_types in V.
        destruct V as [->|[->|[[_ V]|[V2|V]]]]; try tauto. discriminate (D' V2).
      * destruct (cast _ t) eqn:C; [|discriminate]. apply cast_type in C. subst. auto.
Qed.
(** ** C59: lists, objects and the whole *)
(** A list: the values of its elements, in order; for a field that is not a list, it does not compile. *)
Theorem C59_list : forall st f t l,
  given scope st f t (VCollection l) =
  match t as t0 return option (outcome (den t0)) with
  | TVec b => seq_list (map (fun v => match v with VNone => None | _ => given scope st f b v end) l)
  | _ => None end.
Proof.
  intros st f t l. cbn [given expand_value check]. destruct t; try reflexivity. f_equal. rewrite map_map. apply map_ext. intros [|e|m|m]; reflexivity.
Qed.
(** An object, for a field or in its list: what the macro of its struct gives, [Some] of it for an optional field. Four fields are
    left out, and using them does not compile; nor does any field whose type is not a struct. *)
Theorem C59_object : forall st f t l, slot st f t ->
  given scope st f t (VObject l) =
  if listed no_object st f then None else
  match t as t0 return option (outcome (den t0)) with
  | TStruct s => macro_value scope s l
  | TOpt (TStruct s) => option_map (omap Some) (macro_value scope s l)
  | _ => None end.
Proof.
  intros st f t l H.
  by_slot H; try reflexivity;
  match goal with |- given _ _ _ ?t _ = _ => match t with TVec (TStruct ?s) => exact (check_struct_other scope s _ t ltac:(discriminate)) end end.
Qed.
(** The program compiles when every entry names a field of the struct, none is named twice, and each compiles. *)
Theorem C59_compiles : forall st l, macro_value scope st l <> None <-> compiles scope st l.
Proof.
  intros st l. rewrite macro_value_eq. unfold compiles. destruct (no_twice (map fst l)) eqn:T.
  - apply no_twice_iff in T. destruct (seq_list (map (entry scope st) l)) as [o|] eqn:Q.
    + assert (N : ~ In None (map (entry scope st) l)) by (intros C; apply seq_list_none in C; congruence). split.
      * intros _. split; [exact T|]. intros f v I. destruct (entry scope st (f, v)) as [p|] eqn:P.
        -- unfold entry in P. cbn [fst snd] in P. destruct (field_type st f) as [t|] eqn:F; [|discriminate].
           destruct (given scope st f t v) as [o'|] eqn:G; [|discriminate]. exists t, o'. split; [apply field_type_iff; exact F|exact G].
        -- exfalso. apply N. rewrite <- P. apply in_map. exact I.
      * intros _. destruct o as [xs|e|]; try discriminate. apply seq_list_ok in Q. apply ok_keys in Q. destruct Q as [K1 K2].
        assert (T2 : NoDup (map fst xs)) by (rewrite K1; exact T). destruct (assign_spec st xs K2 T2 (default_of st)) as (r & -> & _). discriminate.
    + apply seq_list_none in Q. apply in_map_iff in Q. destruct Q as ([f v] & Q & I). split; [intros C; contradiction|].
      intros [_ C]. exfalso. apply entry_none in Q. apply Q. cbn [fst snd]. exact (C f v I).
  - split; [intros C; contradiction|]. intros [C _]. exfalso. apply no_twice_iff in C. congruence.
Qed.
(** It then gives a value when every entry does: each field named has the value of its entry, and the others their defaults. *)
Theorem C59_fields : forall st l r, macro_value scope st l = Some (Ok r) <->
  NoDup (map fst l)
  /\ (forall f v, In (f, v) l -> exists t x, In (f, t) (struct_fields st) /\ given scope st f t v = Some (Ok x) /\ field st r f = Some (existT den t x))
  /\ (forall f, ~ In f (map fst l) -> field st r f = field st (default_of st) f).
Proof.
  intros st l r. rewrite macro_value_eq. split.
  - destruct (no_twice (map fst l)) eqn:T; [|discriminate]. apply no_twice_iff in T.
    destruct (seq_list (map (entry scope st) l)) as [[xs|e|]|] eqn:Q; try discriminate.
    apply seq_list_ok in Q. pose proof (ok_keys scope st l xs Q) as [K1 K2].
    assert (T2 : NoDup (map fst xs)) by (rewrite K1; exact T). destruct (assign_spec st xs K2 T2 (default_of st)) as (r' & -> & A & B). cbn. intros H. injection H as ->.
    split; [exact T|]. split.
    + intros f v I. assert (K : In (entry scope st (f, v)) (map (entry scope st) l)) by (apply in_map; exact I). rewrite Q in K.
      apply in_map_iff in K. destruct K as (p & K & IP). symmetry in K. apply entry_ok in K. destruct K as (t & x & -> & C & D).
      exists t, x. split; [exact C|]. split; [exact D|]. apply A. exact IP.
    + intros f N. apply B. intros C. apply N. exact (eq_ind _ (fun q => In f q) C _ K1).
  - intros (T & A & B). pose proof (proj2 (no_twice_iff _) T) as T'. rewrite T'.
    assert (S0 : succeed scope st l) by (intros f v I; destruct (A f v I) as (t & x & I1 & G & _); eauto).
    apply all_ok in S0. destruct S0 as [xs Q]. rewrite (proj2 (seq_list_ok _ xs) Q). pose proof (ok_keys scope st l xs Q) as [K1 K2].
    assert (T2 : NoDup (map fst xs)) by (rewrite K1; exact T). destruct (assign_spec st xs K2 T2 (default_of st)) as (r' & -> & A' & B'). cbn. do 2 f_equal.
    apply field_ext. intros f. destruct (in_dec (list_eq_dec Z.eq_dec) f (map fst l)) as [I|N].
    + apply in_map_iff in I. destruct I as ([f' v] & <- & I). cbn [fst]. destruct (A f' v I) as (t & x & I1 & G & F). rewrite F.
      assert (K : In (Some (Ok (f', existT den t x))) (map (entry scope st) l)).
      { replace (Some (Ok (f', existT den t x))) with (entry scope st (f', v)) by (apply entry_ok; exists t, x; auto). apply in_map. exact I. }
      rewrite Q in K. apply in_map_iff in K. destruct K as (p & K & IP). injection K as ->. apply A'. exact IP.
    + rewrite (B f N). apply B'. intros C. apply N. exact (eq_ind _ (fun q => In f q) C _ K1).
Qed.
(** Otherwise it gives the first error: the entries before it give values, those after it are not evaluated. *)
Theorem C59_error : forall st l e, macro_value scope st l = Some (Err e) <->
  compiles scope st l /\ exists a f v b t, l = a ++ (f, v) :: b /\ succeed scope st a /\ In (f, t) (struct_fields st) /\ given scope st f t v = Some (Err e).
Proof.
  intros st l e. rewrite first_fail; [|discriminate]. split.
  - intros [C (a & f & v & b & t & [x|e'|] & H1 & H2 & H3 & H4 & H5)]; cbn in H5; try contradiction. subst. split; [exact C|]. exists a, f, v, b, t. auto.
  - intros [C (a & f & v & b & t & H1 & H2 & H3 & H4)]. split; [exact C|]. exists a, f, v, b, t, (Err e). repeat (split; [assumption|]). reflexivity.
Qed.
Theorem C59_panic : forall st l, macro_value scope st l = Some Panic <->
  compiles scope st l /\ exists a f v b t, l = a ++ (f, v) :: b /\ succeed scope st a /\ In (f, t) (struct_fields st) /\ given scope st f t v = Some Panic.
Proof.
  intros st l. rewrite first_fail; [|discriminate]. split.
  - intros [C (a & f & v & b & t & [x|e'|] & H1 & H2 & H3 & H4 & H5)]; cbn in H5; try contradiction. subst. split; [exact C|]. exists a, f, v, b, t. auto.
  - intros [C (a & f & v & b & t & H1 & H2 & H3 & H4)]. split; [exact C|]. exists a, f, v, b, t, Panic. repeat (split; [assumption|]). exact I.
Qed.

(** ** C60: defaults *)
(** A default: empty texts and lists, no optional value, 1970-01-01T00:00:00 without a zone, and zeros. *)
Theorem C60_default : forall st f t, In (f, t) (struct_fields st) ->
  exists z, zero t = Some z /\ field st (default_of st) f = Some (existT den t z).
Proof. intros st f t H. by_field H; eexists; (split; [reflexivity|reflexivity]). Qed.
End Env.
