(** * C82: which error is reported *)
From Verif Require Import Base Env Chrono Nom Types Ser Parser Derive Components Macros BaseFacts SerFacts SpecCal SpecDur SpecValue SpecMacro SpecInput SpecError PropDate PropDur PropVocab PropValue PropMacro MacroFacts.

(** ** Reading a component *)
Lemma pfinish_err A (r : pres A) e : pfinish r = Err e -> e = EParser.
Proof. destruct r; cbn; congruence. Qed.
(** Whatever is wrong with a component, anywhere in its text, the error is a parser error. *)
Theorem C82_component_error : forall E : Env, every_reader (fun A read => forall s e, read s = Err e -> e = EParser).
Proof.
  intros E. unfold every_reader. repeat match goal with |- _ /\ _ => split end; intros s e H; exact (pfinish_err _ _ _ H).
Qed.

(** ** Reading a value *)
Lemma vocabulary {A} (names : list (A * str)) show (parse : str -> outcome A) (err : str -> error) : closed_vocabulary names show parse ->
  (forall s e, parse s = Err e -> e = err s) -> forall s e, parse s = Err e <-> e = err s /\ ~ In s (map snd names).
Proof.
  intros (_ & _ & H1 & H2) H3 s e. split.
  - intros H. split; [auto|]. intros I. apply in_map_iff in I as ([v s'] & <- & I). cbn [snd] in H. apply H1 in I. congruence.
  - intros [-> N]. destruct (H2 s N) as [e H]. rewrite H. f_equal. auto.
Qed.
(** A word that is none of the vocabulary is reported whole, in the error of that vocabulary; every word is a class. *)
Theorem C82_vocabularies : forall s e,
  (status_of_str s = Err e <-> e = EStatus s /\ ~ In s (map snd status_names)) /\
  (transp_of_str s = Err e <-> e = ETimeTransparency s /\ ~ In s (map snd transp_names)) /\
  (freq_of_str s = Err e <-> e = EFreq s /\ ~ In s (map snd freq_names)) /\
  class_of_str s <> Err e.
Proof.
  intros s e. split; [|split; [|split]].
  - revert s e. apply (vocabulary _ _ _ _ C28_status). intros s e. unfold status_of_str. eqb_cases; congruence.
  - revert s e. apply (vocabulary _ _ _ _ C28_transp). intros s e. unfold transp_of_str. eqb_cases; congruence.
  - revert s e. apply (vocabulary _ _ _ _ C28_freq). intros s e. unfold freq_of_str. eqb_cases; congruence.
  - unfold class_of_str. eqb_cases; congruence.
Qed.
Lemma datetime_err {E : Env} s e : datetime_of_str s = Err e -> e = EDate.
Proof. unfold datetime_of_str. destruct (ndt_parse [] s); [congruence|]. destruct (ndt_parse (lit "Z") s); [|congruence]. destruct (single _); cbn; congruence. Qed.
Lemma date_err {E : Env} s e : date_of_str s = Err e -> e = EDate.
Proof. unfold date_of_str. destruct (date_parse s); [congruence|]. destruct (datetime_of_str s) eqn:D; cbn; try congruence. intros H. inv H. eapply datetime_err; eauto. Qed.
Lemma period_err s e : period_of_str s = Err e -> e = EParser.
Proof.
  unfold period_of_str, parse_period. destruct (splitn2 47 s) as [t0 t1]. destruct (pfinish (p_date_time t0)) eqn:P; cbn [obind]; try congruence.
  2:{ intros H. inv H. eapply pfinish_err; eauto. }
  destruct t1 as [t1|]; [|congruence]. destruct (starts_with _ t1).
  - destruct (pfinish (p_duration t1)) eqn:Q; cbn [obind]; try congruence. intros H. inv H. eapply pfinish_err; eauto.
  - destruct (pfinish (p_date_time t1)) eqn:Q; cbn [obind]; try congruence. intros H. inv H. eapply pfinish_err; eauto.
Qed.
(** The other values: dates and offsets have date errors, the rest parser errors; a trigger that is no date-time has the error of a duration. *)
Theorem C82_values : forall (E : Env) (s : str) (e : error),
  (datetime_of_str s = Err e -> e = EDate) /\ (date_of_str s = Err e -> e = EDate) /\ (parse_offset (cl_of_str s) = Err e -> e = EDate) /\
  (period_of_str s = Err e -> e = EParser) /\ (recur_of_str s = Err e -> e = EParser) /\ (wdn_of_str s = Err e -> e = EParser) /\
  (weekday_of_str s = Err e -> e = EParser) /\ (parse_geo (cl_of_str s) = Err e -> e = EParser) /\ (parse_rstatus (cl_of_str s) = Err e -> e = EParser) /\
  (trigger_of_str s = Err e <-> datetime_of_str s = Err EDate /\ parse_duration s = Err e).
Proof.
  intros E s e. split; [apply datetime_err|]. split; [apply date_err|]. split; [unfold parse_offset; destruct (offset_parse _); congruence|].
  split; [apply period_err|]. split; [apply pfinish_err|]. split; [apply pfinish_err|]. split; [apply pfinish_err|]. split; [apply pfinish_err|]. split; [apply pfinish_err|].
  unfold trigger_of_str. destruct (datetime_of_str s) as [d|e'|] eqn:D.
  - split; [congruence|]. intros [H _]. congruence.
  - apply datetime_err in D as ->. destruct (parse_duration s); cbn; (split; [intros H; inv H; auto|intros [_ H]; congruence]).
  - split; [congruence|]. intros [H _]. congruence.
Qed.

(** ** Durations *)
Lemma unit_none time c iv : ~ (exists k, unit_of time c k) -> duration_part time c iv = Err (EParseDuration iv).
Proof. intros N. destruct (unit_known time c) as [[k K]|H]; auto. exfalso. apply N. exists k. now apply unit_of_iff. Qed.
Lemma loop_err s before acc e : 0 <= acc <= longest ->
  (duration_loop s (has_T before) (digits_in before) acc = Err e <->
   exists a c b l, s = a ++ c :: b /\ terms before a l /\ acc + total l * sec <= longest /\ is_number_char c = false /\ c <> 84 /\
     (~ (exists k, unit_of (has_T (before ++ a)) c k) /\ e = EParseDuration (digits_in (before ++ a)) \/
      (exists k, unit_of (has_T (before ++ a)) c k) /\ (digits_in (before ++ a) = [] \/ 9223372036854775807 < value_of (digits_in (before ++ a))) /\ e = EParseInt)).
Proof.
  revert before acc. induction s as [|c s IH]; intros before acc A; cbn [duration_loop].
  - split; [discriminate|]. intros (a & c & b & l & H & _). destruct a; discriminate.
  - specialize (IH (before ++ [c])). rewrite digits_in_snoc, has_T_snoc, number_char in IH.
    assert (Skip : is_number_char c = true \/ c = 84 -> forall (X : outcome tdelta) acc',
      (X = Err e <-> exists a c0 b l, s = a ++ c0 :: b /\ terms (before ++ [c]) a l /\ acc' + total l * sec <= longest /\ is_number_char c0 = false /\ c0 <> 84 /\
        (~ (exists k, unit_of (has_T ((before ++ [c]) ++ a)) c0 k) /\ e = EParseDuration (digits_in ((before ++ [c]) ++ a)) \/
         (exists k, unit_of (has_T ((before ++ [c]) ++ a)) c0 k) /\ (digits_in ((before ++ [c]) ++ a) = [] \/ 9223372036854775807 < value_of (digits_in ((before ++ [c]) ++ a))) /\ e = EParseInt)) ->
      (X = Err e <-> exists a c0 b l, c :: s = a ++ c0 :: b /\ terms before a l /\ acc' + total l * sec <= longest /\ is_number_char c0 = false /\ c0 <> 84 /\
        (~ (exists k, unit_of (has_T (before ++ a)) c0 k) /\ e = EParseDuration (digits_in (before ++ a)) \/
         (exists k, unit_of (has_T (before ++ a)) c0 k) /\ (digits_in (before ++ a) = [] \/ 9223372036854775807 < value_of (digits_in (before ++ a))) /\ e = EParseInt))).
    { intros K X acc' H. rewrite H. split.
      - intros (a & c0 & b & l & -> & T & R). exists (c :: a), c0, b, l. rewrite <- app_assoc in R. cbn [app] in R. split; [reflexivity|]. split; [now apply terms_skip|exact R].
      - intros (a & c0 & b & l & E & T & R). destruct a as [|c' a].
        + cbn in E. inv E. exfalso. destruct R as (_ & N & N' & _). destruct K; congruence.
        + cbn in E. inv E. exists a, c0, b, l. rewrite <- app_assoc. cbn [app]. split; [reflexivity|]. split; [|exact R].
          inversion T as [|b1 c1 s1 l1 K' T'|b1 c1 s1 l1 k1 K' N1 U Dn V T']; subst; auto. exfalso. destruct K; congruence. }
    destruct (Z.eqb_spec c 84) as [->|N84].
    + apply Skip; [auto|]. specialize (IH acc A). change (is_digit 84) with false in IH. cbv iota in IH. rewrite orb_true_r in IH. exact IH.
    + destruct (is_digit c) eqn:Dg.
      * apply Skip; [rewrite number_char; auto|]. specialize (IH acc A). rewrite orb_false_r in IH. exact IH.
      * rewrite orb_false_r in IH. pose proof (digits_in_string before) as Ds. pose proof (value_nonneg _ Ds) as Vn.
        assert (Here : forall a c0 b l, c :: s = a ++ c0 :: b -> terms before a l -> a = [] /\ c0 = c \/ exists a' k l', a = c :: a' /\ s = a' ++ c0 :: b /\ l = value_of (digits_in before) * k :: l' /\
            unit_of (has_T before) c k /\ digits_in before <> [] /\ value_of (digits_in before) <= 9223372036854775807 /\ terms (before ++ [c]) a' l').
        { intros a c0 b l E T. destruct a as [|c' a]; cbn in E; inv E; [auto|]. right.
          inversion T as [|b1 c1 s1 l1 K' T'|b1 c1 s1 l1 k1 K' N1 U Dn V T']; subst; [rewrite number_char in K'; destruct K'; congruence|]. exists a, k1, l1. auto 12. }
        destruct (unit_known (has_T before) c) as [[k Hk]|Un].
        2:{ assert (NU : ~ exists k, unit_of (has_T before) c k).
            { intros [k U]. apply unit_of_iff in U. specialize (Un [48]). revert Un. unfold duration_part, unit_seconds in *. destruct (has_T before); destruct U as [[-> _]|[[-> _]|[-> _]]]; vm_compute; discriminate. }
            rewrite Un. cbn [obind]. split.
            - intros H. inv H. exists [], c, s, []. split; [reflexivity|]. split; [constructor|]. change (total []) with 0. split; [lia|]. split; [now rewrite number_char|]. split; [auto|]. left. rewrite app_nil_r. auto.
            - intros (a & c0 & b & l & E & T & B & _ & _ & R). destruct (Here _ _ _ _ E T) as [[-> ->]|(a' & k & l' & _ & _ & _ & U & _)]; [|exfalso; eauto].
              rewrite app_nil_r in R. destruct R as [[_ ->]|[U _]]; [auto|contradiction]. }
        assert (Hk' := Hk). apply unit_of_iff in Hk'.
        assert (Kuniq : forall k', unit_of (has_T before) c k' -> k' = k) by (intros k' Hq; apply unit_of_iff in Hq; unfold unit_seconds in *; destruct (has_T before); lia).
        assert (Kpos : 1 <= k) by (unfold unit_seconds in Hk; destruct (has_T before); lia).
        destruct (Z.le_gt_cases (value_of (digits_in before)) I64MAX) as [Iv|Iv]; [destruct (list_eq_dec Z.eq_dec (digits_in before) []) as [Em|Nn]|].
        1,3: assert (Bad : digits_in before = [] \/ I64MAX < value_of (digits_in before)) by (auto; right; lia);
             rewrite (duration_part_err _ _ k) by auto; cbn [obind]; split;
             [intros H; inv H; exists [], c, s, []; (split; [reflexivity|]); (split; [constructor|]); change (total []) with 0; (split; [lia|]); (split; [now rewrite number_char|]); (split; [auto|]); right; rewrite app_nil_r; eauto
             |intros (a & c0 & b & l & E & T & B & _ & _ & R); destruct (Here _ _ _ _ E T) as [[-> ->]|(a' & k1 & l' & _ & _ & _ & U & N1 & N2 & _)];
              [rewrite app_nil_r in R; destruct R as [[U _]|(_ & _ & ->)]; [exfalso; eauto|auto]|exfalso; destruct Bad; [congruence|unfold I64MAX in *; lia]]].
        assert (Tk : 0 <= value_of (digits_in before) * k) by nia.
        assert (Tot : forall l, total (value_of (digits_in before) * k :: l) = value_of (digits_in before) * k + total l) by reflexivity.
        assert (NoPanic : longest < acc + value_of (digits_in before) * k * sec ->
          ~ exists a c0 b l, c :: s = a ++ c0 :: b /\ terms before a l /\ acc + total l * sec <= longest /\ is_number_char c0 = false /\ c0 <> 84 /\
            (~ (exists k, unit_of (has_T (before ++ a)) c0 k) /\ e = EParseDuration (digits_in (before ++ a)) \/
             (exists k, unit_of (has_T (before ++ a)) c0 k) /\ (digits_in (before ++ a) = [] \/ 9223372036854775807 < value_of (digits_in (before ++ a))) /\ e = EParseInt)).
        { intros Big (a & c0 & b & l & E & T & B & _ & _ & R). destruct (Here _ _ _ _ E T) as [[-> ->]|(a' & k1 & l' & _ & _ & -> & U & N1 & N2 & T')].
          - rewrite app_nil_r in R. destruct R as [[U _]|(_ & [?|?] & _)]; [eauto|congruence|unfold I64MAX in *; lia].
          - apply Kuniq in U as ->. rewrite Tot in B. pose proof (total_nonneg _ (terms_nonneg _ _ _ T')). unfold sec in *. lia. }
        destruct (Z.le_gt_cases (value_of (digits_in before) * k * sec) longest) as [Lk|Lk].
        2:{ rewrite (duration_part_panic _ _ k) by (auto; rewrite <- sec_nanos, <- longest_max; lia). cbn [obind]. split; [discriminate|]. intros H. exfalso. apply NoPanic in H; auto. unfold sec in *. lia. }
        rewrite (duration_part_ok _ _ k) by (auto; rewrite <- sec_nanos, <- longest_max; lia). cbn [obind]. unfold td_add.
        rewrite <- sec_nanos. destruct (td_check_cases (acc + value_of (digits_in before) * k * sec)) as [[B ->]|[B ->]]; [unfold sec in *; lia| |]; rewrite <- longest_max in B; cbn [obind].
        2:{ split; [discriminate|]. intros H. exfalso. apply NoPanic in H; auto. }
        assert (A' : 0 <= acc + value_of (digits_in before) * k * sec <= longest) by (unfold sec in *; lia). rewrite (IH _ A'). split.
        -- intros (a & c0 & b & l & -> & T & B' & R). exists (c :: a), c0, b, (value_of (digits_in before) * k :: l). rewrite <- app_assoc in R. cbn [app] in R. split; [reflexivity|].
           split; [apply terms_unit; auto; now rewrite number_char|]. rewrite Tot. split; [lia|exact R].
        -- intros (a & c0 & b & l & E & T & B' & R). destruct (Here _ _ _ _ E T) as [[-> ->]|(a' & k1 & l' & -> & -> & -> & U & N1 & N2 & T')].
           ++ exfalso. rewrite app_nil_r in R. destruct R as (_ & _ & [[U _]|(_ & [?|?] & _)]); [eauto|congruence|unfold I64MAX in *; lia].
           ++ apply Kuniq in U as ->. exists a', c0, b, l'. rewrite Tot in B'. rewrite <- app_assoc. cbn [app]. split; [reflexivity|]. split; [auto|]. split; [lia|exact R].
Qed.
(** Which error, for every text that is no duration. *)
Theorem C82_duration : forall s e, parse_duration s = Err e <-> bad_duration s e.
Proof.
  intros s e. assert (L0 : 0 <= 0 <= longest) by (unfold longest; lia).
  assert (G : forall (neg : bool) x, parse_duration ((if neg then [45] else []) ++ [80] ++ x) = let* d := duration_loop x false [] 0 in Ok (if neg then td_neg d else d)) by (intros [] x; reflexivity).
  assert (Inj : forall (n1 n2 : bool) (x y : str), (if n1 then [45] else []) ++ [80] ++ x = (if n2 then [45] else []) ++ [80] ++ y -> n1 = n2 /\ x = y) by (intros [] [] x y E; cbn in E; inv E; auto).
  assert (M : forall (neg : bool) x, (parse_duration ((if neg then [45] else []) ++ [80] ++ x) = Err e <-> duration_loop x false [] 0 = Err e)).
  { intros neg x. rewrite G. destruct (duration_loop x false [] 0); cbn [obind]; split; congruence. }
  destruct (duration_start s) as [(neg & x & ->)|[He No]].
  - rewrite M. pose proof (loop_err x [] 0 e L0) as L. change (has_T []) with false in L. change (digits_in []) with (@nil Z) in L. rewrite L. cbn [app]. split.
    + intros (a & c & b & l & -> & T & B & N1 & N2 & [[U ->]|((k & U) & D & ->)]); [eapply no_unit|eapply no_number]; eauto.
    + intros H. inversion H as [s0 No E1 E2|neg' a c b l T B N1 N2 U E1 E2|neg' a c b l k T B N1 N2 U D E1 E2].
      * exfalso. apply No. subst s0. exists x. destruct neg; cbn; auto.
      * apply Inj in E1 as [<- <-]. exists a, c, b, l. repeat (split; [auto|]). left. auto.
      * apply Inj in E1 as [<- <-]. exists a, c, b, l. repeat (split; [auto|]). right. eauto.
  - rewrite He. split.
    + intros H. inv H. constructor. intros (x & [-> | ->]); [exact (No false x eq_refl)|exact (No true x eq_refl)].
    + intros H. inversion H as [s0 N E1 E2|neg' a c b l T B N1 N2 U E1 E2|neg' a c b l k T B N1 N2 U D E1 E2]; subst; [reflexivity|exfalso; exact (No neg' _ eq_refl)|exfalso; exact (No neg' _ eq_refl)].
Qed.

(** ** The macros *)
Fixpoint vsize (v : value) : nat :=
  match v with
  | VNone | VSingle _ => 1
  | VObject l => S (list_sum (map (fun kv => vsize (snd kv)) l))
  | VCollection l => S (list_sum (map vsize l))
  end.
Lemma in_sum A (f : A -> nat) x l : In x l -> (f x <= list_sum (map f l))%nat.
Proof. unfold list_sum in *. induction l as [|y l IH]; cbn; [tauto|]. intros [->|H]; [lia|]. apply IH in H. lia. Qed.
Lemma no_nested st f b : ~ In (f, TVec (TVec b)) (struct_fields st).
Proof. destruct st; cbn; intros H; repeat (destruct H as [H|H]; [discriminate|]); exact H. Qed.
Section Macro.
Context {E : Env} (scope : str -> option typed).
Lemma duration_macro s e : parse_duration s = Err e -> macro_error e.
Proof. rewrite C82_duration. intros H. destruct H; unfold macro_error; eauto 8. Qed.
Lemma of_string_err t s e : of_string t s = Some (Err e) -> macro_error e.
Proof.
  assert (D : forall e, e = EDate -> macro_error e) by (unfold macro_error; auto).
  assert (P : forall e, e = EParser -> macro_error e) by (unfold macro_error; auto).
  induction t; cbn [of_string]; try discriminate.
  all: try (intros H; injection H as H).
  all: try (apply D; eapply datetime_err; eassumption).
  all: try (apply D; eapply date_err; eassumption).
  all: try (eapply duration_macro; eassumption).
  all: try (apply P; eapply pfinish_err; eassumption).
  all: try (apply P; eapply period_err; eassumption).
  - apply D. unfold parse_offset in H. destruct (offset_parse _); congruence.
  - (* a trigger *) unfold trigger_of_str in H. destruct (datetime_of_str s) as [x|x|]; [discriminate| |discriminate].
    destruct (parse_duration s) eqn:Q; cbn in H; inv H. eapply duration_macro; eassumption.
  - destruct s0; try discriminate; intros H; injection H as H; apply P; eapply pfinish_err; exact H.
  - destruct (of_string t s) as [o|] eqn:Q; cbn; [|discriminate]. destruct o; cbn; try discriminate. intros H. inv H. apply IHt. reflexivity.
Qed.
Lemma seq_list_err A (l : list (option (outcome A))) e : seq_list l = Some (Err e) -> In (Some (Err e)) l.
Proof.
  induction l as [|a l IH]; cbn; [discriminate|]. destruct a as [a|]; [|discriminate]. unfold seq_list in IH. destruct (fold_right _ _ l) as [o|]; [|discriminate].
  destruct a as [a|e'|]; cbn; [|intros H; inv H; auto|discriminate]. destruct o; cbn; intros H; inv H. auto.
Qed.
Lemma given_err n st f t v e : (vsize v <= n)%nat -> slot st f t -> given scope st f t v = Some (Err e) -> macro_error e.
Proof.
  revert st f t v. induction n as [|n IH]; intros st f t v Sz Sl; [destruct v; cbn in Sz; lia|].
  assert (Mv : forall st l, (list_sum (map (fun kv => vsize (snd kv)) l) <= n)%nat -> macro_value scope st l = Some (Err e) -> macro_error e).
  { intros st' l Sz' H. apply C59_error in H as [_ (a & f' & v' & b & t' & -> & _ & I & G)].
    apply (IH st' f' t' v'); [|left; exact I|exact G]. rewrite map_app, list_sum_app in Sz'. cbn [map list_sum fold_right snd] in Sz'. lia. }
  destruct v as [|u|l|l].
  - cbn [given]. destruct (scope f) as [x|]; [|discriminate]. destruct (cast x t); discriminate.
  - destruct u as [s|k|x|w|[u x]].
    + rewrite C59_string by auto. destruct (listed no_string st f); [discriminate|]. apply of_string_err.
    + rewrite C59_integer by auto. destruct (k <? 0); [discriminate|]. destruct (of_integer t k); discriminate.
    + rewrite C59_float by auto. destruct (_ && _); [discriminate|]. destruct (of_float t x); discriminate.
    + rewrite C59_variant by auto. destruct (of_variant t w); discriminate.
    + intros H. destruct (rty_eq_dec u TString) as [->|Nu].
      * rewrite C59_owned_string in H by auto. destruct (listed no_string st f); [discriminate|]. revert H. destruct t; try discriminate; try apply of_string_err.
        match goal with |- context [TOpt ?b] => destruct b end; try discriminate; apply of_string_err.
      * destruct (C59_value_types _ _ _ _ _ _ _ Sl H) as [->|[->|[->|(-> & Ht)]]]; [congruence| | |].
        -- destruct (match t with TOpt _ => true | _ => false end) eqn:Ot.
           ++ destruct t as [| | | | | | | | | | | | | | | | | | | | | | |b|]; try discriminate.
              rewrite C59_option_value in H by auto. destruct (listed _ st f); discriminate.
           ++ rewrite C59_value in H; auto; [destruct (by_text t); discriminate|]. intros b ->. discriminate.
        -- rewrite C59_some_value in H by auto. destruct (_ && _); discriminate.
        -- destruct Ht as [->|[->| ->]]; [rewrite C59_alarm_value in H by auto|rewrite C59_alarm_display_value in H by auto|rewrite C59_alarm_email_value in H by auto]; discriminate.
  - rewrite C59_object by auto. cbn [vsize] in Sz. destruct (listed no_object st f); [discriminate|]. destruct t; try discriminate; [apply Mv; lia|].
    match goal with |- context [TOpt ?b] => destruct b end; try discriminate. destruct (macro_value scope s l) as [[]|] eqn:Q; cbn; try discriminate. intros H. inv H. apply Mv in Q; auto; lia.
  - rewrite C59_list. cbn [vsize] in Sz. destruct t; try discriminate. intros H. apply seq_list_err, in_map_iff in H as (v & H & I). destruct v; try discriminate; 
      (eapply IH; [|destruct Sl as [Sl|Sl]; [right; exact Sl|exfalso; exact (no_nested _ _ _ Sl)]|exact H]; apply (in_sum _ vsize) in I; lia).
Qed.
(** The error of a macro is that of reading a date, an offset, a duration, or a value with its own grammar. *)
Theorem C82_macros : forall st l e, macro_value scope st l = Some (Err e) -> macro_error e.
Proof.
  intros st l e H. apply C59_error in H as [_ (a & f & v & b & t & -> & _ & I & G)]. eapply given_err; [reflexivity|left; exact I|exact G].
Qed.
End Macro.

(** ** Writing *)
Section Write.
Context {E : Env}.
Definition silent {T} (Se : serialize T) : Prop := forall v e, s_ical Se v <> Err e.
Lemma silent_display T (show : T -> str) : silent (ser_display show). Proof. intros v e. discriminate. Qed.
Lemma collect_silent A B (f : A -> outcome B) l e : (forall a, f a <> Err e) -> ocollect f l <> Err e.
Proof. intros H. induction l as [|a l IH]; cbn; [discriminate|]. specialize (H a). destruct (f a); cbn; try congruence. destruct (ocollect f l); cbn; congruence. Qed.
Lemma silent_vec T (Se : serialize T) : silent Se -> silent (ser_vec Se).
Proof. intros H v e. cbn. unfold vec_ical. pose proof (collect_silent _ _ (s_ical Se) v e (fun a => H a e)). destruct (ocollect _ _); cbn; congruence. Qed.
Lemma silent_opt T (Se : serialize T) : silent Se -> silent (ser_opt Se).
Proof. intros H [v|] e; cbn; [apply H|discriminate]. Qed.
Lemma silent_string : silent ser_string. Proof. intros v e. discriminate. Qed.
Lemma silent_cl : silent ser_cl. Proof. intros v e. discriminate. Qed.
Lemma silent_text : silent ser_text. Proof. intros v e. discriminate. Qed.
Lemma silent_uri : silent ser_uri. Proof. intros v e. discriminate. Qed.
Lemma silent_date : silent ser_date. Proof. intros v e. discriminate. Qed.
Lemma silent_trigger : silent ser_trigger. Proof. intros [|] e; discriminate. Qed.
Lemma silent_map T (Se : serialize T) : silent Se -> silent (ser_map Se).
Proof.
  intros H v e. cbn. unfold map_ical.
  match goal with |- context [ocollect ?f v] => assert (N : ocollect f v <> Err e); [apply collect_silent; intros a; specialize (H (snd a) e); destruct (s_ical Se (snd a)); cbn; congruence|] end.
  destruct (ocollect _ _); cbn; congruence.
Qed.
Lemma bind_silent A B (o : outcome A) (f : A -> outcome B) e : o <> Err e -> (forall a, f a <> Err e) -> obind o f <> Err e.
Proof. destruct o; cbn; intros; auto; congruence. Qed.
Lemma part_silent T (Se : serialize T) n v e : silent Se -> ser_part Se n v <> Err e.
Proof. intros H. unfold ser_part. apply bind_silent; [apply H|discriminate]. Qed.
Lemma silent_recur : silent ser_recur.
Proof.
  intros v e. cbn [s_ical ser_recur]. unfold recur_ical.
  repeat (apply bind_silent; [apply part_silent; first [apply silent_display|apply silent_opt, silent_display|apply silent_opt, silent_date|apply silent_vec, silent_display]|intros ?]). discriminate.
Qed.
Lemma field_silent T (Se : serialize T) n v e : silent Se -> ser_field Se n v <> Err e.
Proof. intros H. unfold ser_field. apply bind_silent; [apply H|]. intros a. destruct (s_component Se); [discriminate|apply fold_line_no_err]. Qed.
Definition quiet (f : Derive.field) : Prop :=
  match f with FReq Se _ => silent Se | FOpt Se _ => silent Se | FVec Se _ => silent Se | FApp Se _ => silent Se | FIgn Se => silent Se end.
Lemma vec_quiet T (Se : serialize T) n v e : silent Se -> vec_field Se n v <> Err e.
Proof. intros H. unfold vec_field. destruct v as [|x [|y v]]; apply field_silent; auto using silent_vec. Qed.
Lemma f_quiet n f v e : quiet f -> f_ser n f v <> Err e.
Proof. destruct f; cbn; intros H; auto using field_silent, silent_opt, vec_quiet. Qed.
Lemma fields_quiet (s : schema) vs e : Forall (fun nf => quiet (snd nf)) s -> ser_fields s vs <> Err e.
Proof.
  induction s as [|[n f] s IH]; cbn [ser_fields]; [discriminate|]. intros H. inv H. apply bind_silent; [now apply f_quiet|]. intros a. apply bind_silent; [now apply IH|discriminate].
Qed.
Lemma comp_silent R n (s : schema) (to : R -> comp s) : Forall (fun nf => quiet (snd nf)) s -> silent (ser_iso n s to).
Proof.
  intros H v e. cbn [s_ical ser_iso]. unfold comp_ical. apply bind_silent; [now apply fields_quiet|]. intros a.
  apply bind_silent; [apply field_silent, silent_map, silent_cl|]. intros b. apply bind_silent; [apply field_silent, silent_map, silent_cl|]. discriminate.
Qed.
Ltac quiets := repeat constructor; cbn [quiet snd]; first [exact silent_text|exact silent_uri|exact silent_date|exact silent_recur|exact silent_trigger|apply silent_display|idtac].
Lemma silent_audio : silent ser_audio. Proof. apply comp_silent. unfold audio_schema. quiets. Qed.
Lemma silent_display_alarm : silent ser_display_alarm. Proof. apply comp_silent. unfold display_schema. quiets. Qed.
Lemma silent_email : silent ser_email. Proof. apply comp_silent. unfold email_schema. quiets. Qed.
Lemma silent_valarm : silent ser_valarm.
Proof. intros v e. cbn [s_ical ser_valarm]. unfold valarm_ical. apply bind_silent; [|discriminate]. destruct v; [apply silent_audio|apply silent_display_alarm|apply silent_email]. Qed.
Lemma silent_vevent : silent ser_vevent. Proof. apply comp_silent. unfold vevent_schema. quiets. apply silent_valarm. Qed.
Lemma silent_vtodo : silent ser_vtodo. Proof. apply comp_silent. unfold vtodo_schema. quiets. Qed.
Lemma silent_vjournal : silent ser_vjournal. Proof. apply comp_silent. unfold vjournal_schema. quiets. Qed.
Lemma silent_vfreebusy : silent ser_vfreebusy. Proof. apply comp_silent. unfold vfreebusy_schema. quiets. Qed.
Lemma silent_standard : silent ser_standard. Proof. apply comp_silent. unfold standard_schema. quiets. Qed.
Lemma silent_daylight : silent ser_daylight. Proof. apply comp_silent. unfold daylight_schema. quiets. Qed.
Lemma silent_vtimezone : silent ser_vtimezone. Proof. apply comp_silent. unfold vtimezone_schema. quiets; first [apply silent_standard|apply silent_daylight]. Qed.
Lemma silent_vcalendar : silent ser_vcalendar.
Proof. apply comp_silent. unfold vcalendar_schema. quiets; [apply silent_valarm|apply silent_vevent|apply silent_vfreebusy|apply silent_vjournal|apply silent_vtodo|apply silent_vtimezone]. Qed.
(** Writing never returns an error, whatever the value. *)
Theorem C82_writing_never_errs : forall e,
  (forall v, s_ical ser_vcalendar v <> Err e) /\ (forall v, s_ical ser_vevent v <> Err e) /\ (forall v, s_ical ser_vtodo v <> Err e) /\
  (forall v, s_ical ser_vjournal v <> Err e) /\ (forall v, s_ical ser_vfreebusy v <> Err e) /\ (forall v, s_ical ser_vtimezone v <> Err e) /\
  (forall v, s_ical ser_standard v <> Err e) /\ (forall v, s_ical ser_daylight v <> Err e) /\ (forall v, s_ical ser_valarm v <> Err e) /\
  (forall v, s_ical ser_audio v <> Err e) /\ (forall v, s_ical ser_display_alarm v <> Err e) /\ (forall v, s_ical ser_email v <> Err e) /\
  (forall v, ser_ical ser_recur v <> Err e) /\ (forall v, ser_ical ser_trigger v <> Err e) /\ (forall v, ser_ical ser_date v <> Err e) /\ (forall v, ser_ical ser_text v <> Err e).
Proof.
  intros e. split; [exact (fun v => silent_vcalendar v e)|]. split; [exact (fun v => silent_vevent v e)|]. split; [exact (fun v => silent_vtodo v e)|]. split; [exact (fun v => silent_vjournal v e)|].
  split; [exact (fun v => silent_vfreebusy v e)|]. split; [exact (fun v => silent_vtimezone v e)|]. split; [exact (fun v => silent_standard v e)|]. split; [exact (fun v => silent_daylight v e)|].
  split; [exact (fun v => silent_valarm v e)|]. split; [exact (fun v => silent_audio v e)|]. split; [exact (fun v => silent_display_alarm v e)|]. split; [exact (fun v => silent_email v e)|].
  split; [|split; [|split]]; intros v; (apply bind_silent; [|discriminate]); [exact (silent_recur v e)|exact (silent_trigger v e)|exact (silent_date v e)|exact (silent_text v e)].
Qed.
End Write.

(** Some errors are declared and never given by any reader, macro or writer: a priority out of range, say, is a parser error. *)
Theorem C82_never_given : forall (E : Env) e, never_given e ->
  every_reader (fun A read => forall s, read s <> Err e) /\
  (forall s, status_of_str s <> Err e /\ transp_of_str s <> Err e /\ freq_of_str s <> Err e /\ datetime_of_str s <> Err e /\ date_of_str s <> Err e /\
     period_of_str s <> Err e /\ recur_of_str s <> Err e /\ wdn_of_str s <> Err e /\ weekday_of_str s <> Err e /\ parse_geo (cl_of_str s) <> Err e /\
     parse_rstatus (cl_of_str s) <> Err e /\ trigger_of_str s <> Err e /\ parse_duration s <> Err e) /\
  (forall d, dt_try_local d <> Err e) /\
  (forall scope st l, macro_value scope st l <> Some (Err e)).
Proof.
  intros E e N. assert (P : e <> EParser) by (intros ->; destruct N as [(s & [H|[H|H]])|[(n & H)|H]]; discriminate).
  assert (Da : e <> EDate) by (intros ->; destruct N as [(s & [H|[H|H]])|[(n & H)|H]]; discriminate).
  assert (M : ~ macro_error e).
  { intros [->|[->|[->|(s & ->)]]]; destruct N as [(s0 & [H|[H|H]])|[(n & H)|H]]; discriminate. }
  assert (Du : forall s, parse_duration s <> Err e) by (intros s H; apply duration_macro in H; auto).
  split; [|split; [|split]].
  - pose proof (C82_component_error E) as C. unfold every_reader in *.
    destruct C as (C1 & C2 & C3 & C4 & C5 & C6 & C7 & C8 & C9).
    repeat match goal with |- _ /\ _ => split end; intros s H; eauto.
  - intros s. pose proof (C82_vocabularies s e) as (V1 & V2 & V3 & _). pose proof (C82_values E s e) as (A1 & A2 & _ & A4 & A5 & A6 & A7 & A8 & A9 & A10).
    repeat match goal with |- _ /\ _ => split end; try (intros H; auto; fail).
    + intros H. apply V1 in H as [-> _]. destruct N as [(s0 & [H|[H|H]])|[(n & H)|H]]; discriminate.
    + intros H. apply V2 in H as [-> _]. destruct N as [(s0 & [H|[H|H]])|[(n & H)|H]]; discriminate.
    + intros H. apply V3 in H as [-> _]. destruct N as [(s0 & [H|[H|H]])|[(n & H)|H]]; discriminate.
    + intros H. apply A10 in H as [_ H]. exact (Du s H).
    + apply Du.
  - intros d. unfold dt_try_local. destruct d as [n|u]; [|discriminate]. destruct (earliest _); [discriminate|]. intros H. inv H. destruct N as [(s0 & [H|[H|H]])|[(n0 & H)|H]]; discriminate.
  - intros scope st l H. apply C82_macros in H. auto.
Qed.
(** What a user sees of an unknown word: all of it, after a fixed text. *)
Corollary C82_message : forall foreign s,
  (~ In s (map snd status_names) -> exists e, status_of_str s = Err e /\ error_text foreign e = lit "Unknow status " ++ s) /\
  (~ In s (map snd transp_names) -> exists e, transp_of_str s = Err e /\ error_text foreign e = lit "Unknow time transparency " ++ s) /\
  (~ In s (map snd freq_names) -> exists e, freq_of_str s = Err e /\ error_text foreign e = lit "Invalid freq " ++ s) /\
  (~ (exists x, s = 80 :: x \/ s = 45 :: 80 :: x) -> exists e, parse_duration s = Err e /\ error_text foreign e = lit "Invalid duration: " ++ s).
Proof.
  intros foreign s. pose proof (C82_vocabularies s) as V. split; [|split; [|split]]; intros H.
  - exists (EStatus s). split; [apply V; auto|reflexivity].
  - exists (ETimeTransparency s). split; [apply V; auto|reflexivity].
  - exists (EFreq s). split; [apply V; auto|reflexivity].
  - exists (EParseDuration s). split; [apply C82_duration; constructor; exact H|reflexivity].
Qed.
Example C82_nonvacuous :
  status_of_str (lit "confirmed") = Err (EStatus (lit "confirmed")) /\ parse_duration (lit "PT1H5") = Ok (3600 * sec) /\
  parse_duration (lit "P1Y2W") = Err (EParseDuration (lit "12")) /\ parse_duration (lit "PD") = Err EParseInt /\ parse_duration (lit "P99999999999999999999D") = Err EParseInt /\
  parse_duration (lit "1H") = Err (EParseDuration (lit "1H")) /\
  @vevent_of_str env_east (lit "BEGIN:VEVENT" ++ CRLF ++ lit "DTSTAMP:19970610T172345Z" ++ CRLF ++ lit "DTSTART:20240229" ++ CRLF ++ lit "UID:1" ++ CRLF ++ lit "PRIORITY:10" ++ CRLF ++ lit "END:VEVENT" ++ CRLF) = Err EParser /\
  (exists v, @vevent_of_str env_east (lit "BEGIN:VEVENT" ++ CRLF ++ lit "DTSTAMP:19970610T172345Z" ++ CRLF ++ lit "DTSTART:20240229" ++ CRLF ++ lit "UID:1" ++ CRLF ++ lit "PRIORITY:9" ++ CRLF ++ lit "END:VEVENT" ++ CRLF) = Ok v) /\
  never_given (EPriority 10) /\ @macro_value env_east (fun _ => None) SEvent [(lit "duration", VSingle (EStr (lit "1H")))] = Some (Err (EParseDuration (lit "1H"))).
Proof.
  repeat match goal with |- _ /\ _ => split end; try (vm_compute; reflexivity); [eexists; vm_compute; reflexivity|right; left; eexists; reflexivity].
Qed.
