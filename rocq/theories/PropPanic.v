(** * C16, C17: panics of the parsers *)
From Verif Require Import Base Env Chrono Nom Types Ser Parser Derive Components BaseFacts ChronoFacts NomFacts SpecLine LineFacts SpecText SerFacts PropText SpecCal SpecDur PropDate PropDur PropVocab PropRule SpecComp SpecFields DeriveFacts PropComp SpecFile PropFile.

(** ** Values *)
Lemma unit_inv c s r o : popt (p_unit c) s = POk r o -> exists txt, s = txt ++ r /\ part c o txt.
Proof.
  unfold popt. destruct (p_unit c s) as [r0 v| |] eqn:P; intros H; inv H.
  - unfold p_unit, terminated in P. apply pmap_res_POk in P as (ds & P & V). apply pbind_POk in P as (r1 & ds' & P & Q).
    apply pbind_POk in Q as (r2 & x & Q & R). apply pret_POk in R as [-> ->]. apply tag_POk in Q as [-> _].
    apply take_while_POk in P as (-> & Hd & _). apply digit_string_of in Hd.
    destruct ds' as [|d ds']; [discriminate|]. rewrite parse_i64_digits in V by (auto; discriminate).
    destruct (value_of (d :: ds') <=? I64MAX); [|discriminate]. inv V. exists ((d :: ds') ++ [c]). rewrite <- app_assoc. split; auto. constructor; auto; discriminate.
  - exists []. split; auto. constructor.
Qed.
Lemma calm_unit c : calm (p_unit c).
Proof.
  unfold p_unit, terminated, p_digits. apply calm_map_res; [eauto 8 with nom|]. intros a. destruct (parse_signed _ a); discriminate.
Qed.
Lemma calm_time : calm p_time.
Proof. unfold p_time. pose proof calm_unit. eauto 15 with nom. Qed.
Lemma time_inv s r o : popt p_time s = POk r o -> exists txt t, s = txt ++ r /\ time_section t txt /\ o = or_zero t.
Proof.
  unfold popt. destruct (p_time s) as [r0 v| |] eqn:P; intros H; inv H.
  - unfold p_time in P. apply pbind_POk in P as (r1 & x & P & Q). apply tag_POk in P as [-> _].
    apply pbind_POk in Q as (r2 & h & P & Q). apply pbind_POk in Q as (r3 & m & P' & Q). apply pbind_POk in Q as (r4 & sc & P'' & Q). apply pret_POk in Q as [-> ->].
    apply unit_inv in P as (a & -> & Pa). apply unit_inv in P' as (b & -> & Pb). apply unit_inv in P'' as (c & -> & Pc).
    exists (84 :: a ++ b ++ c), (Some (h, m, sc)). split; [|split; [constructor; auto|reflexivity]]. cbn [app]. rewrite <- ?app_assoc. reflexivity.
  - exists [], None. split; auto. split; [constructor|reflexivity].
Qed.
Lemma duration_panics s : p_duration s = PPanic -> too_long s.
Proof.
  unfold p_duration. intros H. apply pmap_res_panic in H as [H|(r & [[[neg w] d] t] & P & M)].
  - exfalso. revert H. pose proof calm_unit. pose proof calm_time.
    apply calm_bind; [eauto with nom|]. intros n. eauto 15 with nom.
  - apply pbind_POk in P as (r1 & n & N & P). apply pbind_POk in P as (r2 & x & X & P). apply pbind_POk in P as (r3 & w' & W & P).
    apply pbind_POk in P as (r4 & d' & D & P). apply pbind_POk in P as (r5 & t' & T & P). apply pret_POk in P as [-> P]. inv P.
    apply tag_POk in X as [-> _]. apply unit_inv in W as (sw & -> & Pw). apply unit_inv in D as (sd & -> & Pd). apply time_inv in T as (st & tt & -> & Pt & ->).
    assert (N' : s = (if match n with Some _ => true | None => false end then [45] else []) ++ lit "P" ++ sw ++ sd ++ st ++ r5).
    { unfold popt in N. destruct (tag (lit "-") s) as [r0 y| |] eqn:Y; inv N; auto. apply tag_POk in Y as [-> _]. reflexivity. }
    exists (match n with Some _ => true | None => false end), w', d', tt, ((if match n with Some _ => true | None => false end then [45] else []) ++ lit "P" ++ sw ++ sd ++ st), r5.
    split; [rewrite N', <- ?app_assoc; auto|]. split.
    { exists sw, sd, st. auto. }
    assert (Tn : forall h m x1, tt = Some (h, m, x1) -> 0 <= amount h /\ 0 <= amount m /\ 0 <= amount x1).
    { intros h m x1 Ett. subst tt. inv Pt. repeat split; eapply part_nonneg; eauto. }
    apply part_nonneg in Pw, Pd. change or0 with amount in M. rewrite make_duration_sum in M; auto.
    2:{ intros h m x0 Eq. destruct tt as [[[h0 m0] s0]|]; [|discriminate]. cbn in Eq. inv Eq. now apply Tn. }
    replace ((amount w' * 604800 + amount d' * 86400 + match or_zero tt with Some (h, m, s0) => h * 3600 + m * 60 + s0 | None => 0 end) * NANOS)
      with (seconds_of w' d' tt * sec) in M by (unfold seconds_of; destruct tt as [[[h m] x0]|]; reflexivity).
    change TD_MAX with longest in M. destruct (Z.leb_spec (seconds_of w' d' tt * sec) longest); [discriminate|auto].
Qed.
Lemma pfinish_panic {A} (r : pres A) : pfinish r = Panic -> r = PPanic.
Proof. destruct r; cbn; congruence. Qed.
Lemma period_panics x : parse_period x = Panic -> bad_period x.
Proof.
  unfold parse_period, bad_period. destruct (splitn2 47 x) as [a o] eqn:Sp.
  destruct (pfinish (p_date_time a)) as [d|e|] eqn:D; cbn [obind]; try discriminate.
  2:{ apply pfinish_panic in D. now apply calm_date_time in D. }
  destruct o as [b|]; [|intros _; left; now apply splitn2_None_inv in Sp].
  assert (X : x = a ++ [47] ++ b).
  { clear -Sp. revert a Sp. induction x as [|c x IH]; intros a; cbn [splitn2]; [discriminate|]. destruct (c =? 47) eqn:K.
    - apply Z.eqb_eq in K. intros H. inv H. reflexivity.
    - destruct (splitn2 47 x) as [h t]. intros H. inv H. cbn. f_equal. now apply IH. }
  intros H. right. exists a, b. split; auto. destruct (starts_with (lit "P") b).
  - destruct (pfinish (p_duration b)) as [y|e|] eqn:Q; cbn [obind] in H; try discriminate. now apply duration_panics, pfinish_panic.
  - destruct (pfinish (p_date_time b)) as [y|e|] eqn:Q; cbn [obind] in H; try discriminate. apply pfinish_panic in Q. now apply calm_date_time in Q.
Qed.
Lemma ocollect_panic {A B} (f : A -> outcome B) l : ocollect f l = Panic -> exists x, In x l /\ f x = Panic.
Proof.
  induction l as [|a l IH]; cbn [ocollect]; [discriminate|]. destruct (f a) as [b|e|] eqn:F; cbn [obind]; try discriminate.
  - destruct (ocollect f l) as [bs|e|]; cbn [obind]; try discriminate. intros _. destruct (IH eq_refl) as (x & Hx & Fx). exists x. cbn. auto.
  - intros _. exists a. cbn. auto.
Qed.
Lemma entry_split x v : In x (split_on 44 v) -> list_entry x v.
Proof. intros H. exists (split_on 44 v). rewrite join_split_on. split; auto. split; auto. apply split_on_notin. Qed.
Lemma periods_panic v : ocollect parse_period (split_on 44 v) = Panic -> exists x, list_entry x v /\ bad_period x.
Proof. intros H. apply ocollect_panic in H as (x & Hx & P). exists x. split; [now apply entry_split|now apply period_panics]. Qed.
Lemma item_inv s r k v : p_item s = POk r (k, v) -> key_text k /\ ~ In 59 v /\ (s = k ++ [61] ++ v /\ r = [] \/ s = k ++ [61] ++ v ++ 59 :: r).
Proof.
  unfold p_item, terminated, separated_pair. intros H. apply pbind_POk in H as (r1 & [k' v'] & P & Q).
  apply pbind_POk in P as (r2 & k2 & K & P). apply pbind_POk in P as (r3 & c & C & P). apply pbind_POk in P as (r4 & v2 & V & P). apply pret_POk in P as [-> P]. inv P.
  apply pbind_POk in Q as (r5 & o & O & Q). apply pret_POk in Q as [-> Q]. inv Q.
  apply take_while_POk in K as (-> & K & _). apply pchar_POk in C as [-> _]. apply take_till_POk in V as (-> & V & S).
  split; [now apply key_text_iff|]. split; [intros X; apply V in X; discriminate|].
  unfold popt in O. destruct r4 as [|c0 r4].
  - cbn in O. inv O. left. rewrite app_nil_r. auto.
  - cbn in S. apply Z.eqb_eq in S. subst. cbn in O. inv O. right. reflexivity.
Qed.
Lemma items_inv s l r : many_run p_item s l r -> l <> [] -> exists tail, s = rule_text l ++ tail /\ (tail = [] \/ exists x, tail = 59 :: x).
Proof.
  induction 1 as [s H|s r1 [k v] l r' H L R IH]; [congruence|]. intros _. apply item_inv in H as (K & V & S).
  destruct l as [|kv l].
  - cbn [rule_text map join fst snd]. destruct S as [[-> _]| ->]; [exists []; rewrite app_nil_r; auto|]. exists (59 :: r1). rewrite <- ?app_assoc. eauto.
  - destruct (IH ltac:(discriminate)) as (tail & -> & T). exists tail. split; auto.
    change (rule_text ((k, v) :: kv :: l)) with ((k ++ [61] ++ v) ++ [59] ++ rule_text (kv :: l)).
    destruct S as [[_ S]| ->]; [|rewrite <- ?app_assoc; auto]. exfalso. apply app_eq_nil in S as [S _]. destruct kv as [k0 v0], l; cbn [rule_text map join fst snd] in S;
      apply app_eq_nil in S as [S1 S2]; try discriminate; apply app_eq_nil in S1 as [_ S1]; discriminate.
Qed.
Lemma items_keys s l r : many_run p_item s l r -> Forall rule_part l.
Proof. induction 1 as [s H|s r1 [k v] l r' H L R IH]; constructor; auto. apply item_inv in H as (K & V & _). split; auto. Qed.
Lemma last_binding_None {V} (l : list (str * V)) n : last_binding l n = None -> Forall (fun kv => fst kv <> n) l.
Proof.
  induction l as [|kv l IH] using rev_ind; intros H; [constructor|]. rewrite last_binding_app in H. unfold last_binding at 1 in H. cbn [fold_left] in H.
  destruct (str_eqb n (fst kv)) eqn:K; [discriminate|]. apply str_eqb_neq in K. apply Forall_app. split; [auto|]. constructor; auto.
Qed.
Lemma get_with_panic {A} m k (f : str -> outcome A) : (forall x, f x <> Panic) -> get_with m k f <> Panic.
Proof. intros H. unfold get_with. destruct (mget k m) as [v|]; [|discriminate]. specialize (H v). destruct (f v); cbn; congruence. Qed.
Lemma get_list_panic {A} m k (f : str -> outcome (list A)) : (forall x, f x <> Panic) -> get_list m k f <> Panic.
Proof. intros H. unfold get_list. pose proof (get_with_panic m k f H). destruct (get_with m k f); cbn; congruence. Qed.
Lemma obind_panic {A B} (o : outcome A) (f : A -> outcome B) : o <> Panic -> (forall a, f a <> Panic) -> obind o f <> Panic.
Proof. destruct o; cbn; auto; congruence. Qed.
Lemma calm_weekday : calm p_weekday.
Proof. unfold p_weekday. apply calm_map_res; [eauto 8 with nom|]. intros [a b]. unfold weekday_of. repeat (destruct (str_eqb _ _); [discriminate|]). discriminate. Qed.
Lemma by_list_calm s : by_list s <> Panic.
Proof. unfold by_list. intros H. apply ocollect_panic in H as (x & _ & P). unfold parse_int in P. destruct (parse_signed I8MAX x); discriminate. Qed.
Lemma bywday_calm s : bywdaylist s <> Panic.
Proof.
  unfold bywdaylist. intros H. apply ocollect_panic in H as (x & _ & P). unfold wdn_of_str in P. apply pfinish_panic in P. revert P.
  pose proof calm_weekday. unfold p_weekdaynum. apply calm_bind; [eauto with nom|]. intros. eauto with nom.
Qed.
Lemma items_panic l : recur_of_items l = Panic -> last_binding l (lit "FREQ") = None.
Proof.
  unfold recur_of_items. rewrite <- map_of_get. fold (map_of l). set (m := map_of l). cbv zeta. destruct (mget (lit "FREQ") m) as [fs|]; auto.
  intros H. exfalso. revert H. apply obind_panic.
  { unfold freq_of_str. repeat (destruct (str_eqb _ _); [discriminate|]). discriminate. }
  assert (U8 : forall x, parse_u8 x <> Panic) by (intros x; unfold parse_u8, parse_int; destruct (parse_unsigned _ _); discriminate).
  intros f. apply obind_panic; [apply get_with_panic; intros x; apply pfinish_calm, calm_date_or_dt|]. intros u.
  apply obind_panic; [apply get_with_panic; auto|]. intros c. apply obind_panic; [apply get_with_panic; auto|]. intros i.
  do 3 (apply obind_panic; [apply get_list_panic, by_list_calm|intros ?]). apply obind_panic; [apply get_list_panic, bywday_calm|intros ?].
  do 5 (apply obind_panic; [apply get_list_panic, by_list_calm|intros ?]).
  apply obind_panic; [apply get_with_panic; intros x; apply pfinish_calm, calm_weekday|]. discriminate.
Qed.
Lemma rule_panics c : parse_rrule c = Panic -> rule_without_freq (cl_value c).
Proof.
  unfold parse_rrule. intros H. apply pfinish_panic in H. apply pmap_res_panic in H as [H|(r & l & P & M)].
  - exfalso. revert H. pose proof calm_item. pose proof tails_item. unfold many1. apply calm_bind; [auto|intros a]. apply calm_bind; [auto with nom|intros b]. auto with nom.
  - unfold many1 in P. apply pbind_POk in P as (r0 & a & P & Q). apply pbind_POk in Q as (r1 & l' & Q & R). apply pret_POk in R as [-> ->].
    apply many0_POk in Q; [|apply tails_item].
    assert (R : many_run p_item (cl_value c) (a :: l') r1).
    { econstructor; eauto. destruct a as [k v]. apply item_inv in P as (_ & _ & [[-> ->]| ->]); rewrite !app_length; cbn; lia. }
    destruct (items_inv _ _ _ R ltac:(discriminate)) as (tail & V & T). exists (a :: l'), tail. split; [discriminate|]. split; [exact V|]. split; [|exact T].
    apply items_panic, last_binding_None in M. apply items_keys in R. rewrite Forall_forall in *. intros kv Hkv. destruct (R kv Hkv). specialize (M kv Hkv). auto.
Qed.

(** ** Components *)
Definition f_panics (f : field) (l : content_line) : Prop :=
  match f with
  | FReq _ p | FOpt _ p | FVec _ p => p l = Panic
  | FApp _ p => p l = Panic
  | FIgn _ => False
  end.
Lemma new_fields_panic s ls : new_fields s ls = Panic -> exists n f l, In (n, f) s /\ In l ls /\ cl_key l = n /\ f_panics f l.
Proof.
  induction s as [|[n f] r IH]; cbn [new_fields]; [discriminate|]. destruct (f_new n f ls) as [v|e|] eqn:F; cbn [obind]; try discriminate.
  - destruct (new_fields r ls) as [vs|e|]; cbn [obind]; try discriminate. intros _. destruct (IH eq_refl) as (m & g & l & A & B). exists m, g, l. cbn. tauto.
  - intros _. destruct f; cbn [f_new] in F; try discriminate. destruct (last_opt _) as [l|] eqn:L; [|discriminate].
    apply last_opt_In, filter_In in L as [Hl K]. apply str_eqb_eq in K. exists n, (FReq S p), l. cbn. auto.
Qed.
Lemma step_fields_panic s l vs : step_fields s l vs = Some Panic -> exists n f, In (n, f) s /\ cl_key l = n /\ f_panics f l.
Proof.
  induction s as [|[n f] r IH]; cbn [step_fields]; [discriminate|]. destruct (has_arm f && str_eqb (cl_key l) n) eqn:A.
  - apply andb_prop in A as [_ K]. apply str_eqb_eq in K. intros H. inv H. destruct (f_step f l (fst vs)) as [v|e|] eqn:F; cbn [obind] in *; try discriminate.
    eexists _, f. split; [left; reflexivity|]. split; auto. destruct f; cbn [f_step f_panics] in *; try discriminate;
      destruct (p l); cbn [obind] in F; try discriminate; auto.
  - destruct (step_fields r l (snd vs)) as [[w|e|]|] eqn:F; cbn; try discriminate. intros _. destruct (IH _ F) as (m & g & X & Y). exists m, g. cbn. tauto.
Qed.
Lemma comp_panics s ls : comp_of_lines s ls = Panic -> exists n f l, In (n, f) s /\ In l ls /\ cl_key l = n /\ f_panics f l.
Proof.
  unfold comp_of_lines. destruct (new_fields s ls) as [vs|e|] eqn:N; cbn [obind]; try discriminate; [|intros _; now apply new_fields_panic].
  assert (G : forall (c : comp s), step_lines c ls = Panic -> exists n f l, In (n, f) s /\ In l ls /\ cl_key l = n /\ f_panics f l).
  { clear N. induction ls as [|l ls IH]; intros c; cbn [step_lines]; [discriminate|]. destruct (step_line c l) as [c'|e|] eqn:Sl; cbn [obind]; try discriminate.
    - intros H. destruct (IH _ H) as (n & f & x & A & B & C). exists n, f, x. cbn. tauto.
    - intros _. unfold step_line in Sl. destruct (step_fields s l (c_fields c)) as [o|] eqn:F; [|destruct (starts_with _ _); discriminate].
      destruct o; cbn [obind] in Sl; try discriminate. apply step_fields_panic in F as (n & f & A & B & C). exists n, f, l. cbn. auto. }
  apply G.
Qed.
Section PropPanic.
Context {E : Env}.
Definition safe_field (nf : str * field) : Prop := forall l, cl_key l = fst nf -> f_panics (snd nf) l -> dangerous l.
Lemma schema_panics s ls : Forall safe_field s -> comp_of_lines s ls = Panic -> exists l, In l ls /\ dangerous l.
Proof.
  intros Hs H. apply comp_panics in H as (n & f & l & A & B & C & D). rewrite Forall_forall in Hs. exists l. split; auto. apply (Hs _ A); auto.
Qed.
Lemma calm_float : calm p_float.
Proof. intros s. unfold p_float. destruct (f32_parse s) as [[? ?]|]; discriminate. Qed.
Lemma calm_geo l : parse_geo l <> Panic.
Proof. apply pfinish_calm. apply calm_map. pose proof calm_float. unfold separated_pair. eauto 8 with nom. Qed.
Lemma calm_rs l : parse_rstatus l <> Panic.
Proof. apply pfinish_calm. pose proof calm_float. unfold p_rstatus, preceded. repeat (apply calm_bind; [eauto 8 with nom|intros ?]). auto with nom. Qed.
Lemma calm_exdate l : parse_exdate l <> Panic.
Proof. intros H. apply ocollect_panic in H as (x & _ & P). apply pfinish_panic in P. now apply calm_date_or_dt in P. Qed.
Lemma calm_ints l : parse_u32 l <> Panic /\ parse_percent l <> Panic /\ parse_priority l <> Panic.
Proof.
  unfold parse_u32, parse_percent, parse_priority, parse_int. split; [destruct (parse_unsigned _ _); discriminate|]. split; [destruct (parse_unsigned _ _); discriminate|].
  destruct (parse_unsigned _ _); cbn; [destruct (9 <? z)|]; discriminate.
Qed.
Lemma calm_words l : parse_class l <> Panic /\ parse_status l <> Panic /\ parse_transp l <> Panic.
Proof.
  unfold parse_class, parse_status, parse_transp, class_of_str, status_of_str, transp_of_str.
  split; [|split]; repeat (destruct (str_eqb _ _); [discriminate|]); discriminate.
Qed.
Lemma rdate_panics c : parse_rdate c = Panic -> mget (lit "VALUE") (cl_params c) = Some (lit "PERIOD") /\ exists x, list_entry x (cl_value c) /\ bad_period x.
Proof.
  assert (D : forall l, ocollect (fun x => pfinish (p_date_or_dt x)) l <> Panic).
  { intros l H. apply ocollect_panic in H as (x & _ & P). apply pfinish_panic in P. now apply calm_date_or_dt in P. }
  unfold parse_rdate. destruct (mget (lit "VALUE") (cl_params c)) as [v|].
  - destruct (str_eqb v (lit "PERIOD")) eqn:K.
    + apply str_eqb_eq in K. subst v. intros H. split; auto. apply periods_panic.
      destruct (ocollect parse_period (split_on 44 (cl_value c))); cbn in H; try discriminate; auto.
    + intros H. specialize (D (split_on 44 (cl_value c))). destruct (ocollect _ _); cbn in H; try discriminate. congruence.
  - intros H. specialize (D (split_on 44 (cl_value c))). destruct (ocollect _ _); cbn in H; try discriminate. congruence.
Qed.
Lemma trigger_panics c : parse_trigger c = Panic -> too_long (cl_value c).
Proof.
  unfold parse_trigger. intros H. apply pfinish_panic in H. unfold palt in H.
  destruct (pmap p_duration TrDuration (cl_value c)) as [r a| |] eqn:P; try discriminate.
  - now apply (calm_map _ TrDateTime calm_date_time) in H.
  - apply duration_panics. unfold pmap, pbind in P. destruct (p_duration (cl_value c)); auto; discriminate.
Qed.
Ltac safe := intros l K; cbn [fst snd f_panics] in *; intros P; exfalso; revert P;
  first [apply calm_text|apply calm_uri|apply calm_datetime|apply calm_date|apply calm_offset|apply calm_geo|apply calm_rs|apply calm_exdate
        |apply calm_ints|apply calm_words|discriminate|exact (fun x => x)].
Ltac risk := intros l K; cbn [fst snd f_panics] in *; intros P; unfold dangerous;
  first [left; split; [exact K|apply rule_panics; exact P]
        |right; left; split; [left; exact K|apply periods_panic; exact P]
        |right; left; destruct (rdate_panics _ P) as [V X]; split; [right; split; [exact K|exact V]|exact X]
        |right; right; split; [first [left; exact K|right; exact K]|first [apply trigger_panics; exact P|apply duration_panics, pfinish_panic; exact P]]].
Ltac schema_safe := repeat (apply Forall_cons; [first [safe|risk]|]); apply Forall_nil.
Lemma audio_safe : Forall safe_field audio_schema. Proof. schema_safe. Qed.
Lemma display_safe : Forall safe_field display_schema. Proof. schema_safe. Qed.
Lemma email_safe : Forall safe_field email_schema. Proof. schema_safe. Qed.
Lemma vevent_safe : Forall safe_field vevent_schema. Proof. schema_safe. Qed.
Lemma vfreebusy_safe : Forall safe_field vfreebusy_schema. Proof. schema_safe. Qed.
Lemma vjournal_safe : Forall safe_field vjournal_schema. Proof. schema_safe. Qed.
Lemma vtodo_safe : Forall safe_field vtodo_schema. Proof. schema_safe. Qed.
Lemma standard_safe : Forall safe_field standard_schema. Proof. schema_safe. Qed.
Lemma daylight_safe : Forall safe_field daylight_schema. Proof. schema_safe. Qed.
Lemma vtimezone_safe : Forall safe_field vtimezone_schema. Proof. schema_safe. Qed.
Lemma vcalendar_safe : Forall safe_field vcalendar_schema. Proof. schema_safe. Qed.
Lemma lines_panic {R} s (of : comp s -> R) ls : Forall safe_field s -> omap of (comp_of_lines s ls) = Panic -> exists l, In l ls /\ dangerous l.
Proof. intros Hs H. apply (schema_panics s); auto. destruct (comp_of_lines s ls); cbn in H; try discriminate; auto. Qed.
Lemma valarm_panics ls : valarm_of_lines ls = Panic -> absent (lit "ACTION") ls \/ exists l, In l ls /\ dangerous l.
Proof.
  unfold valarm_of_lines. destruct (find _ ls) as [l|] eqn:F.
  - intros H. right. destruct (str_eqb _ _); [|destruct (str_eqb _ _); [|destruct (str_eqb _ _); [|discriminate]]].
    + apply (lines_panic _ audio_of ls audio_safe). unfold audio_of_lines in H. destruct (omap audio_of _); try discriminate; auto.
    + apply (lines_panic _ display_of ls display_safe). unfold display_of_lines in H. destruct (omap display_of _); try discriminate; auto.
    + apply (lines_panic _ email_of ls email_safe). unfold email_of_lines in H. destruct (omap email_of _); try discriminate; auto.
  - intros _. left. unfold absent. apply Forall_forall. intros l Hl. pose proof (find_none _ _ F l Hl) as X. now apply str_eqb_neq in X.
Qed.
(** ** Texts *)
Lemma risky_suffix a s : suffix a s -> risky a -> risky s.
Proof.
  intros [p ->] (n & ls & (b & t & rest & -> & L) & H). exists n, ls. split; auto. exists (p ++ b), t, rest. rewrite <- app_assoc. auto.
Qed.
Lemma component_panics {A} n (f : list content_line -> outcome A) s :
  (forall ls, f ls = Panic -> (n = lit "VALARM" /\ absent (lit "ACTION") ls) \/ exists l, In l ls /\ dangerous l) ->
  p_component n f s = PPanic -> risky s.
Proof.
  intros Hf H. unfold p_component in H. apply pmap_res_panic in H as [H|(r & ls & P & Q)].
  - exfalso. apply delim_panic in H as (t & _ & P). now apply calm_lines in P.
  - apply delim_POk in P as (t & -> & P). apply lines_parse_only in P. exists n, ls. split; [|auto].
    exists [], t, ((lit "END:" ++ n ++ CRLF) ++ r). cbn [app]. rewrite <- ?app_assoc in *. auto.
Qed.
Lemma many_panics {A} (p : parser A) s : tails p -> (forall s, p s = PPanic -> risky s) -> many0 p s = PPanic -> risky s.
Proof.
  intros Ht Hp H. pose proof (many0_spec p Ht s) as X. rewrite H in X. clear H. induction X as [s H|s r a H L R IH]; [auto|].
  eapply risky_suffix; [eapply Ht; exact H|auto].
Qed.
Lemma alarm_panics s : p_valarm s = PPanic -> risky s.
Proof. apply component_panics. intros ls H. apply valarm_panics in H as [H|H]; auto. Qed.
(** Lines then sub-components. *)
Lemma nested_panics {A B} n endn (q : parser B) (f : list content_line * B -> outcome A) s :
  tails q -> (forall s, q s = PPanic -> risky s) ->
  (forall ls b, f (ls, b) = Panic -> exists l, In l ls /\ dangerous l) ->
  pmap_res (delimited (tag (lit "BEGIN:" ++ n ++ CRLF)) (do ls <- p_content_lines ;; do al <- q ;; pret (ls, al)) (tag endn)) f s = PPanic -> risky s.
Proof.
  intros Hq Hr Hf H. apply pmap_res_panic in H as [H|(r & [ls b] & P & Q)].
  - apply delim_panic in H as (t & -> & P). unfold pbind in P. destruct (p_content_lines t) as [t2 ls| |] eqn:L; try discriminate; [|now apply calm_lines in L].
    assert (Q : q t2 = PPanic) by (destruct (q t2); auto; discriminate). apply Hr in Q.
    eapply risky_suffix; [|exact Q]. eapply suffix_trans; [eapply tails_lines; exact L|apply suffix_app].
  - apply delim_POk in P as (t & -> & P). apply pair_POk in P as (t2 & L & P). apply lines_parse_only in L. apply Hf in Q.
    exists n, ls. split; [|auto]. exists [], t, t2. cbn [app]. rewrite <- ?app_assoc in *. auto.
Qed.
Lemma event_panics s : p_vevent s = PPanic -> risky s.
Proof.
  apply (nested_panics (lit "VEVENT")).
  - apply tails_many0, tails_component.
  - intros x. apply many_panics; [apply tails_component|apply alarm_panics].
  - intros ls b H. apply (lines_panic _ vevent_of ls vevent_safe). fold (vevent_of_lines ls). destruct (vevent_of_lines ls); cbn in H; try discriminate; auto.
Qed.
Lemma standard_panics s : p_standard s = PPanic -> risky s.
Proof. apply component_panics. intros ls H. right. apply (lines_panic _ standard_of ls standard_safe H). Qed.
Lemma daylight_panics s : p_daylight s = PPanic -> risky s.
Proof. apply component_panics. intros ls H. right. apply (lines_panic _ daylight_of ls daylight_safe H). Qed.
Lemma vtodo_panics s : p_vtodo s = PPanic -> risky s.
Proof. apply component_panics. intros ls H. right. apply (lines_panic _ vtodo_of ls vtodo_safe H). Qed.
Lemma vjournal_panics s : p_vjournal s = PPanic -> risky s.
Proof. apply component_panics. intros ls H. right. apply (lines_panic _ vjournal_of ls vjournal_safe H). Qed.
Lemma vfreebusy_panics s : p_vfreebusy s = PPanic -> risky s.
Proof. apply component_panics. intros ls H. right. apply (lines_panic _ vfreebusy_of ls vfreebusy_safe H). Qed.
Lemma pmap_panic {A B} (p : parser A) (f : A -> B) s : pmap p f s = PPanic -> p s = PPanic.
Proof. unfold pmap, pbind. destruct (p s); auto; discriminate. Qed.
Lemma timezone_panics s : p_vtimezone s = PPanic -> risky s.
Proof.
  apply (nested_panics (lit "VTIMEZONE")).
  - apply tails_many0, tails_tz_part.
  - intros x. apply many_panics; [apply tails_tz_part|]. intros y. unfold palt.
    destruct (pmap p_standard TStandard y) eqn:P; try discriminate; intros H; [apply pmap_panic in H; now apply daylight_panics|apply pmap_panic in P; now apply standard_panics].
  - intros ls b H. apply (lines_panic _ vtimezone_of ls vtimezone_safe). fold (vtimezone_of_lines ls). destruct (vtimezone_of_lines ls); cbn in H; try discriminate; auto.
Qed.
Lemma any_panics s : p_any_component s = PPanic -> risky s.
Proof.
  rewrite any_component_eq.
  repeat (match goal with |- (if starts_with ?h s then _ else _) = _ -> _ => destruct (starts_with h s) end;
    [intros H; apply pmap_panic in H; first [now apply alarm_panics|now apply event_panics|now apply vfreebusy_panics|now apply vjournal_panics|now apply timezone_panics|now apply vtodo_panics]|]).
  discriminate.
Qed.
Lemma calendar_panics s : p_vcalendar s = PPanic -> risky s.
Proof.
  apply (nested_panics (lit "VCALENDAR")).
  - apply tails_many0, tails_any.
  - intros x. apply many_panics; [apply tails_any|apply any_panics].
  - intros ls b H. apply (lines_panic _ vcalendar_of ls vcalendar_safe). fold (vcalendar_of_lines ls). destruct (vcalendar_of_lines ls); cbn in H; try discriminate; auto.
Qed.
(** ** C16 *)
Lemma from_str_panic {A} (p : parser A) s : (forall s, p s = PPanic -> risky s) -> from_str p s = Panic -> risky (unfold_lines s).
Proof. intros H X. apply pfinish_panic in X. auto. Qed.
Theorem C16_panics_confined : forall s,
  (vcalendar_of_str s = Panic \/ vevent_of_str s = Panic \/ vtodo_of_str s = Panic \/ vjournal_of_str s = Panic \/
   vfreebusy_of_str s = Panic \/ vtimezone_of_str s = Panic \/ standard_of_str s = Panic \/ daylight_of_str s = Panic \/
   valarm_of_str s = Panic) ->
  risky (unfold_lines s).
Proof.
  intros s H. repeat destruct H as [H|H]; revert H; apply from_str_panic;
    auto using calendar_panics, event_panics, vtodo_panics, vjournal_panics, vfreebusy_panics, timezone_panics, standard_panics, daylight_panics, alarm_panics.
Qed.
(** Each of the four dangers does panic. *)
Definition crlf_lines (l : list str) : str := flat_map (fun x => x ++ [CR; LF]) l.
Definition calendar_with (l : list str) : str :=
  crlf_lines ([lit "BEGIN:VCALENDAR"; lit "PRODID:x"; lit "VERSION:2.0"] ++ l) ++ lit "END:VCALENDAR".
Definition event_with (l : list str) : list str :=
  [lit "BEGIN:VEVENT"; lit "DTSTAMP:20240101T000000Z"; lit "UID:1"; lit "DTSTART:20240101T000000Z"] ++ l ++ [lit "END:VEVENT"].
Theorem C16_examples :
  vcalendar_of_str (calendar_with (event_with [lit "RRULE:INTERVAL=2"])) = Panic /\
  vcalendar_of_str (calendar_with (event_with [lit "RDATE;VALUE=PERIOD:20240101T000000Z"])) = Panic /\
  vcalendar_of_str (calendar_with (event_with [lit "DURATION:P99999999999999999W"])) = Panic /\
  vcalendar_of_str (calendar_with (event_with [lit "BEGIN:VALARM"; lit "TRIGGER:-PT5M"; lit "END:VALARM"])) = Panic /\
  (exists v, vcalendar_of_str (calendar_with (event_with [lit "RRULE:FREQ=DAILY;INTERVAL=2"; lit "DURATION:P9W"])) = Ok v).
Proof. repeat (split; [vm_compute; reflexivity|]). eexists. vm_compute. reflexivity. Qed.
(** A rule without FREQ makes every event that reads it panic, whatever the other lines. *)
Theorem C16_rule_always : forall c, (exists l, l <> [] /\ Forall rule_part l /\ last_binding l (lit "FREQ") = None /\ cl_value c = rule_text l) -> parse_rrule c = Panic.
Proof.
  intros c (l & Hn & Hp & Hf & V). pose proof (C27_missing_freq_panics l Hn Hp Hf) as H. unfold recur_of_str, parse_rrule, cl_of_str in *. cbn [cl_value] in H. now rewrite V.
Qed.
(** ** C17 *)
Theorem C17_kinds_not_parsable : forall s, audio_of_str s = Panic /\ display_of_str s = Panic /\ email_of_str s = Panic.
Proof. intros s. repeat split; reflexivity. Qed.
Theorem C17_dispatch : forall ls,
  (forall a, valarm_of_lines ls = Ok a <-> valarm_read ls a) /\
  (valarm_of_lines ls = Panic -> absent (lit "ACTION") ls \/ exists l, In l ls /\ dangerous l) /\
  (absent (lit "ACTION") ls -> valarm_of_lines ls = Panic) /\
  (forall l, first_line (lit "ACTION") ls l -> ~ In (cl_value l) [lit "AUDIO"; lit "DISPLAY"; lit "EMAIL"] ->
     valarm_of_lines ls = Err (EAlarm (cl_value l))).
Proof.
  intros ls. split; [intros a; apply valarm_read_iff|]. split; [apply valarm_panics|]. split.
  - intros H. unfold valarm_of_lines. destruct (find _ ls) as [l|] eqn:F; auto. apply find_some in F as [Hl K]. apply str_eqb_eq in K.
    unfold absent in H. rewrite Forall_forall in H. now apply H in Hl.
  - intros l (b & c & -> & K & Ab) Hn. unfold valarm_of_lines.
    assert (F : find (fun l => str_eqb (cl_key l) (lit "ACTION")) (b ++ l :: c) = Some l).
    { induction b as [|x b IH]; cbn [app find]; [now rewrite K, str_eqb_refl|]. inv Ab. apply str_eqb_neq in H1. rewrite H1. auto. }
    rewrite F. destruct (str_eqb (cl_value l) (lit "AUDIO")) eqn:A1; [apply str_eqb_eq in A1; exfalso; apply Hn; rewrite A1; cbn; auto|].
    destruct (str_eqb (cl_value l) (lit "DISPLAY")) eqn:A2; [apply str_eqb_eq in A2; exfalso; apply Hn; rewrite A2; cbn; auto|].
    destruct (str_eqb (cl_value l) (lit "EMAIL")) eqn:A3; [apply str_eqb_eq in A3; exfalso; apply Hn; rewrite A3; cbn; auto|]. reflexivity.
Qed.
Example C17_nonvacuous :
  (exists a, valarm_of_str (crlf_lines [lit "BEGIN:VALARM"; lit "ACTION:AUDIO"; lit "TRIGGER:-PT5M"; lit "END:VALARM"]) = Ok (AAudio a)) /\
  (exists a, valarm_of_str (crlf_lines [lit "BEGIN:VALARM"; lit "ACTION:DISPLAY"; lit "DESCRIPTION:d"; lit "TRIGGER:-PT5M"; lit "ACTION:AUDIO"; lit "END:VALARM"]) = Ok (ADisplay a)).
Proof. split; eexists; vm_compute; reflexivity. Qed.
End PropPanic.
