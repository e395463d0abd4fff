(** * C14-C17: component texts *)
From Verif Require Import Base Env Chrono Nom Types Ser Parser Derive Components BaseFacts ChronoFacts NomFacts SpecLine LineFacts SpecText SerFacts PropText SpecCal SpecDur PropDate PropDur PropVocab PropRule SpecComp SpecFields DeriveFacts PropComp SpecFile.

Lemma is_line_det s c c' r r' : is_line s c r -> is_line s c' r' -> sorted_map (cl_params c) -> sorted_map (cl_params c') -> c = c' /\ r = r'.
Proof.
  intros A B Sc Sc'. apply is_line_parse_inv in A as (x & P & K & V & M). apply is_line_parse_inv in B as (y & Q & K' & V' & M').
  rewrite P in Q. inv Q. split; auto. destruct c as [k m v], c' as [k' m' v']. cbn in *. subst. f_equal.
  apply msorted_ext; [now apply sorted_map_iff|now apply sorted_map_iff|]. intros n. now rewrite <- M, M'.
Qed.
Lemma line_parse_iff s c r : p_content_line s = POk r c <-> is_line s c r /\ sorted_map (cl_params c).
Proof.
  split.
  - intros H. split; [now apply is_line_parse|]. apply sorted_map_iff. eapply params_sorted; eauto.
  - intros [H S]. destruct (is_line_parse_inv _ _ _ H) as (c' & P & K & V & M). rewrite P. f_equal.
    apply params_sorted in P. destruct c as [k m v], c' as [k' m' v']. cbn in *. subst. f_equal.
    apply msorted_ext; auto. now apply sorted_map_iff.
Qed.
(** A component delimiter is no content line. *)
Definition delimiter (s : str) : Prop := begins (lit "BEGIN:") s \/ begins (lit "END:") s.
Lemma delimiter_no_line s : delimiter s -> p_content_line s = PErr.
Proof.
  intros H. destruct (p_content_line s) as [r c| |] eqn:P; auto.
  - apply line_parse_iff in P as [(A & B & _) _]. destruct H; tauto.
  - now apply calm_line in P.
Qed.
Lemma lines_parse s ls rest : delimiter rest -> p_content_lines s = POk rest ls <-> lines_text s ls rest.
Proof.
  intros Hd. rewrite lines_POk. unfold lines_text. split.
  - induction 1 as [s H|s r a l r' H L R IH]; [split; constructor|]. apply line_parse_iff in H as [A B].
    destruct (IH Hd) as [C D]. split; [econstructor; eauto|constructor; auto].
  - intros [H F]. induction H as [s|s c r ls rest H R IH]; [constructor; now apply delimiter_no_line|].
    inv F. assert (P : p_content_line s = POk r c) by (apply line_parse_iff; auto). econstructor; eauto using line_progress.
Qed.
Lemma lines_parse_only s ls rest : p_content_lines s = POk rest ls -> lines_text s ls rest.
Proof.
  rewrite lines_POk. unfold lines_text. induction 1 as [s H|s r a l r' H L R IH]; [split; constructor|].
  apply line_parse_iff in H as [A B]. destruct IH as [C D]. split; [econstructor; eauto|constructor; auto].
Qed.
(** Sequences *)
Lemma many0_text {A} (p : parser A) (one : str -> A -> str -> Prop) (stop : str -> Prop) :
  tails p -> (forall s r a, p s = POk r a -> (length r < length s)%nat) ->
  (forall s a r, p s = POk r a <-> one s a r) -> (forall s, stop s -> p s = PErr) ->
  (forall s l r, stop r -> many0 p s = POk r l <-> seq_text one s l r).
Proof.
  intros Ht Hl Hp Hs s l r Hr. rewrite many0_POk by auto. split.
  - induction 1 as [s H|s r1 a l r' H L R IH]; [constructor|]. econstructor; [apply Hp; eauto|auto].
  - induction 1 as [s|s a r1 l rest H R IH]; [constructor; auto|]. apply Hp in H. econstructor; eauto.
Qed.
Lemma many0_text_only {A} (p : parser A) (one : str -> A -> str -> Prop) : tails p ->
  (forall s a r, p s = POk r a -> one s a r) -> forall s l r, many0 p s = POk r l -> seq_text one s l r.
Proof.
  intros Ht Hp s l r H. apply many0_POk in H; auto. induction H; [constructor|]. econstructor; eauto.
Qed.
Lemma begins_app p r : begins p (p ++ r).
Proof. now exists r. Qed.
Lemma delim_POk {A} (p : parser A) a b s r v : delimited (tag a) p (tag b) s = POk r v <-> exists t, s = a ++ t /\ p t = POk (b ++ r) v.
Proof.
  unfold delimited. rewrite pbind_POk. setoid_rewrite tag_POk. setoid_rewrite pbind_POk. split.
  - intros (r0 & x & [-> ->] & r1 & y & P & Q). apply pbind_POk in Q as (r2 & z & Q & R). apply tag_POk in Q as [-> ->]. apply pret_POk in R as [-> ->]. eauto.
  - intros (t & -> & P). exists t, a. split; auto. exists (b ++ r), v. split; auto. apply pbind_POk. exists r, b. split; [apply tag_POk; auto|apply pret_POk; auto].
Qed.
Lemma pmap_res_POk {A B} (p : parser A) (f : A -> outcome B) s r b : pmap_res p f s = POk r b <-> exists a, p s = POk r a /\ f a = Ok b.
Proof.
  unfold pmap_res. rewrite pbind_POk. split.
  - intros (r0 & a & P & Q). destruct (f a) eqn:F; inv Q. eauto.
  - intros (a & P & Q). exists r, a. rewrite Q. auto.
Qed.
Lemma pmap_POk {A B} (p : parser A) (f : A -> B) s r b : pmap p f s = POk r b <-> exists a, p s = POk r a /\ b = f a.
Proof. unfold pmap. rewrite pbind_POk. setoid_rewrite pret_POk. split; [intros (r0 & a & P & -> & ->); eauto|intros (a & P & ->); eauto 6]. Qed.
Lemma pair_POk {A B} (p : parser A) (q : parser B) s r a b : (do x <- p ;; do y <- q ;; pret (x, y)) s = POk r (a, b) <-> exists m, p s = POk m a /\ q m = POk r b.
Proof.
  rewrite pbind_POk. setoid_rewrite pbind_POk. setoid_rewrite pret_POk. split.
  - intros (m & x & P & r0 & y & Q & -> & X). inv X. eauto.
  - intros (m & P & Q). exists m, a. split; auto. exists r, b. auto.
Qed.
Lemma delim_panic {A} (p : parser A) a b s : delimited (tag a) p (tag b) s = PPanic -> exists t, s = a ++ t /\ p t = PPanic.
Proof.
  unfold delimited, pbind. destruct (tag a s) as [r x| |] eqn:T; try discriminate; [|now apply calm_tag in T].
  apply tag_POk in T as [-> ->]. destruct (p r) as [r1 y| |] eqn:P; try discriminate; eauto.
  destruct (tag b r1) eqn:Q; try discriminate. now apply calm_tag in Q.
Qed.
Lemma pmap_res_panic {A B} (p : parser A) (f : A -> outcome B) s : pmap_res p f s = PPanic -> p s = PPanic \/ exists r a, p s = POk r a /\ f a = Panic.
Proof. unfold pmap_res, pbind. destruct (p s) as [r a| |]; auto; try discriminate. destruct (f a) eqn:F; try discriminate. eauto. Qed.
Lemma tails_delim {A} (p : parser A) a b : tails p -> tails (delimited (tag a) p (tag b)).
Proof. intros H. unfold delimited. eauto 8 with nom. Qed.
Lemma tag_shrinks {A} (p : parser A) a b s r v : tails p -> a <> [] -> delimited (tag a) p (tag b) s = POk r v -> (length r < length s)%nat.
Proof.
  intros Ht Ha H. apply delim_POk in H as (t & -> & P). apply Ht in P as [x ->]. rewrite !app_length. destruct a; [congruence|]. cbn. lia.
Qed.
Lemma tails_component {A} n (f : list content_line -> outcome A) : tails (p_component n f).
Proof. unfold p_component. apply tails_map_res, tails_delim, tails_lines. Qed.
(** The head of a text tells which component parser may accept it. *)
Lemma delimited_PErr {A} (p : parser A) a b s : ~ begins a s -> delimited (tag a) p (tag b) s = PErr.
Proof.
  intros H. unfold delimited, pbind. destruct (tag a s) eqn:T; auto; [|now apply calm_tag in T]. apply tag_POk in T as [-> _]. exfalso. apply H, begins_app.
Qed.
Lemma map_res_PErr {A B} (p : parser A) (f : A -> outcome B) s : p s = PErr -> pmap_res p f s = PErr.
Proof. intros H. unfold pmap_res, pbind. now rewrite H. Qed.
Lemma map_PErr {A B} (p : parser A) (f : A -> B) s : p s = PErr -> pmap p f s = PErr.
Proof. intros H. unfold pmap, pbind. now rewrite H. Qed.
Definition distinct_heads (a b : str) : bool :=
  negb (starts_with a b) && negb (starts_with b a).
Lemma heads a b s : distinct_heads a b = true -> begins a s -> ~ begins b s.
Proof.
  unfold distinct_heads. rewrite andb_true_iff, !negb_true_iff. intros [X Y] Ha Hb.
  destruct (Nat.le_ge_cases (length a) (length b)).
  - assert (begins a b) as Z by eauto using begins_prefix. apply begins_starts in Z. congruence.
  - assert (begins b a) as Z by eauto using begins_prefix. apply begins_starts in Z. congruence.
Qed.

Section PropFile.
Context {E : Env}.
(** ** Component grammars *)
Lemma component_POk {A} n (f : list content_line -> outcome A) read :
  (forall ls v, f ls = Ok v <-> read ls v) ->
  forall s v r, p_component n f s = POk r v <-> simple_text n read s v r.
Proof.
  intros Hf s v r. unfold p_component, simple_text. rewrite pmap_res_POk. setoid_rewrite delim_POk. split.
  - intros (ls & (t & -> & P) & F). exists t, ls. rewrite <- ?app_assoc. split; auto. split; [|now apply Hf].
    rewrite <- ?app_assoc in P. apply lines_parse_only in P. auto.
  - intros (t & ls & -> & L & F). exists ls. split; [|now apply Hf]. exists t. rewrite <- ?app_assoc. split; auto.
    apply lines_parse; auto. right. rewrite <- ?app_assoc. apply begins_app.
Qed.
Lemma valarm_read_iff ls a : valarm_of_lines ls = Ok a <-> valarm_read ls a.
Proof.
  unfold valarm_of_lines, valarm_read.
  assert (F : forall l, find (fun l => str_eqb (cl_key l) (lit "ACTION")) ls = Some l <-> first_line (lit "ACTION") ls l).
  { intros l. unfold first_line. split.
    - induction ls as [|x r IH]; cbn [find]; [discriminate|]. destruct (str_eqb (cl_key x) (lit "ACTION")) eqn:K.
      + intros H. inv H. exists [], r. apply str_eqb_eq in K. repeat split; auto. constructor.
      + intros H. destruct (IH H) as (b & c & -> & Kl & Ab). exists (x :: b), c. apply str_eqb_neq in K. repeat split; auto. constructor; auto.
    - intros (b & c & -> & K & Ab). induction b as [|x b IH]; cbn [app find].
      + now rewrite K, str_eqb_refl.
      + inv Ab. apply str_eqb_neq in H1. rewrite H1. auto. }
  destruct (find _ ls) as [l|] eqn:Q.
  - pose proof (proj1 (F l) eq_refl) as Q'. assert (U : forall l', first_line (lit "ACTION") ls l' -> l' = l) by (intros l' H; apply F in H; congruence).
    destruct (str_eqb (cl_value l) (lit "AUDIO")) eqn:A1; [|destruct (str_eqb (cl_value l) (lit "DISPLAY")) eqn:A2; [|destruct (str_eqb (cl_value l) (lit "EMAIL")) eqn:A3]];
      rewrite ?str_eqb_eq, ?str_eqb_neq in *.
    + split.
      * destruct (audio_of_lines ls) as [x|e|] eqn:O; cbn [omap]; try discriminate. intros H. inv H. exists l. split; auto. split; auto. now apply C11_audio_read.
      * intros (l' & H & M). apply U in H. subst l'. rewrite A1 in M. destruct a; destruct M as [M R]; try discriminate. apply C11_audio_read in R. now rewrite R.
    + split.
      * destruct (display_of_lines ls) as [x|e|] eqn:O; cbn [omap]; try discriminate. intros H. inv H. exists l. split; auto. split; auto. now apply C11_display_read.
      * intros (l' & H & M). apply U in H. subst l'. rewrite A2 in M. destruct a; destruct M as [M R]; try discriminate. apply C11_display_read in R. now rewrite R.
    + split.
      * destruct (email_of_lines ls) as [x|e|] eqn:O; cbn [omap]; try discriminate. intros H. inv H. exists l. split; auto. split; auto. now apply C11_email_read.
      * intros (l' & H & M). apply U in H. subst l'. rewrite A3 in M. destruct a; destruct M as [M R]; try discriminate. apply C11_email_read in R. now rewrite R.
    + split; [discriminate|]. intros (l' & H & M). apply U in H. subst l'. destruct a; destruct M; congruence.
  - split; [discriminate|]. intros (l' & H & _). apply F in H. congruence.
Qed.
Lemma alarm_POk s v r : p_valarm s = POk r v <-> alarm_text s v r.
Proof. apply component_POk. apply valarm_read_iff. Qed.
Lemma component_shrinks {A} n (f : list content_line -> outcome A) s r v : p_component n f s = POk r v -> (length r < length s)%nat.
Proof. unfold p_component. rewrite pmap_res_POk. intros (ls & P & _). eapply tag_shrinks; [apply tails_lines| |exact P]. discriminate. Qed.
Lemma component_PErr {A} n (f : list content_line -> outcome A) s : ~ begins (lit "BEGIN:" ++ n ++ CRLF) s -> p_component n f s = PErr.
Proof. intros H. unfold p_component. now apply map_res_PErr, delimited_PErr. Qed.
Lemma seq_head {A} (one : str -> A -> str -> Prop) s l r : seq_text one s l r -> (forall s a r, one s a r -> begins (lit "BEGIN:") s) -> begins (lit "END:") r -> delimiter s.
Proof. intros H B Er. destruct H; [now right|left; eauto]. Qed.
Lemma simple_head {A} n read s (a : A) r : simple_text n read s a r -> begins (lit "BEGIN:") s.
Proof. intros (t & ls & -> & _). rewrite <- ?app_assoc. eexists. reflexivity. Qed.
Lemma event_POk s v r : p_vevent s = POk r v <-> event_text s v r.
Proof.
  unfold p_vevent, event_text. rewrite pmap_res_POk. split.
  - intros ([ls al] & P & F). apply delim_POk in P as (t & -> & P). apply pair_POk in P as (t2 & P & Q).
    destruct (vevent_of_lines ls) as [v0|e|] eqn:O; cbn [obind] in F; try discriminate. inv F.
    exists t, ls, t2, v0. rewrite <- ?app_assoc. split; auto. split; [now apply lines_parse_only|]. cbn [ev_alarms set_ev_alarms]. split; [|split; [now apply C11_vevent_read|auto]].
    rewrite <- ?app_assoc in Q. eapply many0_text_only; [|intros ? ? ?; apply alarm_POk|exact Q]. apply tails_component.
  - intros (t & ls & t2 & v0 & -> & L & S & R & V). exists (ls, ev_alarms v). split.
    + apply delim_POk. exists t. rewrite <- ?app_assoc. split; auto. apply pair_POk. exists t2. split.
      * apply lines_parse; auto. eapply seq_head; [exact S|intros ? ? ?; apply simple_head|apply (begins_app (lit "END:"))].
      * rewrite <- ?app_assoc. apply (many0_text p_valarm alarm_text (begins (lit "END:"))); auto using alarm_POk.
        -- apply tails_component.
        -- intros ? ? ?. apply component_shrinks.
        -- intros x Hx. apply component_PErr. revert Hx. apply heads. reflexivity.
        -- apply (begins_app (lit "END:")).
    + apply C11_vevent_read in R. rewrite R. cbn [obind]. now rewrite <- V.
Qed.
Definition p_tz_part : parser tz_part := palt (pmap p_standard TStandard) (pmap p_daylight TDaylight).
Lemma tails_tz_part : tails p_tz_part.
Proof. apply tails_alt; apply tails_map, tails_component. Qed.
Lemma standard_POk s v r : p_standard s = POk r v <-> simple_text (lit "STANDARD") standard_read s v r.
Proof. apply component_POk. apply C11_standard_read. Qed.
Lemma daylight_POk s v r : p_daylight s = POk r v <-> simple_text (lit "DAYLIGHT") daylight_read s v r.
Proof. apply component_POk. apply C11_daylight_read. Qed.
Lemma tz_part_POk s v r : p_tz_part s = POk r v <-> tz_part_text s v r.
Proof.
  unfold p_tz_part, palt. destruct (pmap p_standard TStandard s) as [r0 a| |] eqn:P.
  - pose proof P as P'. apply pmap_POk in P' as (x & P' & ->). split.
    + intros H. inv H. cbn. now apply standard_POk.
    + destruct v as [y|y]; cbn; intros H.
      * apply standard_POk in H. rewrite H in P'. now inv P'.
      * exfalso. apply standard_POk in P' as (t & ls & -> & _). destruct H as (t' & ls' & H & _). discriminate.
  - rewrite pmap_POk. split.
    + intros (x & Q & ->). cbn. now apply daylight_POk.
    + destruct v as [y|y]; cbn; intros H; [|exists y; split; auto; now apply daylight_POk].
      apply standard_POk in H. assert (pmap p_standard TStandard s = POk r (TStandard y)) by (apply pmap_POk; eauto). congruence.
  - split; [discriminate|]. destruct v as [y|y]; cbn; intros H.
    + apply standard_POk in H. assert (pmap p_standard TStandard s = POk r (TStandard y)) by (apply pmap_POk; eauto). congruence.
    + exfalso. destruct H as (t' & ls' & -> & _). unfold p_standard in P. rewrite map_PErr in P; [discriminate|]. apply component_PErr.
      apply (heads (lit "BEGIN:DAYLIGHT")); [reflexivity|]. apply (begins_app (lit "BEGIN:DAYLIGHT")).
Qed.
Lemma fold_push_tz cs v0 : let v := fold_left push_tz cs v0 in
  tz_standard v = tz_standard v0 ++ flat_map (fun c => match c with TStandard x => [x] | _ => [] end) cs /\
  tz_daylight v = tz_daylight v0 ++ flat_map (fun c => match c with TDaylight x => [x] | _ => [] end) cs /\
  v = set_tz_daylight (set_tz_standard v0 (tz_standard v)) (tz_daylight v).
Proof.
  revert v0; induction cs as [|c cs IH]; intros v0; cbn zeta in *.
  - cbn [fold_left flat_map]. rewrite !app_nil_r. destruct v0; auto.
  - cbn [fold_left flat_map]. destruct (IH (push_tz v0 c)) as (A & B & C). rewrite A, B. destruct c as [x|x]; cbn [push_tz tz_standard tz_daylight set_tz_standard set_tz_daylight] in *;
      rewrite <- ?app_assoc; (split; [auto|]; split; [auto|]); rewrite C at 1; rewrite A, B; destruct v0; cbn; rewrite <- ?app_assoc; reflexivity.
Qed.
Lemma timezone_POk s v r : p_vtimezone s = POk r v <-> timezone_text s v r.
Proof.
  unfold p_vtimezone, timezone_text. rewrite pmap_res_POk. fold p_tz_part. split.
  - intros ([ls cs] & P & F). apply delim_POk in P as (t & -> & P). apply pair_POk in P as (t2 & P & Q).
    destruct (vtimezone_of_lines ls) as [v0|e|] eqn:O; cbn [obind] in F; try discriminate. inv F. apply C11_vtimezone_read in O.
    assert (Z : tz_standard v0 = [] /\ tz_daylight v0 = []) by (unfold vtimezone_read in O; tauto).
    destruct (fold_push_tz cs v0) as (A & B & C). destruct Z as [Z1 Z2]. rewrite Z1 in A. rewrite Z2 in B.
    exists t, ls, t2, cs, v0. rewrite <- ?app_assoc. split; auto. split; [now apply lines_parse_only|]. rewrite <- ?app_assoc in Q. split; [|split; auto].
    eapply many0_text_only; [apply tails_tz_part|intros ? ? ?; apply tz_part_POk|exact Q].
  - intros (t & ls & t2 & cs & v0 & -> & L & S & R & V & A & B). exists (ls, cs). split.
    + apply delim_POk. exists t. rewrite <- ?app_assoc. split; auto. apply pair_POk. exists t2. split.
      * apply lines_parse; auto. eapply seq_head; [exact S|intros ? [?|?] ?; apply simple_head|apply (begins_app (lit "END:"))].
      * rewrite <- ?app_assoc. apply (many0_text p_tz_part tz_part_text (begins (lit "END:"))); auto using tz_part_POk, tails_tz_part.
        -- intros x y a. unfold p_tz_part, palt. destruct (pmap p_standard TStandard x) as [q b| |] eqn:Q; try discriminate.
           ++ intros X. inv X. apply pmap_POk in Q as (z & Q & _). eapply component_shrinks; eauto.
           ++ intros X. apply pmap_POk in X as (z & X & _). eapply component_shrinks; eauto.
        -- intros x Hx. unfold p_tz_part, palt. rewrite !map_PErr; auto; apply component_PErr; revert Hx; apply heads; reflexivity.
        -- apply (begins_app (lit "END:")).
    + pose proof R as R'. apply C11_vtimezone_read in R. rewrite R. cbn [obind]. f_equal.
      assert (Z : tz_standard v0 = [] /\ tz_daylight v0 = []) by (unfold vtimezone_read in R'; tauto). destruct Z as [Z1 Z2].
      destruct (fold_push_tz cs v0) as (A' & B' & C'). rewrite Z1 in A'. rewrite Z2 in B'. cbn [app] in A', B'. rewrite C', A', B', <- A, <- B. auto.
Qed.
Lemma event_PErr s : ~ begins (lit "BEGIN:VEVENT" ++ CRLF) s -> p_vevent s = PErr.
Proof. intros H. unfold p_vevent. now apply map_res_PErr, delimited_PErr. Qed.
Lemma timezone_PErr s : ~ begins (lit "BEGIN:VTIMEZONE" ++ CRLF) s -> p_vtimezone s = PErr.
Proof. intros H. unfold p_vtimezone. now apply map_res_PErr, delimited_PErr. Qed.
Definition head_of (c : component) : str :=
  match c with
  | CAlarm _ => lit "BEGIN:VALARM" | CEvent _ => lit "BEGIN:VEVENT" | CFreebusy _ => lit "BEGIN:VFREEBUSY"
  | CJournal _ => lit "BEGIN:VJOURNAL" | CTimezone _ => lit "BEGIN:VTIMEZONE" | CTodo _ => lit "BEGIN:VTODO"
  end ++ CRLF.
Lemma child_head s c r : child_text s c r -> begins (head_of c) s.
Proof.
  destruct c; cbn [child_text head_of].
  1, 3, 4, 6: intros (u & ls & -> & _); exists u; reflexivity.
  - intros (u & ls & t2 & v0 & -> & _). exists u. reflexivity.
  - intros (u & ls & t2 & cs & v0 & -> & _). exists u. reflexivity.
Qed.
Lemma any_component_eq s :
  p_any_component s =
  if starts_with (lit "BEGIN:VALARM" ++ CRLF) s then pmap p_valarm CAlarm s
  else if starts_with (lit "BEGIN:VEVENT" ++ CRLF) s then pmap p_vevent CEvent s
  else if starts_with (lit "BEGIN:VFREEBUSY" ++ CRLF) s then pmap p_vfreebusy CFreebusy s
  else if starts_with (lit "BEGIN:VJOURNAL" ++ CRLF) s then pmap p_vjournal CJournal s
  else if starts_with (lit "BEGIN:VTIMEZONE" ++ CRLF) s then pmap p_vtimezone CTimezone s
  else if starts_with (lit "BEGIN:VTODO" ++ CRLF) s then pmap p_vtodo CTodo s
  else PErr.
Proof.
  assert (X : forall h, starts_with h s = false -> ~ begins h s) by (intros h H B; apply begins_starts in B; congruence).
  assert (N1 : starts_with (lit "BEGIN:VALARM" ++ CRLF) s = false -> pmap p_valarm CAlarm s = PErr) by (intros H; apply map_PErr, component_PErr; auto).
  assert (N2 : starts_with (lit "BEGIN:VEVENT" ++ CRLF) s = false -> pmap p_vevent CEvent s = PErr) by (intros H; apply map_PErr, event_PErr; auto).
  assert (N3 : starts_with (lit "BEGIN:VFREEBUSY" ++ CRLF) s = false -> pmap p_vfreebusy CFreebusy s = PErr) by (intros H; apply map_PErr, component_PErr; auto).
  assert (N4 : starts_with (lit "BEGIN:VJOURNAL" ++ CRLF) s = false -> pmap p_vjournal CJournal s = PErr) by (intros H; apply map_PErr, component_PErr; auto).
  assert (N5 : starts_with (lit "BEGIN:VTIMEZONE" ++ CRLF) s = false -> pmap p_vtimezone CTimezone s = PErr) by (intros H; apply map_PErr, timezone_PErr; auto).
  assert (N6 : starts_with (lit "BEGIN:VTODO" ++ CRLF) s = false -> pmap p_vtodo CTodo s = PErr) by (intros H; apply map_PErr, component_PErr; auto).
  assert (D : forall a b, distinct_heads a b = true -> starts_with a s = true -> starts_with b s = false).
  { intros a b H Ha. apply begins_starts in Ha. destruct (starts_with b s) eqn:Hb; auto. apply begins_starts in Hb. exfalso. eapply heads; eauto. }
  unfold p_any_component, palt.
  destruct (starts_with (lit "BEGIN:VALARM" ++ CRLF) s) eqn:H1.
  { rewrite N2, N3, N4, N5, N6 by (eapply D; [|exact H1]; reflexivity). now destruct (pmap p_valarm CAlarm s). }
  rewrite N1 by auto. destruct (starts_with (lit "BEGIN:VEVENT" ++ CRLF) s) eqn:H2.
  { rewrite N3, N4, N5, N6 by (eapply D; [|exact H2]; reflexivity). now destruct (pmap p_vevent CEvent s). }
  rewrite N2 by auto. destruct (starts_with (lit "BEGIN:VFREEBUSY" ++ CRLF) s) eqn:H3.
  { rewrite N4, N5, N6 by (eapply D; [|exact H3]; reflexivity). now destruct (pmap p_vfreebusy CFreebusy s). }
  rewrite N3 by auto. destruct (starts_with (lit "BEGIN:VJOURNAL" ++ CRLF) s) eqn:H4.
  { rewrite N5, N6 by (eapply D; [|exact H4]; reflexivity). now destruct (pmap p_vjournal CJournal s). }
  rewrite N4 by auto. destruct (starts_with (lit "BEGIN:VTIMEZONE" ++ CRLF) s) eqn:H5.
  { rewrite N6 by (eapply D; [|exact H5]; reflexivity). now destruct (pmap p_vtimezone CTimezone s). }
  rewrite N5 by auto. destruct (starts_with (lit "BEGIN:VTODO" ++ CRLF) s) eqn:H6; auto.
Qed.
Lemma vfreebusy_POk s v r : p_vfreebusy s = POk r v <-> simple_text (lit "VFREEBUSY") vfreebusy_read s v r.
Proof. apply component_POk. apply C11_vfreebusy_read. Qed.
Lemma vjournal_POk s v r : p_vjournal s = POk r v <-> simple_text (lit "VJOURNAL") vjournal_read s v r.
Proof. apply component_POk. apply C11_vjournal_read. Qed.
Lemma vtodo_POk s v r : p_vtodo s = POk r v <-> simple_text (lit "VTODO") vtodo_read s v r.
Proof. apply component_POk. apply C11_vtodo_read. Qed.
Lemma child_POk s c r : p_any_component s = POk r c <-> child_text s c r.
Proof.
  split.
  - rewrite any_component_eq.
    repeat (match goal with |- (if starts_with ?h s then _ else _) = _ -> _ => destruct (starts_with h s) end;
      [intros H; apply pmap_POk in H as (x & P & ->); cbn [child_text];
       first [now apply alarm_POk|now apply event_POk|now apply vfreebusy_POk|now apply vjournal_POk|now apply timezone_POk|now apply vtodo_POk]|]).
    discriminate.
  - intros H. pose proof (child_head _ _ _ H) as B. rewrite any_component_eq.
    assert (D : forall h, distinct_heads (head_of c) h = true -> starts_with h s = false).
    { intros h Hd. destruct (starts_with h s) eqn:Hh; auto. apply begins_starts in Hh. exfalso. eapply heads; eauto. }
    apply begins_starts in B. unfold head_of in *; destruct c; cbn [child_text] in *;
      repeat (rewrite D by reflexivity); rewrite B; apply pmap_POk; eexists; (split; [|reflexivity]);
      first [now apply alarm_POk|now apply event_POk|now apply vfreebusy_POk|now apply vjournal_POk|now apply timezone_POk|now apply vtodo_POk].
Qed.
Lemma tails_event : tails p_vevent.
Proof.
  unfold p_vevent. apply tails_map_res, tails_delim, tails_bind; [apply tails_lines|]. intros ls. apply tails_bind; [apply tails_many0, tails_component|]. intros; apply tails_ret.
Qed.
Lemma tails_timezone : tails p_vtimezone.
Proof.
  unfold p_vtimezone. apply tails_map_res, tails_delim, tails_bind; [apply tails_lines|]. intros ls. apply tails_bind; [apply tails_many0, tails_tz_part|]. intros; apply tails_ret.
Qed.
Lemma tails_any : tails p_any_component.
Proof. unfold p_any_component. repeat apply tails_alt; apply tails_map; auto using tails_event, tails_timezone; apply tails_component. Qed.
Lemma event_shrinks s r v : p_vevent s = POk r v -> (length r < length s)%nat.
Proof.
  unfold p_vevent. rewrite pmap_res_POk. intros (ls & P & _). refine (tag_shrinks _ _ _ _ _ _ _ _ P); [|discriminate].
  apply tails_bind; [apply tails_lines|]. intros x. apply tails_bind; [apply tails_many0, tails_component|]. intros; apply tails_ret.
Qed.
Lemma timezone_shrinks s r v : p_vtimezone s = POk r v -> (length r < length s)%nat.
Proof.
  unfold p_vtimezone. rewrite pmap_res_POk. intros (ls & P & _). refine (tag_shrinks _ _ _ _ _ _ _ _ P); [|discriminate].
  apply tails_bind; [apply tails_lines|]. intros x. apply tails_bind; [apply tails_many0, tails_tz_part|]. intros; apply tails_ret.
Qed.
Lemma any_shrinks s r c : p_any_component s = POk r c -> (length r < length s)%nat.
Proof.
  rewrite any_component_eq.
  repeat (match goal with |- (if starts_with ?h s then _ else _) = _ -> _ => destruct (starts_with h s) end;
    [intros H; apply pmap_POk in H as (x & P & ->); first [eapply component_shrinks; exact P|eapply event_shrinks; exact P|eapply timezone_shrinks; exact P]|]).
  discriminate.
Qed.
Lemma any_PErr s : begins (lit "END:") s -> p_any_component s = PErr.
Proof.
  intros B. rewrite any_component_eq.
  assert (D : forall h, distinct_heads (lit "END:") h = true -> starts_with h s = false).
  { intros h Hd. destruct (starts_with h s) eqn:Hh; auto. apply begins_starts in Hh. exfalso. eapply heads; eauto. }
  now repeat (rewrite D by reflexivity).
Qed.
Lemma fold_push cs v0 : let v := fold_left push_component cs v0 in
  ca_alarms v = ca_alarms v0 ++ alarms_of cs /\ ca_events v = ca_events v0 ++ events_of cs /\ ca_freebusy v = ca_freebusy v0 ++ freebusy_of cs /\
  ca_journals v = ca_journals v0 ++ journals_of cs /\ ca_timezones v = ca_timezones v0 ++ timezones_of cs /\ ca_todo v = ca_todo v0 ++ todos_of cs /\
  ca_prodid v = ca_prodid v0 /\ ca_version v = ca_version v0 /\ ca_calscale v = ca_calscale v0 /\
  ca_method v = ca_method v0 /\ ca_x_prop v = ca_x_prop v0 /\ ca_iana_prop v = ca_iana_prop v0.
Proof.
  unfold alarms_of, events_of, freebusy_of, journals_of, timezones_of, todos_of.
  revert v0; induction cs as [|c cs IH]; intros v0; cbn zeta in *; cbn [fold_left flat_map].
  - rewrite !app_nil_r. tauto.
  - destruct (IH (push_component v0 c)) as (A1 & A2 & A3 & A4 & A5 & A6 & A7 & A8 & A9 & A10 & A11 & A12). clear IH.
    rewrite A1, A2, A3, A4, A5, A6, A7, A8, A9, A10, A11, A12. destruct c; cbn; rewrite <- ?app_assoc; cbn [app]; tauto.
Qed.
Lemma calendar_ext (v w : vcalendar) : ca_alarms v = ca_alarms w -> ca_events v = ca_events w -> ca_freebusy v = ca_freebusy w ->
  ca_journals v = ca_journals w -> ca_timezones v = ca_timezones w -> ca_todo v = ca_todo w -> ca_prodid v = ca_prodid w -> ca_version v = ca_version w ->
  ca_calscale v = ca_calscale w -> ca_method v = ca_method w -> ca_x_prop v = ca_x_prop w -> ca_iana_prop v = ca_iana_prop w -> v = w.
Proof. destruct v, w. cbn. intros. now subst. Qed.
Lemma calendar_POk s v r : p_vcalendar s = POk r v <-> exists ls cs, calendar_text s ls cs r /\ calendar_holds v ls cs.
Proof.
  unfold p_vcalendar, calendar_text, calendar_holds. rewrite pmap_res_POk. split.
  - intros ([ls cs] & P & F). apply delim_POk in P as (t & -> & P). apply pair_POk in P as (t2 & P & Q).
    destruct (vcalendar_of_lines ls) as [v0|e|] eqn:O; cbn [obind] in F; try discriminate. inv F. apply C11_vcalendar_read in O.
    assert (Z : ca_alarms v0 = [] /\ ca_events v0 = [] /\ ca_freebusy v0 = [] /\ ca_journals v0 = [] /\ ca_timezones v0 = [] /\ ca_todo v0 = []) by (unfold vcalendar_read in O; tauto).
    destruct Z as (Z1 & Z2 & Z3 & Z4 & Z5 & Z6). destruct (fold_push cs v0) as (A1 & A2 & A3 & A4 & A5 & A6 & A).
    rewrite Z1 in A1. rewrite Z2 in A2. rewrite Z3 in A3. rewrite Z4 in A4. rewrite Z5 in A5. rewrite Z6 in A6.
    exists ls, cs. split.
    + exists t, t2. rewrite <- ?app_assoc. split; auto. split; [now apply lines_parse_only|]. rewrite <- ?app_assoc in Q.
      eapply many0_text_only; [apply tails_any|intros ? ? ?; apply child_POk|exact Q].
    + do 6 (split; [assumption|]). exists v0. auto.
  - intros (ls & cs & (t & t2 & -> & L & S) & A1 & A2 & A3 & A4 & A5 & A6 & v0 & O & A). exists (ls, cs). split.
    + apply delim_POk. exists t. rewrite <- ?app_assoc. split; auto. apply pair_POk. exists t2. split.
      * apply lines_parse; auto. eapply seq_head; [exact S| |apply (begins_app (lit "END:"))].
        intros x c y H. apply child_head in H as [z ->]. destruct c; eexists; reflexivity.
      * rewrite <- ?app_assoc. apply (many0_text p_any_component child_text (begins (lit "END:"))); auto using child_POk, tails_any, any_PErr.
        -- intros ? ? ?. apply any_shrinks.
        -- apply (begins_app (lit "END:")).
    + pose proof O as O'. apply C11_vcalendar_read in O. rewrite O. cbn [obind]. f_equal.
      assert (Z : ca_alarms v0 = [] /\ ca_events v0 = [] /\ ca_freebusy v0 = [] /\ ca_journals v0 = [] /\ ca_timezones v0 = [] /\ ca_todo v0 = []) by (unfold vcalendar_read in O'; tauto).
      destruct Z as (Z1 & Z2 & Z3 & Z4 & Z5 & Z6). destruct (fold_push cs v0) as (B1 & B2 & B3 & B4 & B5 & B6 & B).
      rewrite Z1 in B1. rewrite Z2 in B2. rewrite Z3 in B3. rewrite Z4 in B4. rewrite Z5 in B5. rewrite Z6 in B6. cbn [app] in *.
      apply calendar_ext; try congruence; intuition congruence.
Qed.
(** ** C14, C15 *)
Lemma from_str_iff {A} (p : parser A) (one : str -> A -> str -> Prop) s v : (forall s v r, p s = POk r v <-> one s v r) ->
  from_str p s = Ok v <-> exists rest, one (unfold_lines s) v rest.
Proof.
  intros H. unfold from_str. split.
  - destruct (p (unfold_lines s)) as [r w| |] eqn:P; cbn; try discriminate. intros X. inv X. exists r. now apply H.
  - intros [r X]. apply H in X. now rewrite X.
Qed.
(** A calendar is accepted exactly when its unfolded text is BEGIN:VCALENDAR, content
    lines, acceptable components and END:VCALENDAR, with nothing in between. *)
Theorem C15_calendar_grammar : forall s v,
  vcalendar_of_str s = Ok v <->
  exists ls cs rest, calendar_text (unfold_lines s) ls cs rest /\ calendar_holds v ls cs.
Proof.
  intros s v. unfold vcalendar_of_str, from_str. split.
  - destruct (p_vcalendar (unfold_lines s)) as [r w| |] eqn:P; cbn; try discriminate. intros X. inv X. apply calendar_POk in P as (ls & cs & A & B). eauto 6.
  - intros (ls & cs & r & A & B). assert (P : p_vcalendar (unfold_lines s) = POk r v) by (apply calendar_POk; eauto). now rewrite P.
Qed.
(** The same for the components parsed on their own. *)
Theorem C15_event_grammar : forall s v, vevent_of_str s = Ok v <-> exists rest, event_text (unfold_lines s) v rest.
Proof. intros. apply from_str_iff, event_POk. Qed.
Theorem C15_timezone_grammar : forall s v, vtimezone_of_str s = Ok v <-> exists rest, timezone_text (unfold_lines s) v rest.
Proof. intros. apply from_str_iff, timezone_POk. Qed.
Theorem C15_todo_grammar : forall s v, vtodo_of_str s = Ok v <-> exists rest, simple_text (lit "VTODO") vtodo_read (unfold_lines s) v rest.
Proof. intros. apply from_str_iff, vtodo_POk. Qed.
Theorem C15_journal_grammar : forall s v, vjournal_of_str s = Ok v <-> exists rest, simple_text (lit "VJOURNAL") vjournal_read (unfold_lines s) v rest.
Proof. intros. apply from_str_iff, vjournal_POk. Qed.
Theorem C15_freebusy_grammar : forall s v, vfreebusy_of_str s = Ok v <-> exists rest, simple_text (lit "VFREEBUSY") vfreebusy_read (unfold_lines s) v rest.
Proof. intros. apply from_str_iff, vfreebusy_POk. Qed.
Theorem C15_standard_grammar : forall s v, standard_of_str s = Ok v <-> exists rest, simple_text (lit "STANDARD") standard_read (unfold_lines s) v rest.
Proof. intros. apply from_str_iff, standard_POk. Qed.
Theorem C15_daylight_grammar : forall s v, daylight_of_str s = Ok v <-> exists rest, simple_text (lit "DAYLIGHT") daylight_read (unfold_lines s) v rest.
Proof. intros. apply from_str_iff, daylight_POk. Qed.
Theorem C15_alarm_grammar : forall s v, valarm_of_str s = Ok v <-> exists rest, simple_text (lit "VALARM") valarm_read (unfold_lines s) v rest.
Proof. intros. apply from_str_iff, alarm_POk. Qed.
(** The decomposition is unique: the lines and the children are determined by the text. *)
Theorem C15_calendar_unique : forall s ls cs rest ls' cs' rest',
  calendar_text s ls cs rest -> calendar_text s ls' cs' rest' -> ls = ls' /\ cs = cs' /\ rest = rest'.
Proof.
  assert (P : forall s ls cs rest, calendar_text s ls cs rest ->
    delimited (tag (lit "BEGIN:VCALENDAR" ++ CRLF)) (do ls <- p_content_lines ;; do cs <- p_components ;; pret (ls, cs)) (tag (lit "END:VCALENDAR")) s = POk rest (ls, cs)).
  { intros s ls cs rest (t & t2 & -> & L & S). apply delim_POk. exists t. rewrite <- ?app_assoc. split; auto. apply pair_POk. exists t2. split.
    - apply lines_parse; auto. eapply seq_head; [exact S| |apply (begins_app (lit "END:"))].
      intros x c y H. apply child_head in H as [z ->]. destruct c; eexists; reflexivity.
    - rewrite <- ?app_assoc. apply (many0_text p_any_component child_text (begins (lit "END:"))); auto using child_POk, tails_any, any_PErr.
      + intros ? ? ?. apply any_shrinks.
      + apply (begins_app (lit "END:")). }
  intros s ls cs rest ls' cs' rest' A B. apply P in A. apply P in B. rewrite A in B. inv B. auto.
Qed.
(** Every child of the file is in the list of its kind, in file order; nothing else is. *)
Theorem C14_children : forall s v, vcalendar_of_str s = Ok v ->
  exists ls cs rest, calendar_text (unfold_lines s) ls cs rest /\
    ca_alarms v = alarms_of cs /\ ca_events v = events_of cs /\ ca_freebusy v = freebusy_of cs /\
    ca_journals v = journals_of cs /\ ca_timezones v = timezones_of cs /\ ca_todo v = todos_of cs /\
    (length (ca_alarms v) + length (ca_events v) + length (ca_freebusy v) + length (ca_journals v) +
     length (ca_timezones v) + length (ca_todo v) = length cs)%nat.
Proof.
  intros s v H. apply C15_calendar_grammar in H as (ls & cs & rest & T & H). exists ls, cs, rest. split; auto.
  destruct H as (A1 & A2 & A3 & A4 & A5 & A6 & _). rewrite A1, A2, A3, A4, A5, A6. do 6 (split; [auto|]).
  clear. unfold alarms_of, events_of, freebusy_of, journals_of, timezones_of, todos_of. induction cs as [|c cs IH]; auto.
  cbn [flat_map]. rewrite !app_length. destruct c; cbn [length app]; lia.
Qed.
End PropFile.
