(** * C83: formatting a date *)
From Verif Require Import Base Env Chrono Types Ser Format BaseFacts ChronoFacts DateText SpecCal SpecFormat PropDate PropDur PropIterEx.

Arguments render : simpl never.
(** ** The directives *)
Lemma spec_of_spec c :
  match spec_of c with
  | Known l => (In c date_letters \/ In c time_letters \/ In c offset_letters) /\ ~ In c outside_letters
  | Outside => In c outside_letters
  | Unknown => unknown c end.
Proof.
  unfold spec_of. destruct (find _ spec_table) as [[k l]|] eqn:F.
  - apply find_some in F as [I F]. cbn [fst] in F. apply str_eqb_eq in F. subst k.
    assert (H : forallb (fun p => match fst p with [c] => (existsb (Z.eqb c) (date_letters ++ time_letters ++ offset_letters)) && negb (existsb (Z.eqb c) outside_letters) | _ => false end) spec_table = true) by (vm_compute; reflexivity).
    rewrite forallb_forall in H. specialize (H _ I). cbn [fst] in H. apply andb_prop in H as [H1 H2]. split.
    + apply existsb_exists in H1 as (x & H1 & Ex). apply Z.eqb_eq in Ex as <-. rewrite !in_app_iff in H1. exact H1.
    + intros I'. apply negb_true_iff in H2. assert (T : existsb (Z.eqb c) outside_letters = true) by (apply existsb_exists; exists c; split; [auto|apply Z.eqb_refl]). congruence.
  - destruct (existsb (Z.eqb c) other_specs) eqn:O.
    + apply existsb_exists in O as (x & O & Ex). apply Z.eqb_eq in Ex as <-. exact O.
    + assert (N : forall c', In c' (date_letters ++ time_letters ++ offset_letters) -> c' <> c).
      { intros c' I ->. assert (H : forallb (fun c' => match find (fun p => str_eqb (fst p) [c']) spec_table with Some _ => true | None => false end) (date_letters ++ time_letters ++ offset_letters) = true) by (vm_compute; reflexivity).
        rewrite forallb_forall in H. specialize (H _ I). rewrite F in H. discriminate. }
      unfold unknown. split; [|split; [|split]]; intros I.
      1-3: apply (N c); [rewrite !in_app_iff; auto|reflexivity].
      assert (T : existsb (Z.eqb c) other_specs = true) by (apply existsb_exists; exists c; split; [exact I|apply Z.eqb_refl]). congruence.
Qed.
Lemma pieces_total f : exists l, pieces f l.
Proof.
  assert (H : forall n f, (length f <= n)%nat -> exists l, pieces f l); [|exact (H _ f (le_n _))].
  clear f. induction n as [|n IH]; intros f L.
  - destruct f; [exists []; constructor|cbn in L; lia].
  - destruct f as [|c f]; [exists []; constructor|]. cbn in L. destruct (Z.eq_dec c 37) as [->|N].
    + destruct f as [|d f]; [exists [Dangling]; constructor|]. cbn in L. destruct (IH f) as [l P]; [lia|]. exists (Directive d :: l). now constructor.
    + destruct (IH f) as [l P]; [lia|]. exists (Char c :: l). now constructor.
Qed.
(** What a piece renders as. *)
Definition piece_items (p : piece) : list (spec + bool) :=
  match p with
  | Char c => [inl (FText [c])]
  | Directive c => match spec_of c with Known l => map inl l | Unknown => [inr false] | Outside => [inr true] end
  | Dangling => [inr false]
  end.
Lemma items_pieces f l : pieces f l -> items f = flat_map piece_items l.
Proof.
  induction 1 as [|c f l N P IH|c f l P IH|]; [reflexivity| | |reflexivity].
  - cbn [items flat_map piece_items]. apply Z.eqb_neq in N. rewrite N, IH. reflexivity.
  - cbn [items flat_map piece_items]. rewrite Z.eqb_refl, IH. reflexivity.
Qed.
Definition join2 (x y : option (outcome str)) : option (outcome str) :=
  match x, y with Some a, Some b => Some (let* s := a in let* t := b in Ok (s ++ t)) | _, _ => None end.
Definition ok_or_panic (x : option (outcome str)) : Prop := match x with Some (Err _) => False | _ => True end.
Lemma render_no_err m l : ok_or_panic (render_all m l).
Proof.
  induction l as [|[i|[]] l IH]; cbn; auto.
  - destruct (render_all m l) as [[]|]; cbn in *; auto; destruct (render m i); cbn; auto.
  - destruct (render_all m l); cbn; auto.
Qed.
Lemma render_app m a b : render_all m (a ++ b) = join2 (render_all m a) (render_all m b).
Proof.
  induction a as [|[i|[]] a IH]; cbn [app render_all].
  - pose proof (render_no_err m b) as N. destruct (render_all m b) as [[]|]; cbn in *; auto; contradiction.
  - rewrite IH. destruct (render_all m a) as [x|], (render_all m b) as [y|]; cbn; auto. destruct (render m i) as [s|]; cbn; auto.
    destruct x; cbn; auto. destruct y; cbn; auto. now rewrite app_assoc.
  - reflexivity.
  - rewrite IH. destruct (render_all m a), (render_all m b); reflexivity.
Qed.
Definition needs_time (i : spec) : bool :=
  match i with FHour | FHourSp | FHour12 | FHour12Sp | FAmpm | FAmpmLow | FMinute | FSecond | FNanos | FTimestamp => true | _ => false end.
Definition needs_offset (i : spec) : bool := match i with FOffset => true | _ => false end.
Lemma render_none m i : render m i = None <-> needs_time i = true /\ mo_time m = None \/ needs_offset i = true /\ mo_off m = None.
Proof.
  unfold render. destruct (ymd_of_days (mo_date m)) as [[y mo] d]. destruct (mo_time m) as [[s n]|], (mo_off m) as [o|]; destruct i; cbn; split; try discriminate; try tauto;
    intros [[? ?]|[? ?]]; try discriminate; auto.
Qed.
Lemma known_letters c l : spec_of c = Known l -> (existsb needs_time l = true <-> In c time_letters) /\ (existsb needs_offset l = true <-> In c offset_letters).
Proof.
  unfold spec_of. destruct (find _ spec_table) as [[k l']|] eqn:F; [|destruct (existsb _ _); discriminate]. intros H. inv H.
  apply find_some in F as [I F]. cbn [fst] in F. apply str_eqb_eq in F. subst k.
  assert (H : forallb (fun p => match fst p with [c] => Bool.eqb (existsb needs_time (snd p)) (existsb (Z.eqb c) time_letters) && Bool.eqb (existsb needs_offset (snd p)) (existsb (Z.eqb c) offset_letters) | _ => false end) spec_table = true) by (vm_compute; reflexivity).
  rewrite forallb_forall in H. specialize (H _ I). cbn [fst snd] in H. apply andb_prop in H as [H1 H2]. apply eqb_prop in H1, H2. rewrite H1, H2.
  assert (Ex : forall s, existsb (Z.eqb c) s = true <-> In c s).
  { intros s. split; [intros T; apply existsb_exists in T as (x & T & Ex); apply Z.eqb_eq in Ex as <-; exact T|intros T; apply existsb_exists; exists c; split; [exact T|apply Z.eqb_refl]]. }
  split; apply Ex.
Qed.
Lemma render_specs m l : render_all m (map inl l) = Some Panic <-> existsb needs_time l = true /\ mo_time m = None \/ existsb needs_offset l = true /\ mo_off m = None.
Proof.
  assert (S0 : forall l, exists o, render_all m (map inl l) = Some o).
  { clear l. induction l as [|i l [o IH]]; cbn; [eauto|]. rewrite IH. eauto. }
  induction l as [|i l IH]; cbn [map render_all existsb]; [split; [discriminate|intros [[H _]|[H _]]; discriminate]|].
  destruct (S0 l) as [o So]. rewrite So in *. pose proof (render_no_err m (map inl l)) as Ne. rewrite So in Ne. cbn in Ne. rewrite !orb_true_iff.
  destruct (render m i) as [s|] eqn:Ri.
  - assert (Rn : ~ (needs_time i = true /\ mo_time m = None \/ needs_offset i = true /\ mo_off m = None)) by (rewrite <- render_none; congruence).
    destruct o as [t|e|]; cbn [obind]; [|contradiction|].
    + split; [discriminate|]. intros H. exfalso. assert (X : Some (Ok t) = Some Panic) by (apply IH; tauto). discriminate.
    + split; [intros _|reflexivity]. destruct (proj1 IH eq_refl); tauto.
  - apply render_none in Ri. split; [tauto|reflexivity].
Qed.
(** Whether one piece can be rendered. *)
Definition bad_piece (m : moment) (p : piece) : Prop :=
  match p with
  | Char _ => False
  | Dangling => True
  | Directive c => unknown c \/ In c time_letters /\ mo_time m = None \/ In c offset_letters /\ mo_off m = None
  end.
Lemma letters_apart c : (In c time_letters \/ In c offset_letters) -> ~ In c outside_letters.
Proof.
  intros H I. assert (T : forallb (fun c => negb (existsb (Z.eqb c) (time_letters ++ offset_letters))) outside_letters = true) by (vm_compute; reflexivity).
  rewrite forallb_forall in T. specialize (T _ I). apply negb_true_iff in T. assert (X : existsb (Z.eqb c) (time_letters ++ offset_letters) = true); [|congruence].
  apply existsb_exists. exists c. split; [apply in_app_iff; exact H|apply Z.eqb_refl].
Qed.
Lemma piece_render m p : (forall c, p = Directive c -> ~ In c outside_letters) ->
  (exists o, render_all m (piece_items p) = Some o) /\ (render_all m (piece_items p) = Some Panic <-> bad_piece m p).
Proof.
  intros M. destruct p as [c|c|]; cbn [piece_items bad_piece].
  - cbn. split; [eauto|]. split; [discriminate|tauto].
  - pose proof (spec_of_spec c) as Sc. destruct (spec_of c) as [l| |] eqn:K.
    + split; [|rewrite render_specs].
      * clear. induction l as [|i l [o IH]]; cbn; [eauto|]. rewrite IH. eauto.
      * destruct (known_letters _ _ K) as [K1 K2]. rewrite K1, K2. split; [auto|]. intros [U|H]; [|exact H]. exfalso. destruct Sc as [Sc _]. unfold unknown in U. tauto.
    + cbn. split; [eauto|]. tauto.
    + exfalso. exact (M c eq_refl Sc).
  - cbn. split; [eauto|tauto].
Qed.
Lemma format_cases m f l : pieces f l -> modelled l -> (exists o, render_all m (items f) = Some o) /\ (render_all m (items f) = Some Panic <-> exists p, In p l /\ bad_piece m p).
Proof.
  intros P M. rewrite (items_pieces f l P). clear P. induction l as [|p l IH]; cbn [flat_map].
  - cbn. split; [eauto|]. split; [discriminate|]. intros (p & [] & _).
  - destruct (piece_render m p) as [[o Ho] Hp]; [intros c ->; apply M; now left|]. destruct IH as [[o' Ho'] Hl]; [intros c I; apply M; now right|].
    rewrite render_app, Ho, Ho'. cbn [join2]. split; [eauto|]. rewrite Ho in Hp. rewrite Ho' in Hl. pose proof (render_no_err m (piece_items p)) as N1. pose proof (render_no_err m (flat_map piece_items l)) as N2.
    rewrite Ho in N1. rewrite Ho' in N2. cbn in N1, N2.
    assert (Q : (exists q, In q (p :: l) /\ bad_piece m q) <-> bad_piece m p \/ exists q, In q l /\ bad_piece m q).
    { split; [intros (q & [->|I] & B); eauto|intros [B|(q & I & B)]; [exists p; cbn; auto|exists q; cbn; auto]]. }
    rewrite Q, <- Hp, <- Hl. destruct o, o'; cbn; try contradiction; split; auto; try (intros [H|H]; discriminate); discriminate.
Qed.

Section Env.
Context {E : Env}.
(** Which formats panic when rendered: malformed ones; for a date without a time, those that ask for one; for a floating date-time or a date, those that ask for the
    offset. Any other format of the model is rendered. *)
Theorem C83_datetime_panics : forall f l d, pieces f l -> modelled l ->
  (exists s, dt_format d f = Some (Ok s)) /\ ~ malformed l /\ (uses offset_letters l -> exists u, d = Local u) \/
  dt_format d f = Some Panic /\ (malformed l \/ uses offset_letters l /\ exists n, d = Naive n).
Proof.
  intros f l d P M. unfold dt_format. destruct (format_cases (moment_of_datetime d) f l P M) as [[o Ho] Hp]. rewrite Ho in *.
  pose proof (render_no_err (moment_of_datetime d) (items f)) as Ne. rewrite Ho in Ne. cbn in Ne.
  assert (B : (exists p, In p l /\ bad_piece (moment_of_datetime d) p) <-> malformed l \/ uses offset_letters l /\ exists n, d = Naive n).
  { split.
    - intros (p & I & B). destruct p as [c|c|]; cbn in B; [contradiction| |left; left; exact I]. destruct B as [B|[[_ B]|[O B]]].
      + left. right. eauto.
      + exfalso. destruct d; discriminate.
      + destruct d as [n|u]; [|discriminate]. right. split; [exists c; auto|eauto].
    - intros [[I|(c & I & U)]|[(c & I & O) (n & ->)]].
      + exists Dangling. cbn. auto.
      + exists (Directive c). cbn. auto.
      + exists (Directive c). cbn. auto. }
  rewrite B in Hp. destruct o as [s|e|]; [left|contradiction|right].
  - split; [eauto|]. split; [intros Mf; assert (X : Some (Ok s) = Some Panic) by (apply Hp; auto); discriminate|]. intros U. destruct d as [n|u]; [|eauto].
    exfalso. assert (X : Some (Ok s) = Some Panic) by (apply Hp; eauto). discriminate.
  - split; [reflexivity|]. apply Hp. reflexivity.
Qed.
Theorem C83_date_panics : forall f l n, pieces f l -> modelled l ->
  (exists s, date_format (DDate n) f = Some (Ok s)) /\ ~ malformed l /\ ~ uses time_letters l /\ ~ uses offset_letters l \/
  date_format (DDate n) f = Some Panic /\ (malformed l \/ uses time_letters l \/ uses offset_letters l).
Proof.
  intros f l n P M. unfold date_format. destruct (format_cases (moment_of_date (DDate n)) f l P M) as [[o Ho] Hp]. rewrite Ho in *.
  pose proof (render_no_err (moment_of_date (DDate n)) (items f)) as Ne. rewrite Ho in Ne. cbn in Ne.
  assert (B : (exists p, In p l /\ bad_piece (moment_of_date (DDate n)) p) <-> malformed l \/ uses time_letters l \/ uses offset_letters l).
  { split.
    - intros (p & I & B). destruct p as [c|c|]; cbn in B; [contradiction| |left; left; exact I]. destruct B as [B|[[O B]|[O B]]].
      + left. right. eauto.
      + right. left. exists c. auto.
      + right. right. exists c. auto.
    - intros [[I|(c & I & U)]|[(c & I & O)|(c & I & O)]].
      + exists Dangling. cbn. auto.
      + exists (Directive c). cbn. auto.
      + exists (Directive c). cbn. auto 6.
      + exists (Directive c). cbn. auto 6. }
  rewrite B in Hp. destruct o as [s|e|]; [left|contradiction|right].
  - assert (X : ~ (malformed l \/ uses time_letters l \/ uses offset_letters l)) by (intros H; apply Hp in H; discriminate). split; [eauto|]. tauto.
  - split; [reflexivity|]. apply Hp. reflexivity.
Qed.
(** Text without [%] is kept; formats may be cut anywhere but inside a directive. *)
Theorem C83_text : forall d f, ~ In 37 f -> date_format d f = Some (Ok f).
Proof.
  intros d f. unfold date_format. induction f as [|c f IH]; intros N; [reflexivity|]. cbn [items].
  destruct (Z.eqb_spec c 37) as [->|Nc]; [exfalso; apply N; now left|]. cbn [render_all]. rewrite IH by (intros I; apply N; now right).
  unfold render. destruct (ymd_of_days _) as [[y m] dd]. reflexivity.
Qed.
Lemma pieces_app f g l l' : pieces f l -> ~ In Dangling l -> pieces g l' -> pieces (f ++ g) (l ++ l').
Proof.
  intros P. induction P as [|c f l N P IH|c f l P IH|]; intros D G; cbn [app]; auto.
  - constructor; auto. apply IH; auto. intros I. apply D. now right.
  - constructor. apply IH; auto. intros I. apply D. now right.
  - exfalso. apply D. now left.
Qed.
Theorem C83_concat : forall d f g l s t, pieces f l -> ~ In Dangling l -> date_format d f = Some (Ok s) -> date_format d g = Some (Ok t) -> date_format d (f ++ g) = Some (Ok (s ++ t)).
Proof.
  intros d f g l s t P D Hs Ht. destruct (pieces_total g) as [l' P']. unfold date_format in *. rewrite (items_pieces _ _ (pieces_app _ _ _ _ P D P')), flat_map_app, render_app.
  rewrite <- (items_pieces _ _ P), <- (items_pieces _ _ P'), Hs, Ht. reflexivity.
Qed.
(** A date-time with a zone is formatted by its wall clock, unless the offset or the timestamp is asked for. *)
Lemma render_same m m' l : mo_date m = mo_date m' -> mo_time m = mo_time m' -> (forall i, In (inl i) l -> i <> FOffset /\ i <> FTimestamp) -> render_all m l = render_all m' l.
Proof.
  intros Hd Ht. induction l as [|[i|[]] l IH]; intros N; cbn [render_all]; auto.
  - rewrite IH by (intros; apply N; now right). destruct (render_all m' l); auto. destruct (N i ltac:(now left)) as [N1 N2].
    assert (Ri : render m i = render m' i) by (unfold render; rewrite Hd, Ht; destruct i; auto; contradiction). now rewrite Ri.
  - rewrite IH; auto. intros; apply N; now right.
Qed.
Lemma zoneless l : ~ uses (lit "zs") l -> forall i, In (inl i) (flat_map piece_items l) -> i <> FOffset /\ i <> FTimestamp.
Proof.
  intros N i I. apply in_flat_map in I as (p & Ip & I). destruct p as [c|c|]; cbn [piece_items] in I.
  - destruct I as [I|[]]. inv I. split; discriminate.
  - destruct (spec_of c) as [s| |] eqn:K; [|destruct I as [I|[]]; discriminate|destruct I as [I|[]]; discriminate].
    apply in_map_iff in I as (i' & H & I). inv H. unfold spec_of in K. destruct (find _ spec_table) as [[k l']|] eqn:F; [|destruct (existsb _ _); discriminate]. inv K.
    apply find_some in F as [It F]. cbn [fst] in F. apply str_eqb_eq in F. subst k.
    assert (H : forallb (fun p => forallb (fun i => match i with FOffset | FTimestamp => match fst p with [c] => existsb (Z.eqb c) (lit "zs") | _ => false end | _ => true end) (snd p)) spec_table = true) by (vm_compute; reflexivity).
    rewrite forallb_forall in H. specialize (H _ It). cbn [fst snd] in H. rewrite forallb_forall in H. specialize (H _ I).
    split; intros ->; (apply existsb_exists in H as (x & H & Ex); apply Z.eqb_eq in Ex as <-; apply N; exists c; auto).
  - destruct I as [I|[]]; discriminate.
Qed.
Theorem C83_wall_clock : forall f l u, pieces f l -> ~ uses (lit "zs") l -> dt_format (Local u) f = dt_format (Naive (naive_local u)) f.
Proof. intros f l u P N. unfold dt_format. rewrite (items_pieces f l P). apply render_same; [reflexivity|reflexivity|]. now apply zoneless. Qed.
(** A date that can be formatted is formatted as its midnight. *)
Theorem C83_midnight : forall f n s, date_format (DDate n) f = Some (Ok s) -> dt_format (datetime_of_date (DDate n)) f = Some (Ok s).
Proof.
  intros f n s. unfold date_format, dt_format. generalize (items f). intros l. revert s. induction l as [|[i|[]] l IH]; intros s; cbn [render_all]; try discriminate; auto.
  - destruct (render_all (moment_of_date (DDate n)) l) as [[t|e|]|]; try discriminate; destruct (render _ i) as [x|] eqn:Ri; try discriminate; cbn [obind].
    intros H. inv H. rewrite (IH t eq_refl). cbn [obind].
    assert (R2 : render (moment_of_datetime (datetime_of_date (DDate n))) i = Some x); [|now rewrite R2]. rewrite <- Ri.
    unfold render in *. cbn [moment_of_date moment_of_datetime datetime_of_date mo_date mo_time mo_off midnight nd_date nd_secs nd_nano] in *.
    destruct (ymd_of_days n) as [[y m] d]. destruct i; try discriminate Ri; reflexivity.
  - destruct (render_all _ l); discriminate.
Qed.
(** [Display] is one of the formats. *)
Theorem C83_display :
  (forall n, dt_format (Naive n) (lit "%Y%m%dT%H%M%S") = Some (Ok (dt_show (Naive n)))) /\
  (forall u, dt_format (Local u) (lit "%Y%m%dT%H%M%SZ") = Some (Ok (dt_show (Local u)))) /\
  (forall n, date_format (DDate n) (lit "%Y%m%d") = Some (Ok (date_str (DDate n)))).
Proof.
  split; [|split].
  - intros n. unfold dt_format. change (items (lit "%Y%m%dT%H%M%S")) with [@inl spec bool FYear; inl FMonth; inl FDay; inl (FText [84]); inl FHour; inl FMinute; inl FSecond].
    cbn [render_all]. unfold render. cbn [moment_of_datetime mo_date mo_time]. unfold dt_show, ndt_show, date_show, time_show. destruct (ymd_of_days (nd_date n)) as [[y m] d]. cbn [obind].
    rewrite <- ?app_assoc. repeat match goal with |- context [?x ++ []] => rewrite (app_nil_r x) end. reflexivity.
  - intros u. unfold dt_format. change (items (lit "%Y%m%dT%H%M%SZ")) with [@inl spec bool FYear; inl FMonth; inl FDay; inl (FText [84]); inl FHour; inl FMinute; inl FSecond; inl (FText [90])].
    cbn [render_all]. unfold render. cbn [moment_of_datetime mo_date mo_time]. unfold dt_show, ndt_show, date_show, time_show. destruct (ymd_of_days (nd_date (naive_local u))) as [[y m] d]. cbn [obind].
    rewrite <- ?app_assoc. repeat match goal with |- context [?x ++ []] => rewrite (app_nil_r x) end. reflexivity.
  - intros n. unfold date_format. change (items (lit "%Y%m%d")) with [@inl spec bool FYear; inl FMonth; inl FDay].
    cbn [render_all]. unfold render. cbn [moment_of_date mo_date mo_time]. unfold date_str, date_show. destruct (ymd_of_days n) as [[y m] d]. cbn [obind]. rewrite ?app_nil_r. reflexivity.
Qed.
End Env.

(** ** The fields *)
Lemma render_directive c i m : spec_of c = Known [i] -> render_all m (items [37; c]) = match render m i with Some s => Some (Ok s) | None => Some Panic end.
Proof.
  intros K. cbn [items]. rewrite Z.eqb_refl, K. cbn [map app render_all obind]. destruct (render m i); [now rewrite app_nil_r|reflexivity].
Qed.
Lemma digits_head fuel : forall n acc, 0 < n < 2 ^ Z.of_nat fuel -> exists c r, digits_fuel fuel n acc = c :: r /\ c <> 48.
Proof.
  induction fuel as [|f IH]; intros n acc H; [cbn in H; lia|]. cbn [digits_fuel].
  pose proof (Z.div_mod n 10 ltac:(lia)) as Dm. pose proof (Z.mod_pos_bound n 10 ltac:(lia)) as Bm. destruct (Z.eqb_spec (n / 10) 0) as [Q|Q].
  - eexists _, _. split; [reflexivity|]. lia.
  - apply IH. rewrite Nat2Z.inj_succ, Z.pow_succ_r in H by lia. lia.
Qed.
Lemma show_nat_canonical n : 0 <= n -> hd 0 (show_nat n) = 48 -> show_nat n = [48].
Proof.
  intros H Q. destruct (Z.eq_dec n 0) as [->|N]; [reflexivity|]. pose proof (show_nat_fuel n H) as F. unfold show_nat in *.
  destruct (digits_head _ n [] ltac:(split; [lia|apply F])) as (c & r & Hc & Nc). rewrite Hc in Q. cbn in Q. congruence.
Qed.
Lemma decimal_nat n : 0 <= n -> decimal n (show_nat n).
Proof.
  intros H. destruct (show_nat_decimal n H) as (A & B & C). split; [exact A|]. split; [exact B|]. split; [exact C|].
  apply show_nat_canonical. exact H.
Qed.
Lemma aligned n : 0 <= n < 100 -> right_aligned n (show_space 2 n).
Proof.
  intros H. exists (show_nat n). split; [apply decimal_nat; lia|]. pose proof (show_nat_length n 2 ltac:(cbn; lia) ltac:(lia)) as L. pose proof (show_nat_nonnil n) as N.
  unfold show_space. destruct (show_nat n) as [|a [|b [|c r]]]; cbn in *; try congruence; try lia; auto.
Qed.
(** Day of the year and of the week. *)
Lemma nth_day k : forall n y m d, (Z.to_nat (n - days_of_ymd y 1 1) = k)%nat -> ymd_of_days n = (y, m, d) -> day_of_year (y, m, d) (n - days_of_ymd y 1 1 + 1).
Proof.
  destruct C18_gregorian_calendar as (G1 & G2 & G3 & _ & G5).
  induction k as [|k IH]; intros n y m d K H; destruct (valid_of_days _ _ _ _ H) as [V D]; pose proof (G1 _ _ _ _ H) as [Gr _].
  - assert (J : ymd_of_days (days_of_ymd y 1 1) = (y, 1, 1)) by (apply ymd_of_days_of_ymd; reflexivity).
    assert (L : days_of_ymd y 1 1 <= n) by (destruct (Z.le_gt_cases (days_of_ymd y 1 1) n) as [L|L]; [exact L|]; apply G5 in L; rewrite J, H in L; apply valid_ymd_iff in V; cbn in L; lia).
    assert (n = days_of_ymd y 1 1) by lia. rewrite <- H. rewrite H0 at 1. rewrite J. replace (n - days_of_ymd y 1 1 + 1) with 1 by lia. constructor.
  - destruct (ymd_of_days (n - 1)) as [[y' m'] d'] eqn:H'. pose proof (G3 (n - 1)) as Nx. replace (n - 1 + 1) with n in Nx by lia. rewrite H, H' in Nx.
    assert (J : ymd_of_days (days_of_ymd y 1 1) = (y, 1, 1)) by (apply ymd_of_days_of_ymd; reflexivity).
    assert (Y1 : y' <= y) by (assert (L : n - 1 < n) by lia; apply G5 in L; rewrite H, H' in L; cbn in L; lia).
    assert (Y2 : y <= y').
    { destruct (Z.eq_dec (n - 1) (days_of_ymd y 1 1)) as [Q|Q]; [rewrite Q, J in H'; inv H'; lia|].
      assert (L : days_of_ymd y 1 1 < n - 1) by lia. apply G5 in L. rewrite J, H' in L. cbn in L. lia. }
    assert (y' = y) by lia. subst y'. replace (n - days_of_ymd y 1 1 + 1) with ((n - 1 - days_of_ymd y 1 1 + 1) + 1) by lia.
    eapply day_after; [|exact Nx]. apply IH; [lia|exact H'].
Qed.
Lemma year_days n y m d : ymd_of_days n = (y, m, d) -> 1 <= n - days_of_ymd y 1 1 + 1 <= 366.
Proof.
  intros H. destruct C18_gregorian_calendar as (_ & _ & _ & _ & G5). destruct (valid_of_days _ _ _ _ H) as [V _]. apply valid_ymd_iff in V as [M D].
  assert (J : forall y, ymd_of_days (days_of_ymd y 1 1) = (y, 1, 1)) by (intros; apply ymd_of_days_of_ymd; reflexivity).
  assert (L : ~ n < days_of_ymd y 1 1) by (intros L; apply G5 in L; rewrite J, H in L; cbn in L; lia).
  assert (U : n < days_of_ymd (y + 1) 1 1) by (apply G5; rewrite J, H; cbn; lia).
  pose proof (days_before_succ (y - 1)) as Q. replace (y - 1 + 1) with y in Q by lia.
  revert L U. unfold days_of_ymd. change (1 <=? 2) with true. cbv iota. replace (y + 1 - 1) with y by lia. rewrite Q. destruct (is_leap y); lia.
Qed.
Lemma day_of_week n : falls_on (ymd_of_days n) (from_sunday n).
Proof.
  destruct C18_gregorian_calendar as (_ & _ & G3 & G4 & _). unfold from_sunday.
  destruct (Z_le_gt_dec 0 n) as [H|H].
  - revert n H. apply natlike_ind; [rewrite G4; constructor|]. intros x Hx IH. pose proof (tomorrow _ _ _ IH (G3 x)) as T. unfold Z.succ.
    replace ((x + 1 + 4) mod 7) with (((x + 4) mod 7 + 1) mod 7); [exact T|]. rewrite Zplus_mod_idemp_l. f_equal. lia.
  - replace n with (- (- n)) by lia. assert (H' : 0 <= - n) by lia. revert H'. generalize (- n). clear n H. apply natlike_ind; [change (- 0) with 0; rewrite G4; constructor|].
    intros x Hx IH. pose proof (G3 (- Z.succ x)) as Nx. replace (- Z.succ x + 1) with (- x) in Nx by lia. pose proof (yesterday _ _ _ IH Nx) as T.
    replace ((- Z.succ x + 4) mod 7) with (((- x + 4) mod 7 - 1) mod 7); [exact T|]. rewrite Zminus_mod_idemp_l. f_equal. lia.
Qed.
Lemma nth_week f k : 0 <= f < 7 -> forall n y m d, (Z.to_nat (n - days_of_ymd y 1 1) = k)%nat -> ymd_of_days n = (y, m, d) -> week_of_year f (y, m, d) (weeks_from f n).
Proof.
  intros F. destruct C18_gregorian_calendar as (G1 & G2 & G3 & _ & G5).
  induction k as [|k IH]; intros n y m d K H; destruct (valid_of_days _ _ _ _ H) as [V D]; pose proof (G1 _ _ _ _ H) as [Gr _];
    pose proof (day_of_week n) as W; rewrite H in W; unfold weeks_from, date_year; rewrite H; cbn [fst snd].
  - assert (J : ymd_of_days (days_of_ymd y 1 1) = (y, 1, 1)) by (apply ymd_of_days_of_ymd; reflexivity).
    assert (L : days_of_ymd y 1 1 <= n) by (destruct (Z.le_gt_cases (days_of_ymd y 1 1) n) as [L|L]; [exact L|]; apply G5 in L; rewrite J, H in L; apply valid_ymd_iff in V; cbn in L; lia).
    assert (Q : n = days_of_ymd y 1 1) by lia. rewrite <- Q in J. rewrite H in J. injection J as -> ->. rewrite <- Q, Z.sub_diag.
    pose proof (week_of_new_year f y _ W) as R. assert (B : 0 <= from_sunday n < 7) by (apply Z.mod_pos_bound; lia). revert R.
    generalize (from_sunday n) B. intros w Bw R. destruct (Z.eqb_spec w f) as [->|Nw].
    + rewrite Z.sub_diag. exact R.
    + assert (X : 1 <= (w - f) mod 7 < 7) by (pose proof (Z.mod_pos_bound (w - f) 7 ltac:(lia)); pose proof (Z.div_mod (w - f) 7 ltac:(lia)); lia).
      replace ((0 + 1 - (w - f) mod 7 + 6) / 7) with 0; [exact R|]. symmetry. apply Z.div_small. lia.
  - destruct (ymd_of_days (n - 1)) as [[y' m'] d'] eqn:H'. pose proof (G3 (n - 1)) as Nx. replace (n - 1 + 1) with n in Nx by lia. rewrite H, H' in Nx.
    assert (J : ymd_of_days (days_of_ymd y 1 1) = (y, 1, 1)) by (apply ymd_of_days_of_ymd; reflexivity).
    assert (Y1 : y' <= y) by (assert (L : n - 1 < n) by lia; apply G5 in L; rewrite H, H' in L; cbn in L; lia).
    assert (Y2 : y <= y').
    { destruct (Z.eq_dec (n - 1) (days_of_ymd y 1 1)) as [Q|Q]; [rewrite Q, J in H'; inv H'; lia|].
      assert (L : days_of_ymd y 1 1 < n - 1) by lia. apply G5 in L. rewrite J, H' in L. cbn in L. lia. }
    assert (y' = y) by lia. subst y'. pose proof (week_after f _ _ _ _ _ _ _ (IH (n - 1) y m' d' ltac:(lia) H') Nx W) as R. revert R. unfold weeks_from, date_year. rewrite H'. cbn [fst snd].
    unfold from_sunday. generalize (days_of_ymd y 1 1). intros j. clear -F.
    pose proof (Z.div_mod (n + 4) 7 ltac:(lia)). pose proof (Z.mod_pos_bound (n + 4) 7 ltac:(lia)).
    pose proof (Z.div_mod (n - 1 + 4) 7 ltac:(lia)). pose proof (Z.mod_pos_bound (n - 1 + 4) 7 ltac:(lia)).
    set (w := (n + 4) mod 7) in *. set (w0 := (n - 1 + 4) mod 7) in *.
    pose proof (Z.div_mod (w - f) 7 ltac:(lia)). pose proof (Z.mod_pos_bound (w - f) 7 ltac:(lia)).
    pose proof (Z.div_mod (w0 - f) 7 ltac:(lia)). pose proof (Z.mod_pos_bound (w0 - f) 7 ltac:(lia)).
    set (a := (w - f) mod 7) in *. set (a0 := (w0 - f) mod 7) in *.
    destruct (Z.eqb_spec w f) as [Ew|Nw]; intros R.
    + replace ((n - j + 1 - a + 6) / 7) with ((n - 1 - j + 1 - a0 + 6) / 7 + 1); [exact R|].
      assert (a = 0) by lia. assert (a0 = 6) by lia. rewrite <- Z.div_add by lia. f_equal. lia.
    + replace ((n - j + 1 - a + 6) / 7) with ((n - 1 - j + 1 - a0 + 6) / 7); [exact R|]. f_equal. lia.
Qed.

Section Fields.
Context {E : Env}.
(** Formatting [x] with [f] gives a text that is [P]. *)
Definition gives (x : date) (f : str) (P : str -> Prop) : Prop := exists s, date_format x f = Some (Ok s) /\ P s.
Lemma gives_one x c i s (P : str -> Prop) : spec_of c = Known [i] -> render (moment_of_date x) i = Some s -> P s -> gives x [37; c] P.
Proof. intros K R0 Q. exists s. split; [|exact Q]. unfold date_format. rewrite (render_directive c i _ K), R0. reflexivity. Qed.
Lemma moment_day x : mo_date (moment_of_date x) = date_naive x.
Proof. destruct x as [n|[n|u]]; reflexivity. Qed.
Lemma month_name m : 1 <= m <= 12 -> exists t, nth_error months (Z.to_nat (m - 1)) = Some t /\ nth (Z.to_nat (m - 1)) month_names [] = lit t /\ firstn 3 (nth (Z.to_nat (m - 1)) month_names []) = lit (substring 0 3 t).
Proof.
  intros H. destruct (m_cases m H) as [Q|Q]; repeat (destruct Q as [Q|Q]); subst m; (eexists; split; [reflexivity|split; vm_compute; reflexivity]).
Qed.
Lemma weekday_name w : 0 <= w < 7 -> exists t, nth_error weekdays (Z.to_nat w) = Some t /\ nth (Z.to_nat w) weekday_long [] = lit t /\ firstn 3 (nth (Z.to_nat w) weekday_long []) = lit (substring 0 3 t).
Proof.
  intros H. assert (Q : w = 0 \/ w = 1 \/ w = 2 \/ w = 3 \/ w = 4 \/ w = 5 \/ w = 6) by lia.
  repeat (destruct Q as [Q|Q]); subst w; (eexists; split; [reflexivity|split; vm_compute; reflexivity]).
Qed.
(** The fields of the date: those of the day on the wall clock. *)
Theorem C83_date_fields : forall x y m d, ymd_of_days (date_naive x) = (y, m, d) -> 0 <= y <= 9999 ->
  gives x (lit "%Y") (padded 4 y) /\ gives x (lit "%y") (padded 2 (y mod 100)) /\ gives x (lit "%m") (padded 2 m) /\
  gives x (lit "%d") (padded 2 d) /\ gives x (lit "%e") (right_aligned d) /\
  gives x (lit "%B") (fun s => exists t, nth_error months (Z.to_nat (m - 1)) = Some t /\ s = lit t) /\
  gives x (lit "%b") (fun s => exists t, nth_error months (Z.to_nat (m - 1)) = Some t /\ s = lit (substring 0 3 t)) /\
  gives x (lit "%j") (fun s => exists k, day_of_year (y, m, d) k /\ padded 3 k s) /\
  exists w, falls_on (y, m, d) w /\ 0 <= w < 7 /\
  gives x (lit "%w") (decimal w) /\ gives x (lit "%u") (decimal (if w =? 0 then 7 else w)) /\
  gives x (lit "%A") (fun s => exists t, nth_error weekdays (Z.to_nat w) = Some t /\ s = lit t) /\
  gives x (lit "%a") (fun s => exists t, nth_error weekdays (Z.to_nat w) = Some t /\ s = lit (substring 0 3 t)).
Proof.
  intros x y m d H Hy. pose proof (month_range _ _ _ _ H) as [M D]. pose proof (year_days _ _ _ _ H) as Yd.
  pose proof (nth_day _ _ _ _ _ eq_refl H) as Nd. pose proof (day_of_week (date_naive x)) as W. rewrite H in W.
  assert (Wb : 0 <= from_sunday (date_naive x) < 7) by (apply Z.mod_pos_bound; lia).
  destruct (month_name m M) as (t & T1 & T2 & T3). destruct (weekday_name _ Wb) as (v & V1 & V2 & V3).
  assert (K : forall c i s (P : str -> Prop), spec_of c = Known [i] -> render (moment_of_date x) i = Some s -> P s -> gives x [37; c] P) by (intros; eapply gives_one; eauto).
  assert (Rd : forall i s, (let '(y, m, d) := (y, m, d) in match i with
     | FYear => Some (show_year y) | FYear2 => Some (show_pad 2 (y mod 100)) | FMonth => Some (show_pad 2 m)
     | FMonthName => Some (nth (Z.to_nat (m - 1)) month_names []) | FMonthShort => Some (firstn 3 (nth (Z.to_nat (m - 1)) month_names []))
     | FDay => Some (show_pad 2 d) | FDaySp => Some (show_space 2 d)
     | FWeekdayName => Some (nth (Z.to_nat (from_sunday (date_naive x))) weekday_long [])
     | FWeekdayShort => Some (firstn 3 (nth (Z.to_nat (from_sunday (date_naive x))) weekday_long []))
     | FFromSunday => Some (show_nat (from_sunday (date_naive x)))
     | FFromMonday => Some (show_nat (let w := from_sunday (date_naive x) in if w =? 0 then 7 else w))
     | FOrdinal => Some (show_pad 3 (date_naive x - days_of_ymd y 1 1 + 1)) | _ => None end) = Some s -> render (moment_of_date x) i = Some s).
  { intros i s Q. unfold render. rewrite moment_day, H. destruct i; try discriminate Q; exact Q. }
  assert (Y4 : show_year y = show_pad 4 y) by (unfold show_year; destruct (Z.leb_spec 0 y), (Z.ltb_spec y 10000); try lia; reflexivity).
  pose proof (Z.mod_pos_bound y 100 ltac:(lia)) as Y2.
  split; [|split; [|split; [|split; [|split; [|split; [|split; [|split]]]]]]].
  - eapply (K 89 FYear); [reflexivity|apply Rd; reflexivity|]. rewrite Y4. apply show_pad_padded; cbn; lia.
  - eapply (K 121 FYear2); [reflexivity|apply Rd; reflexivity|]. apply show_pad_padded; cbn; lia.
  - eapply (K 109 FMonth); [reflexivity|apply Rd; reflexivity|]. apply show_pad_padded; cbn; lia.
  - eapply (K 100 FDay); [reflexivity|apply Rd; reflexivity|]. apply show_pad_padded; cbn; lia.
  - eapply (K 101 FDaySp); [reflexivity|apply Rd; reflexivity|]. apply aligned; lia.
  - eapply (K 66 FMonthName); [reflexivity|apply Rd; reflexivity|]. eauto.
  - eapply (K 98 FMonthShort); [reflexivity|apply Rd; reflexivity|]. eauto.
  - eapply (K 106 FOrdinal); [reflexivity|apply Rd; reflexivity|]. eexists. split; [exact Nd|]. apply show_pad_padded; cbn; lia.
  - exists (from_sunday (date_naive x)). split; [exact W|]. split; [exact Wb|]. split; [|split; [|split]].
    + eapply (K 119 FFromSunday); [reflexivity|apply Rd; reflexivity|]. apply decimal_nat; lia.
    + eapply (K 117 FFromMonday); [reflexivity|apply Rd; reflexivity|]. cbv zeta. apply decimal_nat. destruct (Z.eqb_spec (from_sunday (date_naive x)) 0); lia.
    + eapply (K 65 FWeekdayName); [reflexivity|apply Rd; reflexivity|]. eauto.
    + eapply (K 97 FWeekdayShort); [reflexivity|apply Rd; reflexivity|]. eauto.
Qed.
(** The number of the week: weeks begin on Sunday for [%U], on Monday for [%W], and the days before the first of them are in week 0. *)
Theorem C83_weeks : forall x y m d, ymd_of_days (date_naive x) = (y, m, d) ->
  gives x (lit "%U") (fun s => exists k, 0 <= k <= 53 /\ week_of_year 0 (y, m, d) k /\ padded 2 k s) /\
  gives x (lit "%W") (fun s => exists k, 0 <= k <= 53 /\ week_of_year 1 (y, m, d) k /\ padded 2 k s).
Proof.
  intros x y m d H. pose proof (year_days _ _ _ _ H) as Yd.
  assert (G : forall f c i, 0 <= f < 7 -> spec_of c = Known [i] -> render (moment_of_date x) i = Some (show_pad 2 (weeks_from f (date_naive x))) ->
    gives x [37; c] (fun s => exists k, 0 <= k <= 53 /\ week_of_year f (y, m, d) k /\ padded 2 k s)).
  { intros f c i F K R. eapply gives_one; [exact K|exact R|]. assert (B : 0 <= weeks_from f (date_naive x) <= 53).
    { unfold weeks_from, date_year. rewrite H. cbn [fst snd]. revert Yd. generalize (days_of_ymd y 1 1). intros j Yd. pose proof (Z.mod_pos_bound (from_sunday (date_naive x) - f) 7 ltac:(lia)) as M.
      revert M. generalize ((from_sunday (date_naive x) - f) mod 7). intros a M. split; [apply Z.div_pos; lia|]. apply Z.lt_succ_r, Z.div_lt_upper_bound; lia. }
    eexists. split; [exact B|]. split; [eapply nth_week; [exact F|reflexivity|exact H]|]. apply show_pad_padded; cbn; lia. }
  split; [eapply (G 0 85 FWeekSunday)|eapply (G 1 87 FWeekMonday)]; try lia; try reflexivity; unfold render; rewrite moment_day, H; reflexivity.
Qed.
(** The weeks of ISO 8601, from Monday to Sunday: a week is of the year that its Thursday is in, and week [k] is that of the [k]-th Thursday of the year. *)
Theorem C83_iso_weeks : forall x, exists thursday y m d o k,
  thursday - 3 <= date_naive x <= thursday + 3 /\ ymd_of_days thursday = (y, m, d) /\ falls_on (y, m, d) 4 /\
  day_of_year (y, m, d) o /\ 7 * (k - 1) < o <= 7 * k /\ 1 <= k <= 53 /\
  gives x (lit "%V") (padded 2 k) /\ gives x (lit "%g") (padded 2 (y mod 100)) /\ (0 <= y <= 9999 -> gives x (lit "%G") (padded 4 y)).
Proof.
  intros x. set (n := date_naive x). set (t := iso_thursday n). destruct (ymd_of_days t) as [[y m] d] eqn:H.
  pose proof (year_days _ _ _ _ H) as Yd. pose proof (nth_day _ _ _ _ _ eq_refl H) as Nd. pose proof (day_of_week t) as W. rewrite H in W.
  assert (Iy : iso_year n = y) by (unfold iso_year, date_year; fold t; rewrite H; reflexivity).
  assert (Iw : iso_week n = (t - days_of_ymd y 1 1) / 7 + 1) by (unfold iso_week; rewrite Iy; reflexivity).
  assert (Tn : t - 3 <= n <= t + 3 /\ from_sunday t = 4).
  { unfold t, iso_thursday, from_sunday. pose proof (Z.div_mod (n + 4) 7 ltac:(lia)). pose proof (Z.mod_pos_bound (n + 4) 7 ltac:(lia)). set (w := (n + 4) mod 7) in *.
    pose proof (Z.div_mod (w - 1) 7 ltac:(lia)). pose proof (Z.mod_pos_bound (w - 1) 7 ltac:(lia)). set (a := (w - 1) mod 7) in *.
    split; [lia|]. symmetry. apply (Z.mod_unique _ _ ((n + 4) / 7 - (w - 1) / 7 * -1)); lia. }
  destruct Tn as [Tn Tw]. rewrite Tw in W. revert Yd Nd Iw. generalize (days_of_ymd y 1 1). intros j Yd Nd Iw.
  pose proof (Z.div_mod (t - j) 7 ltac:(lia)) as Dm. pose proof (Z.mod_pos_bound (t - j) 7 ltac:(lia)) as Mb.
  exists t, y, m, d, (t - j + 1), (iso_week n). repeat (split; [first [assumption|lia]|]).
  assert (K : 1 <= iso_week n <= 53) by lia.
  assert (G : forall c i s (P : str -> Prop), spec_of c = Known [i] -> render (moment_of_date x) i = Some s -> P s -> gives x [37; c] P) by (intros; eapply gives_one; eauto).
  pose proof (Z.mod_pos_bound y 100 ltac:(lia)) as Y2. split; [|split].
  - eapply (G 86 FIsoWeek); [reflexivity|unfold render; rewrite moment_day; fold n; destruct (ymd_of_days n) as [[? ?] ?]; reflexivity|]. apply show_pad_padded; cbn; lia.
  - eapply (G 103 FIsoYear2); [reflexivity|unfold render; rewrite moment_day; fold n; rewrite Iy; destruct (ymd_of_days n) as [[? ?] ?]; reflexivity|]. apply show_pad_padded; cbn; lia.
  - intros Hy. eapply (G 71 FIsoYear); [reflexivity|unfold render; rewrite moment_day; fold n; rewrite Iy; destruct (ymd_of_days n) as [[? ?] ?]; reflexivity|].
    assert (Y4 : show_year y = show_pad 4 y) by (unfold show_year; destruct (Z.leb_spec 0 y), (Z.ltb_spec y 10000); try lia; reflexivity).
    rewrite Y4. apply show_pad_padded; cbn; lia.
Qed.
(** The fields of the time: those of the wall clock; a leap second is second 60. *)
Theorem C83_time_fields : forall t h mi se ns, let n := dt_naive t in
  nd_secs n = 3600 * h + 60 * mi + se -> nd_nano n = ns -> 0 <= h < 24 -> 0 <= mi < 60 -> 0 <= se < 60 -> 0 <= ns < 2000000000 ->
  let x := DDateTime t in
  gives x (lit "%H") (padded 2 h) /\ gives x (lit "%k") (right_aligned h) /\ gives x (lit "%M") (padded 2 mi) /\
  gives x (lit "%S") (padded 2 (if ns <? 1000000000 then se else se + 1)) /\
  gives x (lit "%f") (padded 9 (if ns <? 1000000000 then ns else ns - 1000000000)) /\
  gives x (lit "%p") (fun s => s = lit (if h <? 12 then "AM" else "PM")) /\ gives x (lit "%P") (fun s => s = lit (if h <? 12 then "am" else "pm")) /\
  exists h12, 1 <= h12 <= 12 /\ divides 12 (h - h12) /\ gives x (lit "%I") (padded 2 h12) /\ gives x (lit "%l") (right_aligned h12).
Proof.
  intros t h mi se ns n Hs Hn Hh Hm He Hns x.
  assert (Mt : mo_time (moment_of_date x) = Some (nd_secs n, ns)) by (unfold x, n; rewrite <- Hn; destruct t; reflexivity).
  assert (Q1 : nd_secs n / 3600 = h) by (symmetry; apply (Z.div_unique _ _ _ (60 * mi + se)); lia).
  assert (Q2 : nd_secs n / 60 mod 60 = mi).
  { assert (D : nd_secs n / 60 = 60 * h + mi) by (symmetry; apply (Z.div_unique _ _ _ se); lia). rewrite D. symmetry. apply (Z.mod_unique _ _ h); lia. }
  assert (Q3 : nd_secs n mod 60 = se) by (symmetry; apply (Z.mod_unique _ _ (60 * h + mi)); lia).
  assert (Q4 : ns / NANOS = if ns <? 1000000000 then 0 else 1).
  { unfold NANOS. destruct (Z.ltb_spec ns 1000000000); [apply Z.div_small; lia|]. symmetry. apply (Z.div_unique _ _ _ (ns - 1000000000)); lia. }
  assert (Q5 : ns mod NANOS = if ns <? 1000000000 then ns else ns - 1000000000).
  { unfold NANOS. destruct (Z.ltb_spec ns 1000000000); [apply Z.mod_small; lia|]. symmetry. apply (Z.mod_unique _ _ 1); lia. }
  assert (Rt : forall i s, match i with
     | FHour => Some (show_pad 2 h) | FHourSp => Some (show_space 2 h) | FMinute => Some (show_pad 2 mi)
     | FSecond => Some (show_pad 2 (if ns <? 1000000000 then se else se + 1)) | FNanos => Some (show_pad 9 (if ns <? 1000000000 then ns else ns - 1000000000))
     | FAmpm => Some (if h <? 12 then lit "AM" else lit "PM") | FAmpmLow => Some (if h <? 12 then lit "am" else lit "pm")
     | FHour12 => Some (show_pad 2 (hour12 (nd_secs n))) | FHour12Sp => Some (show_space 2 (hour12 (nd_secs n))) | _ => None end = Some s -> render (moment_of_date x) i = Some s).
  { intros i s Q. unfold render. destruct (ymd_of_days _) as [[y m] d]. rewrite Mt. destruct i; try discriminate Q; rewrite <- Q; rewrite ?Q1, ?Q2, ?Q3, ?Q4, ?Q5; auto.
    destruct (ns <? 1000000000); do 2 f_equal; lia. }
  assert (H12 : 1 <= hour12 (nd_secs n) <= 12 /\ divides 12 (h - hour12 (nd_secs n))).
  { unfold hour12. rewrite Q1. cbv zeta. pose proof (Z.div_mod h 12 ltac:(lia)) as Dm. pose proof (Z.mod_pos_bound h 12 ltac:(lia)).
    destruct (Z.eqb_spec (h mod 12) 0) as [Z0|Z0]; (split; [lia|]); [exists (h / 12 - 1)|exists (h / 12)]; lia. }
  assert (K : forall c i s (P : str -> Prop), spec_of c = Known [i] -> render (moment_of_date x) i = Some s -> P s -> gives x [37; c] P) by (intros; eapply gives_one; eauto).
  clearbody n. split; [|split; [|split; [|split; [|split; [|split; [|split]]]]]].
  - eapply (K 72 FHour); [reflexivity|apply Rt; reflexivity|]. apply show_pad_padded; cbn; lia.
  - eapply (K 107 FHourSp); [reflexivity|apply Rt; reflexivity|]. apply aligned; lia.
  - eapply (K 77 FMinute); [reflexivity|apply Rt; reflexivity|]. apply show_pad_padded; cbn; lia.
  - eapply (K 83 FSecond); [reflexivity|apply Rt; reflexivity|]. destruct (ns <? 1000000000); apply show_pad_padded; cbn; lia.
  - eapply (K 102 FNanos); [reflexivity|apply Rt; reflexivity|]. destruct (Z.ltb_spec ns 1000000000); apply show_pad_padded; change (10 ^ Z.of_nat 9) with 1000000000; lia.
  - eapply (K 112 FAmpm); [reflexivity|apply Rt; reflexivity|]. destruct (h <? 12); reflexivity.
  - eapply (K 80 FAmpmLow); [reflexivity|apply Rt; reflexivity|]. destruct (h <? 12); reflexivity.
  - exists (hour12 (nd_secs n)). destruct H12 as [A B]. split; [exact A|]. split; [exact B|]. split.
    + eapply (K 73 FHour12); [reflexivity|apply Rt; reflexivity|]. apply show_pad_padded; cbn; lia.
    + eapply (K 108 FHour12Sp); [reflexivity|apply Rt; reflexivity|]. apply aligned; lia.
Qed.
(** The offset; and the number of seconds since 1970: of a date-time with a zone, that of the instant, whatever the zone. *)
Theorem C83_offset : forall u, Z.abs (tz_offset (ndt_ts u)) < 86400 -> gives (DDateTime (Local u)) (lit "%z") (offset_text (tz_offset (ndt_ts u))).
Proof.
  intros u H. eapply (gives_one _ 122 FOffset); [reflexivity| |].
  - unfold render. destruct (ymd_of_days _) as [[y m] d]. reflexivity.
  - remember (tz_offset (ndt_ts u)) as o eqn:Eo. clear Eo. unfold offset_item, offset_text. set (k := (Z.abs o + 30) / 60).
    assert (Bk : 60 * k <= Z.abs o + 30 < 60 * k + 60) by (unfold k; pose proof (Z.div_mod (Z.abs o + 30) 60 ltac:(lia)); pose proof (Z.mod_pos_bound (Z.abs o + 30) 60 ltac:(lia)); lia).
    pose proof (Z.div_mod k 60 ltac:(lia)) as Dk. pose proof (Z.mod_pos_bound k 60 ltac:(lia)) as Mk.
    exists (k / 60), (k mod 60), (show_pad 2 (k / 60)), (show_pad 2 (k mod 60)). split; [lia|]. split; [exact Mk|]. split; [reflexivity|].
    split; [apply show_pad_padded; cbn; lia|]. split; [apply show_pad_padded; cbn; lia|]. lia.
Qed.
Lemma integer_show n : integer n (show_int n).
Proof. unfold show_int, integer. destruct (Z.ltb_spec n 0); [right|left]; (split; [assumption|]); [eexists; split; [reflexivity|]|]; apply decimal_nat; lia. Qed.
Theorem C83_timestamp : (forall n, gives (DDateTime (Naive n)) (lit "%s") (integer (ndt_ts n))) /\ (forall u, gives (DDateTime (Local u)) (lit "%s") (integer (ndt_ts u))).
Proof.
  split.
  - intros n. eapply (gives_one _ 115 FTimestamp); [reflexivity| |apply integer_show]. unfold render. destruct (ymd_of_days _) as [[y m] d].
    cbn [moment_of_date moment_of_datetime mo_time mo_date mo_off]. unfold ndt_ts. do 2 f_equal. lia.
  - intros u. eapply (gives_one _ 115 FTimestamp); [reflexivity| |apply integer_show]. unfold render. destruct (ymd_of_days _) as [[y m] d].
    cbn [moment_of_date moment_of_datetime mo_time mo_date mo_off]. unfold naive_local, ndt_shift, ndt_ts. cbn [nd_date nd_secs]. do 2 f_equal.
    match goal with |- context [?a / 86400] => pose proof (Z.div_mod a 86400 ltac:(lia)) end. lia.
Qed.
(** The abbreviations. *)
Theorem C83_abbreviations : forall x f, In f [("%F", "%Y-%m-%d"); ("%D", "%m/%d/%y"); ("%x", "%D"); ("%T", "%H:%M:%S"); ("%X", "%T"); ("%R", "%H:%M"); ("%h", "%b");
    ("%r", "%I:%M:%S %p"); ("%c", "%a %b %e %T %Y"); ("%v", "%e-%b-%Y")]%string ->
  date_format x (lit (fst f)) = date_format x (lit (snd f)).
Proof. intros x f I. repeat (destruct I as [<-|I]; [reflexivity|]). destruct I. Qed.
End Fields.

(** Thursday 29 February 2024, 13:04:05, and the same wall clock in a zone ahead of UTC. *)
Example C83_nonvacuous :
  let n := mk_ndt 19782 47045 0 in
  let x := DDateTime (Naive n) in
  pieces (lit "on %A %d%%") (map Char (lit "on ") ++ [Directive 65; Char 32; Directive 100; Directive 37]) /\
  @date_format env_east x (lit "on %A %d%%") = Some (Ok (lit "on Thursday 29%")) /\
  @date_format env_east (DDate 19782) (lit "%F %j %H") = Some Panic /\
  @date_format env_east x (lit "%H%z") = Some Panic /\ @date_format env_east x (lit "%H%") = Some Panic /\ @date_format env_east x (lit "%Q") = Some Panic /\
  @date_format env_east x (lit "%I:%M %p, %j, %s") = Some (Ok (lit "01:04 PM, 060, 1709211845")) /\
  @date_format env_east (DDateTime (Local n)) (lit "%T %z %s") = Some (Ok (lit "14:04:05 +0100 1709211845")) /\
  @date_format env_east x (lit "%C") = None.
Proof.
  cbv zeta. split; [repeat (constructor; [vm_compute; discriminate|]); repeat constructor; vm_compute; discriminate|].
  repeat match goal with |- _ /\ _ => split end; vm_compute; reflexivity.
Qed.
(** 1 January 2023 was a Sunday, 1 January 2024 a Monday; 1 January 2022, a Saturday, is in no week. *)
Example C83_nonvacuous_weeks :
  @date_format env_east (DDate (days_of_ymd 2023 1 1)) (lit "%U %W") = Some (Ok (lit "01 00")) /\
  @date_format env_east (DDate (days_of_ymd 2024 1 1)) (lit "%U %W") = Some (Ok (lit "00 01")) /\
  @date_format env_east (DDate (days_of_ymd 2022 1 1)) (lit "%U %W") = Some (Ok (lit "00 00")) /\
  @date_format env_east (DDate (days_of_ymd 2024 12 31)) (lit "%U %W %v") = Some (Ok (lit "52 53 31-Dec-2024")) /\
  @date_format env_east (DDateTime (Naive (mk_ndt 19782 47045 0))) (lit "%c, %r") = Some (Ok (lit "Thu Feb 29 13:04:05 2024, 01:04:05 PM")).
Proof. repeat split; vm_compute; reflexivity. Qed.
(** 31 December 2024 is in week 1 of 2025, 1 January 2021 in week 53 of 2020. *)
Example C83_nonvacuous_iso :
  @date_format env_east (DDate (days_of_ymd 2024 12 31)) (lit "%G-W%V-%u %g") = Some (Ok (lit "2025-W01-2 25")) /\
  @date_format env_east (DDate (days_of_ymd 2021 1 1)) (lit "%G-W%V-%u") = Some (Ok (lit "2020-W53-5")).
Proof. split; vm_compute; reflexivity. Qed.
