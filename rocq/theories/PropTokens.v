(** * C78: the syntax of the construction macros. *)
From Verif Require Import Base BaseFacts Env Chrono Types Parser Components Macros SpecMacro MacroFacts Generator Tokens SpecTokens PropMacro PropNew PropDate.
From Coq Require Import Permutation.

Scheme entries_i := Minimality for entries Sort Prop
with valued_i := Minimality for valued Sort Prop
with items_i := Minimality for items Sort Prop.
Combined Scheme syntax_ind from entries_i, valued_i, items_i.

Lemma size_pos t : (1 <= size t)%nat.
Proof. destruct t; cbn [size]; lia. Qed.
Lemma sizes_cons t ts : sizes (t :: ts) = (size t + sizes ts)%nat.
Proof. reflexivity. Qed.
Lemma size_brace l : size (XBrace l) = S (S (sizes l)). Proof. reflexivity. Qed.
Lemma size_bracket l : size (XBracket l) = S (S (sizes l)). Proof. reflexivity. Qed.

Lemma not_comma_value t v : valued t v -> t <> XComma.
Proof. intros H. inversion H; discriminate. Qed.
Lemma no_comma_first ts m : entries ts m -> match ts with XComma :: q' => q' | _ => ts end = ts.
Proof. intros H. inversion H; reflexivity. Qed.

(** The grammar is read. *)
Lemma reads_complete :
  (forall ts m, entries ts m -> forall n, (sizes ts < n)%nat -> parse_map n ts = GOk m) /\
  (forall t v, valued t v -> forall n r, (size t <= n)%nat -> parse_value n (t :: r) = GOk (v, r)) /\
  (forall ts l, items ts l -> forall n, (sizes ts < n)%nat -> parse_items n ts = GOk l).
Proof.
  apply syntax_ind.
  - intros [|n] H; [lia|reflexivity].
  - intros k e ts m _ IH [|n] H; [lia|]. rewrite !sizes_cons in H. cbn [size] in H. cbn [parse_map]. rewrite IH by lia. reflexivity.
  - intros k e t v ts m _ IV Hm IH [|n] H; [lia|]. rewrite !sizes_cons in H. pose proof (size_pos t). cbn [size] in H. cbn [parse_map]. rewrite IV by lia. cbn [gbind].
    rewrite (no_comma_first ts m Hm), IH by lia. reflexivity.
  - intros k e t v ts m _ IV _ IH [|n] H; [lia|]. rewrite !sizes_cons in H. pose proof (size_pos t). cbn [size] in H. cbn [parse_map]. rewrite IV by lia. cbn [gbind].
    rewrite IH by lia. reflexivity.
  - intros e [|n] r H; [cbn [size] in H; lia|reflexivity].
  - intros k e [|n] r H; [cbn [size] in H; lia|reflexivity].
  - intros ts m _ IH [|n] r H; rewrite size_brace in H; [lia|]. cbn [parse_value]. rewrite IH by lia. reflexivity.
  - intros ts l _ IH [|n] r H; rewrite size_bracket in H; [lia|]. cbn [parse_value]. rewrite IH by lia. reflexivity.
  - intros [|n] H; [lia|reflexivity].
  - intros t v _ IV [|n] H; [lia|]. rewrite sizes_cons in H. cbn [parse_items]. rewrite IV by lia. reflexivity.
  - intros t v ts l _ IV _ IH [|n] H; [lia|]. rewrite !sizes_cons in H. pose proof (size_pos t). cbn [size] in H. cbn [parse_items]. rewrite IV by lia. cbn [gbind]. rewrite IH by lia. reflexivity.
Qed.
(** Nothing else is. *)
Lemma reads_sound n :
  (forall ts m, parse_map n ts = GOk m -> entries ts m) /\
  (forall ts v r, parse_value n ts = GOk (v, r) -> exists t, ts = t :: r /\ valued t v) /\
  (forall ts l, parse_items n ts = GOk l -> items ts l).
Proof.
  induction n as [|n (IM & IV & II)]; [repeat split; discriminate|]. split; [|split].
  - intros ts m. cbn [parse_map]. destruct ts as [|t r]; [intros H; injection H as <-; constructor|].
    destruct t as [k e| | | | | | |]; try discriminate. destruct r as [|[| | | | | | |] r]; try discriminate.
    + destruct (parse_map n r) as [m'| |] eqn:M; try discriminate. cbn [gbind]. intros H. injection H as <-. constructor. apply IM. exact M.
    + destruct (parse_value n r) as [[v q]| |] eqn:V; try discriminate. cbn [gbind]. destruct (IV _ _ _ V) as (t & -> & HV).
      destruct (parse_map n (match q with XComma :: q' => q' | _ => q end)) as [m'| |] eqn:M; try discriminate. cbn [gbind]. intros H. injection H as <-. apply IM in M.
      destruct q as [|[| | | | | | |] q]; try (apply en_value; [exact HV|exact M]). apply en_value_comma; [exact HV|exact M].
  - intros ts v r. cbn [parse_value]. destruct ts as [|[k e|e| | | | |c|c] ts]; try discriminate.
    + intros H. injection H as <- <-. eexists. split; [reflexivity|]. constructor.
    + intros H. injection H as <- <-. eexists. split; [reflexivity|]. constructor.
    + destruct (parse_map n c) as [m| |] eqn:M; try discriminate. cbn [gbind]. intros H. injection H as <- <-. eexists. split; [reflexivity|]. constructor. apply IM. exact M.
    + destruct (parse_items n c) as [m| |] eqn:M; try discriminate. cbn [gbind]. intros H. injection H as <- <-. eexists. split; [reflexivity|]. constructor. apply II. exact M.
  - intros ts l. cbn [parse_items]. destruct ts as [|t ts]; [intros H; injection H as <-; constructor|].
    destruct (parse_value n (t :: ts)) as [[v q]| |] eqn:V; try discriminate. cbn [gbind]. destruct (IV _ _ _ V) as (t' & Q & HV). injection Q as <- <-.
    destruct ts as [|[| | | | | | |] ts]; try discriminate.
    + intros H. injection H as <-. constructor. exact HV.
    + destruct (parse_items n ts) as [l'| |] eqn:M; try discriminate. cbn [gbind]. intros H. injection H as <-. constructor; [exact HV|]. apply II. exact M.
Qed.
(** More fuel than enough changes nothing, whatever the result. *)
Lemma fuel_enough : forall n,
  (forall ts k, (sizes ts < n)%nat -> (sizes ts < k)%nat -> parse_map n ts = parse_map k ts) /\
  (forall t r k, (size t <= n)%nat -> (size t <= k)%nat -> parse_value n (t :: r) = parse_value k (t :: r)) /\
  (forall ts k, (sizes ts < n)%nat -> (sizes ts < k)%nat -> parse_items n ts = parse_items k ts).
Proof.
  assert (R : forall n ts v r, parse_value n ts = GOk (v, r) -> (sizes r < sizes ts)%nat).
  { intros n ts v r H. destruct (proj1 (proj2 (reads_sound n)) ts v r H) as (t & -> & _). rewrite sizes_cons. pose proof (size_pos t). lia. }
  assert (C : forall q, (sizes (match q with XComma :: q' => q' | _ => q end) <= sizes q)%nat).
  { intros [|[| | | | | | |] q]; try lia. rewrite sizes_cons. lia. }
  assert (V0 : forall n k, parse_value n [] = parse_value k []) by (intros [|n] [|k]; reflexivity).
  induction n as [|n (IM & IV & II)]; [split; [intros; lia|split; [intros t r k H; pose proof (size_pos t); lia|intros; lia]]|]. split; [|split].
  - intros ts [|k] H K; try lia. cbn [parse_map]. destruct ts as [|t r]; [reflexivity|]. destruct t as [x e| | | | | | |]; try reflexivity.
    destruct r as [|[| | | | | | |] r]; try reflexivity; rewrite !sizes_cons in *; cbn [size] in *.
    + rewrite (IM r k) by lia. reflexivity.
    + assert (V1 : parse_value n r = parse_value k r) by (destruct r as [|t r]; [apply V0|rewrite sizes_cons in *; apply IV; lia]). rewrite V1.
      destruct (parse_value k r) as [[v q]| |] eqn:V; cbn [gbind]; try reflexivity. apply R in V. pose proof (C q).
      rewrite (IM _ k) by lia. reflexivity.
  - intros t r [|k] H K; [pose proof (size_pos t); lia|]. cbn [parse_value]. destruct t as [x e|e| | | | |c|c]; try reflexivity; rewrite ?size_brace, ?size_bracket in *.
    + rewrite (IM c k) by lia. reflexivity.
    + rewrite (II c k) by lia. reflexivity.
  - intros ts [|k] H K; try lia. cbn [parse_items]. destruct ts as [|t ts]; [reflexivity|]. rewrite sizes_cons in *.
    rewrite (IV t ts k) by lia. destruct (parse_value k (t :: ts)) as [[v q]| |] eqn:V; cbn [gbind]; try reflexivity. apply R in V. rewrite sizes_cons in V.
    destruct q as [|[| | | | | | |] q]; try reflexivity. rewrite sizes_cons in V. cbn [size] in V. rewrite (II q k) by lia. reflexivity.
Qed.
Lemma parse_entries_fuel n ts : (sizes ts < n)%nat -> parse_map n ts = parse_entries ts.
Proof. intros H. apply (proj1 (fuel_enough n)); lia. Qed.
(** One entry at a time. *)
Lemma entries_short k e r : parse_entries (XIdent k e :: XComma :: r) = gbind (parse_entries r) (fun m => GOk ((k, VNone) :: m)).
Proof. unfold parse_entries at 1. cbn [parse_map]. rewrite parse_entries_fuel by (rewrite !sizes_cons; cbn [size]; lia). reflexivity. Qed.
Lemma entries_value k e t v r : valued t v -> parse_entries (XIdent k e :: XColon :: t :: r) =
  gbind (parse_entries (match r with XComma :: q => q | _ => r end)) (fun m => GOk ((k, v) :: m)).
Proof.
  intros V. unfold parse_entries at 1. cbn [parse_map]. rewrite (proj1 (proj2 reads_complete) t v V) by (rewrite !sizes_cons; cbn [size]; lia). cbn [gbind].
  rewrite parse_entries_fuel; [reflexivity|]. rewrite !sizes_cons. cbn [size]. pose proof (size_pos t). destruct r as [|[| | | | | | |] r]; try lia. rewrite sizes_cons. lia.
Qed.
(** The entries before decide nothing about those after. *)
Lemma entries_after pre pm : entries pre pm -> forall post, (forall q, post <> XComma :: q) ->
  parse_entries (pre ++ post) = gbind (parse_entries post) (fun m => GOk (pm ++ m)).
Proof.
  intros H. induction H as [|k e ts m H IH|k e t v ts m V H IH|k e t v ts m V H IH]; intros post N; cbn [app].
  - destruct (parse_entries post); reflexivity.
  - rewrite entries_short, IH by exact N. destruct (parse_entries post); reflexivity.
  - rewrite (entries_value k e t v _ V). replace (match ts ++ post with XComma :: q => q | _ => ts ++ post end) with (ts ++ post).
    + rewrite IH by exact N. destruct (parse_entries post); reflexivity.
    + inversion H; subst; cbn [app]; try reflexivity. destruct post as [|[| | | | | | |] post]; try reflexivity. exfalso. eapply N. reflexivity.
  - rewrite (entries_value k e t v _ V), IH by exact N. destruct (parse_entries post); reflexivity.
Qed.

(** ** Reading *)
(** The macro reads exactly the grammar. *)
Theorem C78_reads : forall ts m, parse_entries ts = GOk m <-> entries ts m.
Proof. intros ts m. split; [apply reads_sound|]. intros H. apply reads_complete; [exact H|]. lia. Qed.
Theorem C78_unique : forall ts m m', entries ts m -> entries ts m' -> m = m'.
Proof. intros ts m m' H H'. apply C78_reads in H, H'. congruence. Qed.
(** The comma after a value may be left out, whatever follows. *)
Theorem C78_optional_comma : forall pre pm k e t v post, entries pre pm -> valued t v -> (forall q, post <> XComma :: q) ->
  parse_entries (pre ++ XIdent k e :: XColon :: t :: XComma :: post) = parse_entries (pre ++ XIdent k e :: XColon :: t :: post).
Proof.
  intros pre pm k e t v post H V N. rewrite !(entries_after pre pm H) by discriminate. rewrite !(entries_value k e t v _ V).
  replace (match post with XComma :: q => q | _ => post end) with post; [reflexivity|]. destruct post as [|[| | | | | | |] post]; try reflexivity. exfalso. eapply N. reflexivity.
Qed.
(** A second comma may not be added. *)
Theorem C78_two_commas : forall pre pm post, entries pre pm -> (pm = [] \/ exists q, pre = q ++ [XComma]) -> parse_entries (pre ++ XComma :: post) = GPanic.
Proof.
  intros pre pm post H. induction H as [|k e ts m H IH|k e t v ts m V H IH|k e t v ts m V H IH]; intros Q; cbn [app].
  - reflexivity.
  - rewrite entries_short, IH; [reflexivity|]. destruct Q as [Q|[q Q]]; [discriminate|]. destruct ts as [|x ts]; [inversion H; auto|]. right.
    destruct (exists_last (l := x :: ts)) as (ts' & y & R); [discriminate|]. rewrite R in Q |- *. exists ts'. change (XIdent k e :: XComma :: ts' ++ [y]) with ((XIdent k e :: XComma :: ts') ++ [y]) in Q.
    apply app_inj_tail in Q. destruct Q as [_ ->]. reflexivity.
  - rewrite (entries_value k e t v _ V). assert (T : ts <> [] /\ exists q, ts = q ++ [XComma]).
    { destruct Q as [Q|[q Q]]; [discriminate|]. destruct ts as [|x ts].
      - exfalso. change [XIdent k e; XColon; t] with ([XIdent k e; XColon] ++ [t]) in Q. apply app_inj_tail in Q. destruct Q as [_ Q]. apply (not_comma_value t v V). exact Q.
      - split; [discriminate|]. destruct (exists_last (l := x :: ts)) as (ts' & y & R); [discriminate|]. rewrite R in Q |- *. exists ts'.
        change (XIdent k e :: XColon :: t :: ts' ++ [y]) with ((XIdent k e :: XColon :: t :: ts') ++ [y]) in Q. apply app_inj_tail in Q. destruct Q as [_ ->]. reflexivity. }
    destruct T as [T1 T2]. replace (match ts ++ XComma :: post with XComma :: q => q | _ => ts ++ XComma :: post end) with (ts ++ XComma :: post) by (inversion H; subst; [congruence|reflexivity|reflexivity|reflexivity]).
    rewrite IH by auto. reflexivity.
  - rewrite (entries_value k e t v _ V), IH; [reflexivity|]. destruct Q as [Q|[q Q]]; [discriminate|]. destruct ts as [|x ts]; [inversion H; auto|]. right.
    destruct (exists_last (l := x :: ts)) as (ts' & y & R); [discriminate|]. rewrite R in Q |- *. exists ts'. change (XIdent k e :: XColon :: t :: XComma :: ts' ++ [y]) with ((XIdent k e :: XColon :: t :: XComma :: ts') ++ [y]) in Q.
    apply app_inj_tail in Q. destruct Q as [_ ->]. reflexivity.
Qed.
(** The comma of the shorthand may not: a last [key] without it is an error. *)
Theorem C78_shorthand_comma : forall pre pm k e, entries pre pm ->
  parse_entries (pre ++ [XIdent k e; XComma]) = GOk (pm ++ [(k, VNone)]) /\ parse_entries (pre ++ [XIdent k e]) = GError.
Proof.
  intros pre pm k e H. rewrite !(entries_after pre pm H) by discriminate. split; [|reflexivity]. rewrite entries_short. reflexivity.
Qed.
(** A key without ':' or ',' is an error, whatever follows. *)
Theorem C78_key_alone : forall pre pm k e t post, entries pre pm -> t <> XComma -> t <> XColon -> parse_entries (pre ++ XIdent k e :: t :: post) = GError.
Proof.
  intros pre pm k e t post H N1 N2. rewrite (entries_after pre pm H) by discriminate. unfold parse_entries. cbn [parse_map]. destruct t; try reflexivity; congruence.
Qed.
(** A key that is not an identifier makes the macro panic, and so does a missing value. *)
Theorem C78_not_a_key : forall pre pm t post, entries pre pm -> t <> XComma -> (forall k e, t <> XIdent k e) -> parse_entries (pre ++ t :: post) = GPanic.
Proof.
  intros pre pm t post H N1 N2. rewrite (entries_after pre pm H) by (intros q Q; injection Q; auto). unfold parse_entries. cbn [parse_map]. destruct t; try reflexivity. exfalso. eapply N2. reflexivity.
Qed.
Theorem C78_no_value : forall pre pm k e, entries pre pm ->
  parse_entries (pre ++ [XIdent k e; XColon]) = GPanic /\
  forall t post, In t [XComma; XColon; XAt; XOther] -> parse_entries (pre ++ XIdent k e :: XColon :: t :: post) = GPanic.
Proof.
  intros pre pm k e H. split; [rewrite (entries_after pre pm H) by discriminate; reflexivity|]. intros t post I. rewrite (entries_after pre pm H) by discriminate.
  unfold parse_entries. cbn [parse_map]. cbn [In] in I. destruct I as [<-|[<-|[<-|[<-|[]]]]]; reflexivity.
Qed.
(** Items need the comma between them. *)
Theorem C78_items_comma : forall pre pm k e t v u r post, entries pre pm -> valued t v -> u <> XComma ->
  forall m, parse_entries (pre ++ XIdent k e :: XColon :: XBracket (t :: u :: r) :: post) <> GOk m.
Proof.
  intros pre pm k e t v u r post H V N m. rewrite (entries_after pre pm H) by discriminate. intros Q.
  destruct (parse_entries (XIdent k e :: XColon :: XBracket (t :: u :: r) :: post)) as [m'| |] eqn:P; try discriminate. apply C78_reads in P.
  inversion P as [| |k' e' t' v' ts' m0 V' H'|k' e' t' v' ts' m0 V' H']; subst; inversion V' as [| | |ts l I]; subst; inversion I; subst; congruence.
Qed.

(** ** Writing *)
Theorem C78_written : forall v, writable v -> exists t, valued t v.
Proof.
  fix W 2. intros v [e|m H|l H].
  - exists (XExpr e). constructor.
  - assert (G : forall k v, In (k, v) m -> v = VNone \/ exists t, valued t v).
    { intros k v' I. destruct (H k v' I) as [Q|Hv]; [left; exact Q|right; exact (W v' Hv)]. }
    clear W. assert (X : exists ts, entries ts m).
    { clear H. revert G. induction m as [|[k v'] m IH]; intros G; [exists []; constructor|]. destruct IH as [ts T]; [intros k0 v0 I; apply (G k0 v0); right; exact I|].
      destruct (G k v' (or_introl eq_refl)) as [->|[t V]].
      - exists (XIdent k (EStr []) :: XComma :: ts). constructor. exact T.
      - exists (XIdent k (EStr []) :: XColon :: t :: XComma :: ts). constructor; assumption. }
    destruct X as [ts X]. exists (XBrace ts). constructor. exact X.
  - assert (G : forall v, In v l -> exists t, valued t v) by (intros v' I; exact (W v' (H v' I))).
    clear W. assert (X : exists ts, items ts l).
    { clear H. revert G. induction l as [|v' l IH]; intros G; [exists []; constructor|]. destruct IH as [ts T]; [intros v0 I; apply G; right; exact I|].
      destruct (G v' (or_introl eq_refl)) as [t V]. exists (t :: XComma :: ts). constructor; assumption. }
    destruct X as [ts X]. exists (XBracket ts). constructor. exact X.
Qed.
(** Every list of entries can be written, and only these are read: the shorthand is for entries. *)
Theorem C78_every_list : forall m, (forall k v, In (k, v) m -> v = VNone \/ writable v) <-> exists ts, parse_entries ts = GOk m.
Proof.
  intros m. split.
  - intros H. destruct (C78_written (VObject m) (wr_object m H)) as [t V]. inversion V as [| |ts m' T|]; subst. exists ts. apply C78_reads. exact T.
  - intros [ts H]. apply C78_reads in H. revert ts m H.
    assert (X : (forall ts m, entries ts m -> forall k v, In (k, v) m -> v = VNone \/ writable v) /\ (forall t v, valued t v -> writable v) /\ (forall ts l, items ts l -> forall v, In v l -> writable v)).
    { apply syntax_ind.
      - intros k v [].
      - intros k e ts m _ IH k' v' [Q|I]; [injection Q as <- <-; auto|apply (IH k' v' I)].
      - intros k e t v ts m _ IV _ IH k' v' [Q|I]; [injection Q as <- <-; auto|apply (IH k' v' I)].
      - intros k e t v ts m _ IV _ IH k' v' [Q|I]; [injection Q as <- <-; auto|apply (IH k' v' I)].
      - intros e. constructor.
      - intros k e. constructor.
      - intros ts m _ IH. constructor. exact IH.
      - intros ts l _ IH. constructor. exact IH.
      - intros v [].
      - intros t v _ IV v' [<-|[]]. exact IV.
      - intros t v ts l _ IV _ IH v' [<-|I]; auto. }
    exact (proj1 X).
Qed.

(** ** The calls *)
(** The value of a call: the entries of its tokens, each field with the value of its entry and the others by default. *)
Theorem C78_call : forall (E : Env) scope st ts r, macro_call scope st ts = Some (Ok r) <->
  exists m, entries ts m /\ NoDup (map fst m)
  /\ (forall f v, In (f, v) m -> exists t x, In (f, t) (struct_fields st) /\ given scope st f t v = Some (Ok x) /\ field st r f = Some (existT den t x))
  /\ (forall f, ~ In f (map fst m) -> field st r f = field st (default_of st) f).
Proof.
  intros E scope st ts r. unfold macro_call. split.
  - destruct (parse_entries ts) as [m| |] eqn:P; try discriminate. intros H. exists m. split; [apply C78_reads; exact P|]. apply C59_fields. exact H.
  - intros (m & H & R). apply C78_reads in H. rewrite H. apply C59_fields. exact R.
Qed.
(** A call compiles exactly when its tokens are entries that compile. *)
Theorem C78_compiles : forall (E : Env) scope st ts, macro_call scope st ts <> None <-> exists m, entries ts m /\ compiles scope st m.
Proof.
  intros E scope st ts. unfold macro_call. split.
  - destruct (parse_entries ts) as [m| |] eqn:P; try congruence. intros H. exists m. split; [apply C78_reads; exact P|]. apply C59_compiles. exact H.
  - intros (m & H & R). apply C78_reads in H. rewrite H. apply C59_compiles. exact R.
Qed.
(** The order of the entries does not matter when the call gives a value. *)
Theorem C78_order : forall (E : Env) scope st ts ts' m m' r, entries ts m -> entries ts' m' -> Permutation m m' ->
  macro_call scope st ts = Some (Ok r) -> macro_call scope st ts' = Some (Ok r).
Proof.
  intros E scope st ts ts' m m' r H H' P C. apply C78_call in C. destruct C as (m0 & H0 & N & A & B). rewrite (C78_unique ts m0 m H0 H) in *. clear m0 H0.
  apply C78_call. exists m'. split; [exact H'|]. pose proof (Permutation_map fst P) as PF. split; [eapply Permutation_NoDup; [exact PF|exact N]|]. split.
  - intros f v I. apply A. eapply Permutation_in; [apply Permutation_sym; exact P|exact I].
  - intros f I. apply B. intros J. apply I. eapply Permutation_in; [exact PF|exact J].
Qed.
(** [valarm!] is the macro of the kind named after the '@'; without a known kind it does not compile. *)
Theorem C78_valarm : forall (E : Env) scope ts a, valarm_call scope ts = Some (Ok a) ->
  exists k e r m kd, ts = XAt :: XIdent k e :: XComma :: r /\ entries r m /\ In (k, kd) [(lit "audio", KAudio); (lit "display", KDisplay); (lit "email", KEmail)] /\
    named kd a /\ exists x, macro_call scope (kind_struct kd) r = Some (Ok x) /\ forall f, f <> lit "action" -> alarm_field a f = field (kind_struct kd) x f.
Proof.
  intros E scope ts a. unfold valarm_call. destruct ts as [|[| | | |  | | |] [|[k e| | | | | | |] [|[| | | | | | |] r]]]; try discriminate.
  destruct (parse_entries r) as [m| |] eqn:P; try discriminate. intros H.
  assert (K : exists kd, In (k, kd) [(lit "audio", KAudio); (lit "display", KDisplay); (lit "email", KEmail)] /\ valarm_macro scope kd m = Some (Ok a)).
  { destruct (str_eqb k (lit "audio")) eqn:K1; [apply str_eqb_eq in K1; subst; exists KAudio; split; [left; reflexivity|exact H]|].
    destruct (str_eqb k (lit "display")) eqn:K2; [apply str_eqb_eq in K2; subst; exists KDisplay; split; [right; left; reflexivity|exact H]|].
    destruct (str_eqb k (lit "email")) eqn:K3; [apply str_eqb_eq in K3; subst; exists KEmail; split; [right; right; left; reflexivity|exact H]|discriminate]. }
  destruct K as (kd & I & V). exists k, e, r, m, kd. split; [reflexivity|]. split; [apply C78_reads; exact P|]. split; [exact I|].
  destruct (C61_valarm_macro scope kd m a V) as [N (x & X & F)]. split; [exact N|]. exists x. split; [|exact F]. unfold macro_call. rewrite P. exact X.
Qed.

(** ** Concrete calls *)
Definition id (n : String.string) : tok := XIdent (lit n) (EStr []).
Definition str_tok (n : String.string) : tok := XExpr (EStr (lit n)).
(** The call of the documentation, src/lib.rs:47-60 *)
Definition doc_tokens : list tok :=
  [id "version"; XColon; str_tok "2.0"; XComma; id "prodid"; XColon; str_tok "-//hacksw/handcal//NONSGML v1.0//EN"; XComma;
   id "events"; XColon; XBracket [XBrace [
     id "uid"; XColon; str_tok "19970610T172345Z-AF23B2@example.com"; XComma; id "dtstamp"; XColon; str_tok "19970610T172345Z"; XComma;
     id "dtstart"; XColon; str_tok "19970714T170000Z"; XComma; id "summary"; XColon; str_tok "Bastille Day Party"; XComma;
     id "status"; XColon; XIdent (lit "Confirmed") (EVariant (VStatus Confirmed)); XComma]]; XComma].
Example C78_nonvacuous_doc : exists m v e, entries doc_tokens m /\ NoDup (map fst m) /\ @macro_call env_east (fun _ => None) SCalendar doc_tokens = Some (Ok v) /\ ca_events v = [e] /\
  ev_summary e = Some (text_of_str (lit "Bastille Day Party")) /\ ev_status e = Some Confirmed /\ @datetime_of_str env_east (lit "19970610T172345Z") = Ok (ev_dtstamp e).
Proof.
  do 3 eexists. split; [apply C78_reads; vm_compute; reflexivity|]. split; [apply no_twice_iff; vm_compute; reflexivity|]. split; [vm_compute; reflexivity|].
  repeat (split; [reflexivity|]). vm_compute. reflexivity.
Qed.
(** The syntax at its edges: no comma at all; a shorthand with and without its comma; two commas; a string as a key; no value; items without a comma. *)
Example C78_nonvacuous_edges :
  parse_entries [id "uid"; XColon; str_tok "1"; id "summary"; XColon; str_tok "s"] = GOk [(lit "uid", VSingle (EStr (lit "1"))); (lit "summary", VSingle (EStr (lit "s")))] /\
  parse_entries [id "uid"; XColon; str_tok "1"; id "duration"; XComma] = GOk [(lit "uid", VSingle (EStr (lit "1"))); (lit "duration", VNone)] /\
  parse_entries [id "uid"; XColon; str_tok "1"; id "duration"] = GError /\
  parse_entries [id "uid"; XColon; str_tok "1"; XComma; XComma] = GPanic /\
  parse_entries [str_tok "uid"; XColon; str_tok "1"] = GPanic /\
  parse_entries [id "uid"; XColon] = GPanic /\
  parse_entries [id "categories"; XColon; XBracket [str_tok "a"; str_tok "b"]] = GError /\
  parse_entries [id "categories"; XColon; XBracket [str_tok "a"; XComma; str_tok "b"; XComma]] = GOk [(lit "categories", VCollection [VSingle (EStr (lit "a")); VSingle (EStr (lit "b"))])].
Proof. repeat split; vm_compute; reflexivity. Qed.
Example C78_nonvacuous_valarm : exists a, @valarm_call env_east (fun _ => None) [XAt; id "display"; XComma; id "trigger"; XColon; str_tok "-PT30M"; XComma; id "description"; XColon; str_tok "wake up"] = Some (Ok a).
Proof. eexists. vm_compute. reflexivity. Qed.
Example C78_nonvacuous_writable : writable (VObject [(lit "uid", VSingle (EStr (lit "1"))); (lit "duration", VNone); (lit "categories", VCollection [VSingle (EStr (lit "a"))])]).
Proof.
  constructor. intros k v [Q|[Q|[Q|[]]]]; injection Q as <- <-; [right; constructor|left; reflexivity|right]. constructor. intros v [<-|[]]. constructor.
Qed.
