(** * The text of components with several children of a kind, or with alarms. *)
From Verif Require Import Base Env Chrono Nom Types Ser Parser Derive BaseFacts NomFacts SpecLine LineFacts SpecText SerFacts PropText PropLine
  SpecCal SpecDur PropVocab PropRule PropPeriod PropList Components SpecComp DeriveFacts SpecFields PropComp SpecFile PropFile SpecRound RoundFacts FrameFacts BackFacts FieldFacts ChildFacts CalFacts AlarmFacts PropRound SpecCrowd JunkFacts.
Section Env.
Context {E : Env}.
(** ** Reading a component walks over lines and delimiters *)
Lemma lit_no_eol s : forallb (fun c => negb ((c =? CR) || (c =? LF))) s = true -> no_eol s.
Proof.
  rewrite forallb_forall. intros H. split; intros X; apply H in X; rewrite negb_true_iff, orb_false_iff, !Z.eqb_neq in X; tauto.
Qed.
Lemma lines_walk s ls r : lines_text s ls r -> walk s r.
Proof. intros [H _]. induction H; [constructor|]. econstructor; [econstructor; eauto|auto]. Qed.
Lemma seq_walk {A} (one : str -> A -> str -> Prop) s l r : (forall s a r, one s a r -> walk s r) -> seq_text one s l r -> walk s r.
Proof. intros H. induction 1; [constructor|]. eapply walk_trans; eauto. Qed.
Lemma end_walk name r : no_eol name -> walk (lit "END:" ++ name ++ [CR; LF] ++ r) r.
Proof. intros H. econstructor; [apply st_end, H|constructor]. Qed.
Lemma begin_walk name t r : no_eol name -> walk t r -> walk (lit "BEGIN:" ++ name ++ [CR; LF] ++ t) r.
Proof. intros H W. econstructor; [apply st_begin, H|exact W]. Qed.
Lemma simple_walk {A} name (read : list content_line -> A -> Prop) s v r : no_eol name -> simple_text name read s v r -> walk s r.
Proof.
  intros Hn (t & ls & -> & L & _). apply begin_walk; auto. eapply walk_trans; [eapply lines_walk; eauto|]. now apply end_walk.
Qed.
Lemma event_walk s v r : event_text s v r -> walk s (lit "END:" ++ lit "VEVENT" ++ [CR; LF] ++ r).
Proof.
  intros (t & ls & t2 & v0 & -> & L & S & _). apply (begin_walk (lit "VEVENT")); [now apply lit_no_eol|]. eapply walk_trans; [eapply lines_walk; eauto|].
  eapply seq_walk; [|exact S]. intros s a r0. now apply simple_walk, lit_no_eol.
Qed.
Lemma timezone_walk s v r : timezone_text s v r -> walk s (lit "END:" ++ lit "VTIMEZONE" ++ [CR; LF] ++ r).
Proof.
  intros (t & ls & t2 & cs & v0 & -> & L & S & _). apply (begin_walk (lit "VTIMEZONE")); [now apply lit_no_eol|]. eapply walk_trans; [eapply lines_walk; eauto|].
  eapply seq_walk; [|exact S]. intros s a r0. destruct a; now apply simple_walk, lit_no_eol.
Qed.
Lemma child_walk s c r : child_text s c r -> walk s r.
Proof.
  destruct c; cbn [child_text]; intros H.
  - eapply simple_walk; [|exact H]. now apply lit_no_eol.
  - eapply walk_trans; [eapply event_walk; eauto|]. now apply end_walk, lit_no_eol.
  - eapply simple_walk; [|exact H]. now apply lit_no_eol.
  - eapply simple_walk; [|exact H]. now apply lit_no_eol.
  - eapply walk_trans; [eapply timezone_walk; eauto|]. now apply end_walk, lit_no_eol.
  - eapply simple_walk; [|exact H]. now apply lit_no_eol.
Qed.
Lemma calendar_walk s ls cs r : calendar_text s ls cs r -> walk s (lit "END:" ++ lit "VCALENDAR" ++ r).
Proof.
  intros (t & t2 & -> & L & S). apply (begin_walk (lit "VCALENDAR")); [now apply lit_no_eol|]. eapply walk_trans; [eapply lines_walk; eauto|].
  eapply seq_walk; [|exact S]. apply child_walk.
Qed.

(** ** Writing: properties *)
(** The rows of lines; none is the END of a component. *)
Definition no_end (name : str) (A : list str) : Prop := Forall (fun r => ~ begins (lit "END:" ++ name) r) A.
(** A row that does not begin with END. *)
Definition other (A : list str) : Prop := Forall (fun r => ~ begins (lit "END:") r) A.
Lemma other_no_end name A : other A -> no_end name A.
Proof. intros H. eapply Forall_impl; [|exact H]. intros r Hr [x ->]. apply Hr. exists (name ++ x). now rewrite <- app_assoc. Qed.
Lemma no_end_app name A B : no_end name A -> no_end name B -> no_end name (A ++ B).
Proof. intros. now apply Forall_app. Qed.
Lemma name_row n m v : name_ok n -> good_params m -> no_eol v -> is_row (logical_line n (params_attr m) v) /\ ~ begins (lit "END:") (logical_line n (params_attr m) v).
Proof.
  intros (Hk & Hn & Hr) Hm Hv. split; [exists n, m, v; auto|]. intros [x H].
  rewrite <- (app_nil_r (logical_line _ _ _)), row_eq in H.
  assert (G : exists d y, attr_text (params_attr m) ++ COLON :: v ++ [CR; LF] ++ [] = d :: y /\ (d = SEMI \/ d = COLON)).
  { rewrite attr_text_eq. destruct m as [|kv m]; cbn [map concat app]; eexists _, _; (split; [reflexivity|]); auto. }
  destruct G as (d & y & G & Hd). rewrite G in H. change (lit "END:" ++ x) with (lit "END" ++ COLON :: x) in H.
  apply (first_same (fun c => c = SEMI \/ c = COLON)) in H as (-> & _ & _); auto.
  - apply Hr. now right.
  - intros e He Q. eapply (key_no n e); eauto. tauto.
  - intros e He Q. cbn in He. unfold SEMI, COLON in Q. lia.
Qed.
Lemma item_clean {T} (S : serialize T) n v ls out : name_ok n -> item S n v ls -> ser_field S n v = Ok out -> exists A, clean out A /\ other A.
Proof.
  intros Hn (value & m & A & B & C & D & F & ->) H. destruct value as [|c value].
  { rewrite (C01_empty_value T S n v A B) in H. inv H. exists []. split; [apply clean_nil|constructor]. }
  rewrite (ser_field_eq S n v (c :: value)) in H by (auto; discriminate). rewrite C in H.
  destruct (name_row n m (c :: value) Hn D F) as [R N]. eexists. split; [|constructor; [exact N|constructor]].
  eapply clean_fold; [|exact H]. now apply clean_row.
Qed.
Lemma clean2 a b : (exists A, clean a A /\ other A) -> (exists B, clean b B /\ other B) -> exists C, clean (a ++ b) C /\ other C.
Proof. intros (A & H1 & H2) (B & H3 & H4). exists (A ++ B). split; [now apply clean_app|]. now apply Forall_app. Qed.
Lemma f_lines_clean n f v ls out : name_ok n -> f_lines n f v ls -> f_ser n f v = Ok out -> exists A, clean out A /\ other A.
Proof.
  intros Hn.
  assert (V : forall T (S : serialize T) (v : list T) ls out,
    match v with [] => ls = [] | [x] => item S n x ls | _ => item (ser_vec S) n v ls end -> vec_field S n v = Ok out -> exists A, clean out A /\ other A).
  { intros T S [|x [|y l]] ls0 out0 HL H; cbn [vec_field] in H; try (eapply item_clean; eauto; fail). subst.
    rewrite (C01_empty_value _ (ser_vec S) n []) in H by reflexivity. inv H. exists []. split; [apply clean_nil|constructor]. }
  destruct f; cbn [f_lines f_ser]; intros HL H; try (eapply V; eauto; fail); try (eapply item_clean; eauto; fail).
  destruct v as [x|].
  - destruct HL as (value & m & A & B & C & D & F & ->). apply (item_clean (ser_opt S) n (Some x) (line n m value)); [exact Hn| |exact H]. exists value, m. cbn [ser_opt s_component s_ical s_attr]. auto 8.
  - rewrite (C01_empty_value _ (ser_opt S) n None) in H; [|reflexivity|reflexivity]. inv H. exists []. split; [apply clean_nil|constructor].
Qed.
Lemma fields_lines_clean s vs ls out : Forall (fun nf => name_ok (fst nf)) s -> fields_lines s vs ls -> ser_fields s vs = Ok out -> exists A, clean out A /\ other A.
Proof.
  revert ls out; induction s as [|[n f] r IH]; intros ls out Hs HL H; cbn [fields_lines ser_fields] in *.
  - inv H. exists []. split; [apply clean_nil|constructor].
  - destruct vs as [v vs]. cbn [fst snd] in *. destruct HL as (a & b & -> & A & B). inversion Hs as [|? ? Hn Hs']; subst.
    destruct (f_ser n f v) as [x| |] eqn:X; cbn in H; try discriminate. destruct (ser_fields r vs) as [y| |] eqn:Y; cbn in H; try discriminate. inv H.
    apply clean2; [eapply f_lines_clean; eauto|eauto].
Qed.
(** The lines of a component between BEGIN and END. *)
Lemma comp_clean name s (c : comp s) body out : Forall (fun nf => name_ok (fst nf)) s ->
  fields_lines s (c_fields c) body -> tidy_ext (c_xprop c) -> tidy_ext (c_iana c) -> comp_ical name c = Ok out ->
  exists b A, out = lit "BEGIN:" ++ name ++ CRLF ++ b ++ lit "END:" ++ name ++ CRLF /\ clean b A /\ other A.
Proof.
  intros Hs HL Hx Hi H. apply comp_parts in H as (b & x & i & B & X & I & ->). exists (b ++ x ++ i).
  destruct (clean2 b (x ++ i)) as (A & H1 & H2).
  - eapply fields_lines_clean; eauto.
  - apply clean2; [exact (item_clean _ _ _ _ _ name_ok_x (item_ext _ _ Hx) X)|exact (item_clean _ _ _ _ _ name_ok_i (item_ext _ _ Hi) I)].
  - exists A. rewrite <- !app_assoc. auto.
Qed.

(** ** Components *)
(** [a] is rows, or starts with rows and then a comma or an empty line; none of
    these rows is the END of [T]. *)
Definition part (T : str) (a : str) (k : bool) : Prop := exists A, no_end T A /\ if k then stuck a A else clean a A.
Definition end_row (nm : str) : str := lit "END:" ++ nm ++ CRLF.
Definition framed (T nm : str) (out : str) (k : bool) : Prop :=
  exists b, out = lit "BEGIN:" ++ nm ++ CRLF ++ b ++ end_row nm /\ if k then part T (b ++ end_row nm) true else part T b false.
Definition apart (T nm : str) : Prop := ~ begins (lit "END:" ++ T) (end_row nm).
Lemma part_of T a : (exists A, clean a A /\ other A) -> part T a false.
Proof. intros (A & H1 & H2). exists A. split; auto. now apply other_no_end. Qed.
Lemma part_app T a b k l : part T a k -> part T b l -> part T (a ++ b) (k || l).
Proof.
  intros (A & H1 & H2) (B & H3 & H4). destruct k; cbn [orb].
  - exists A. split; auto. now apply stuck_more.
  - exists (A ++ B). split; [now apply no_end_app|]. destruct l; [now apply clean_stuck|now apply clean_app].
Qed.
Lemma part_nil T : part T [] false.
Proof. exists []. split; [constructor|apply clean_nil]. Qed.
Lemma part_fold T a b k : part T a k -> fold_line a = Ok b -> part T b k.
Proof. intros (A & H1 & H2) F. exists A. split; auto. destruct k; [eapply stuck_fold; eauto|eapply clean_fold; eauto]. Qed.
Lemma part_row T n v : name_ok n -> no_eol v -> part T (n ++ [COLON] ++ v ++ CRLF) false.
Proof.
  intros Hn Hv. destruct (name_row n [] v Hn good_nil Hv) as [R N]. apply part_of. eexists. split; [apply clean_row, R|]. constructor; [exact N|constructor].
Qed.
Lemma part_begin T nm : no_eol nm -> part T (lit "BEGIN:" ++ nm ++ CRLF) false.
Proof.
  intros H. apply part_of. eexists. split.
  - apply clean_row. exists (lit "BEGIN"), [], nm. split; [now apply key_text_lit|]. split; [discriminate|]. split; [apply good_nil|]. split; [exact H|reflexivity].
  - constructor; [|constructor]. intros [x X]. discriminate.
Qed.
Lemma part_end T nm : no_eol nm -> apart T nm -> part T (end_row nm) false.
Proof.
  intros H Ha. eexists [end_row nm]. split; [constructor; [exact Ha|constructor]|].
  apply clean_row. exists (lit "END"), [], nm. split; [now apply key_text_lit|]. split; [discriminate|]. split; [apply good_nil|]. split; [exact H|reflexivity].
Qed.
Lemma framed_part T nm out k : no_eol nm -> apart T nm -> framed T nm out k -> part T out k.
Proof.
  intros Hn Ha (b & -> & P). replace (lit "BEGIN:" ++ nm ++ CRLF ++ b ++ end_row nm) with ((lit "BEGIN:" ++ nm ++ CRLF) ++ b ++ end_row nm) by now rewrite <- !app_assoc.
  destruct k.
  - apply (part_app T _ _ false true); [now apply part_begin|exact P].
  - apply (part_app T _ _ false false); [now apply part_begin|]. apply (part_app T _ _ false false); [exact P|now apply part_end].
Qed.
(** The child, its first line being the value of the property [n]. *)
Lemma framed_named T n nm out k : name_ok n -> no_eol nm -> apart T nm -> framed T nm out k -> part T (n ++ [COLON] ++ out) k.
Proof.
  intros Hk Hn Ha (b & -> & P).
  replace (n ++ [COLON] ++ lit "BEGIN:" ++ nm ++ CRLF ++ b ++ end_row nm) with ((n ++ [COLON] ++ (lit "BEGIN:" ++ nm) ++ CRLF) ++ b ++ end_row nm) by now rewrite <- !app_assoc.
  assert (R : part T (n ++ [COLON] ++ (lit "BEGIN:" ++ nm) ++ CRLF) false) by (apply part_row; auto; apply no_eol_app; [now apply lit_no_eol|exact Hn]).
  destruct k.
  - apply (part_app T _ _ false true); [exact R|exact P].
  - apply (part_app T _ _ false false); [exact R|]. apply (part_app T _ _ false false); [exact P|now apply part_end].
Qed.
Lemma part_comma T a k r : part T a k -> part T (a ++ 44 :: r) true.
Proof. intros (A & H1 & H2). exists A. split; auto. destruct k; [now apply stuck_more|now apply stuck_comma]. Qed.
(** Two or more children in one property. *)
Lemma vec_crowd {X} T (S : serialize X) n nm x y l out : name_ok n -> no_eol nm -> apart T nm -> (forall o, s_ical S x = Ok o -> exists k, framed T nm o k) ->
  vec_field S n (x :: y :: l) = Ok out -> part T out true.
Proof.
  intros Hk Hn Ha Hx H. cbn [vec_field] in H. unfold ser_field in H. cbn [ser_vec s_ical s_component s_attr] in H. unfold vec_ical in H.
  cbn [ocollect] in H. destruct (s_ical S x) as [ox| |] eqn:O; cbn [obind] in H; try discriminate. destruct (s_ical S y) as [oy| |]; cbn [obind] in H; try discriminate.
  destruct (ocollect (s_ical S) l) as [os| |]; cbn [obind] in H; try discriminate.
  rewrite join_pop in H. change (join [44] (ox :: oy :: os)) with (ox ++ 44 :: join [44] (oy :: os)) in H. set (w := join [44] (oy :: os)) in *. clearbody w.
  destruct (Hx ox eq_refl) as [k F]. pose proof (framed_named T n nm ox k Hk Hn Ha F) as P.
  destruct (ox ++ 44 :: w) as [|c0 s0] eqn:Q; [destruct ox; discriminate|]. rewrite <- Q in H. cbn [app] in H.
  eapply part_fold; [|exact H].
  replace (n ++ 58 :: (ox ++ 44 :: w) ++ CRLF) with ((n ++ [COLON] ++ ox) ++ 44 :: w ++ CRLF) by (unfold COLON; rewrite <- !app_assoc; cbn [app]; now rewrite <- ?app_assoc).
  eapply part_comma, P.
Qed.
(** Any number of children. *)
Lemma vec_part {X} T (S : serialize X) n nm (crowded : X -> bool) l out : s_component S = Some nm -> name_ok n -> no_eol nm -> apart T nm ->
  Forall (fun x => forall o, s_ical S x = Ok o -> framed T nm o (crowded x)) l ->
  vec_field S n l = Ok out -> part T out ((2 <=? length l)%nat || existsb crowded l).
Proof.
  intros Hc Hk Hn Ha F H. destruct l as [|x [|y l]].
  - cbn [vec_field] in H. rewrite (C01_empty_value _ (ser_vec S) n []) in H by reflexivity. inv H. apply part_nil.
  - cbn [vec_field] in H. unfold ser_field in H. destruct (s_ical S x) as [o| |] eqn:O; cbn [obind] in H; try discriminate. rewrite Hc in H. inv H.
    apply Forall_inv in F. cbn [length Nat.leb existsb orb]. rewrite orb_false_r. apply (framed_part T nm); auto.
  - cbn [length Nat.leb orb]. eapply vec_crowd; eauto. intros o Ho. apply Forall_inv in F. eauto.
Qed.

(** ** What follows an alarm *)
Definition starts (a : str) : Prop := exists c r, a = c :: r /\ c <> CR /\ c <> LF /\ c <> SP.
Definition may_start (a : str) : Prop := a = [] \/ starts a.
Lemma starts_app a b : may_start a -> starts b -> starts (a ++ b).
Proof. intros [-> |(c & r & -> & H)] Hb; auto. exists c, (r ++ b). auto. Qed.
Lemma may_app a b : may_start a -> may_start b -> may_start (a ++ b).
Proof. intros [-> |(c & r & -> & H)] Hb; auto. right. exists c, (r ++ b). auto. Qed.
Lemma may_lit a : match a with [] => true | c :: _ => negb ((c =? CR) || (c =? LF) || (c =? SP)) end = true -> may_start a.
Proof.
  destruct a as [|c r]; [left; auto|]. rewrite negb_true_iff, !orb_false_iff, !Z.eqb_neq. intros. right. exists c, r. tauto.
Qed.
Lemma field_starts {T} (S : serialize T) n v out : s_component S = None -> name_ok n -> ser_field S n v = Ok out -> may_start out.
Proof.
  intros Hc (Hk & Hn & _) H. destruct (s_ical S v) as [value|e|] eqn:V; [|unfold ser_field in H; rewrite V in H; discriminate..].
  destruct value as [|c value]; [rewrite (C01_empty_value T S n v Hc V) in H; inv H; now left|].
  destruct (C01_unfold_undoes_fold T S n v _ out Hc V ltac:(discriminate) H) as [(parts & -> & Ec & Hp) _].
  destruct (folded_head parts _ Ec Hp) as (d & r & s & El & ->).
  { intros ->. cbn in Ec. destruct n; [congruence|]. discriminate. }
  destruct n as [|k n]; [congruence|]. cbn in El. injection El as <- _. right. exists k, s. split; auto. apply Forall_inv in Hk. unfold key_char, CR, LF, SP in *. lia.
Qed.
Lemma vec_starts {T} (S : serialize T) n v out : name_ok n -> (s_component S = None \/ forall x o, s_ical S x = Ok o -> starts o) -> vec_field S n v = Ok out -> may_start out.
Proof.
  intros Hn HS H. destruct v as [|x [|y l]]; cbn [vec_field] in H; try (eapply (field_starts (ser_vec S)); [reflexivity|exact Hn|exact H]).
  destruct (s_component S) as [c|] eqn:C; [|eapply field_starts; eauto].
  destruct HS as [HS|HS]; [discriminate|]. unfold ser_field in H. destruct (s_ical S x) as [o| |] eqn:O; cbn [obind] in H; try discriminate. rewrite C in H. inv H. right. eauto.
Qed.
Lemma comp_starts name s (c : comp s) out : comp_ical name c = Ok out -> starts out.
Proof. intros H. apply comp_parts in H as (b & x & i & _ & _ & _ & ->). eexists _, _. split; [reflexivity|]. unfold CR, LF, SP. repeat split; intros X; vm_compute in X; discriminate. Qed.
(** Rows, then an empty line. *)
Definition pending (T a : str) : Prop := exists A, no_end T A /\ Forall is_row A /\ junk nothing [] (concat A ++ CRLF) a.
Lemma pending_starts T a b : pending T a -> starts b -> part T (a ++ b) true.
Proof.
  intros (A & H1 & H2 & H3) (c & r & -> & Hc). exists A. split; auto. split; auto. exists [CR; LF; c]. split; [right; exists c; tauto|].
  replace (concat A ++ [CR; LF; c]) with ((concat A ++ CRLF) ++ [c]) by (unfold CRLF; now rewrite <- app_assoc).
  apply junk_app; auto. apply (junk_self anything [c] r). exact I.
Qed.
Lemma alarm_framed T a out : valarm_tidy a -> s_ical ser_valarm a = Ok out -> framed T (lit "VALARM") out false.
Proof.
  intros Ht H. apply alarm_frame in H as (body & C & _ & ->). exists body. split; [reflexivity|].
  assert (X : exists b A, lit "BEGIN:" ++ alarm_name a ++ CRLF ++ body ++ lit "END:" ++ alarm_name a ++ CRLF = lit "BEGIN:" ++ alarm_name a ++ CRLF ++ b ++ lit "END:" ++ alarm_name a ++ CRLF /\ clean b A /\ other A).
  { destruct a as [x|x|x]; cbn [alarm_content alarm_name valarm_tidy] in *.
    - refine (comp_clean (lit "AUDIO") audio_schema (audio_to x) _ _ audio_names (audio_fields x Ht) _ _ C); unfold audio_tidy in Ht; cbn [c_xprop c_iana audio_to]; tauto.
    - refine (comp_clean (lit "DISPLAY") display_schema (display_to x) _ _ display_names (display_fields x Ht) _ _ C); unfold display_tidy in Ht; cbn [c_xprop c_iana display_to]; tauto.
    - refine (comp_clean (lit "EMAIL") email_schema (email_to x) _ _ email_names (email_fields x Ht) _ _ C); unfold email_tidy in Ht; cbn [c_xprop c_iana email_to]; tauto. }
  destruct X as (b & A & Eb & Hb & Ho). repeat apply app_inv_head in Eb. apply app_inv_tail in Eb. subst. apply part_of. eauto.
Qed.
Lemma alarms_name : name_ok (lit "ALARMS").
Proof. apply name_ok_lit; [reflexivity|discriminate|reflexivity|reflexivity]. Qed.
Lemma alarms_part T l out rest : apart T (lit "VALARM") -> Forall valarm_tidy l -> l <> [] -> vec_field ser_valarm (lit "ALARMS") l = Ok out -> starts rest -> part T (out ++ rest) true.
Proof.
  intros Ha F Hl H Hr. destruct l as [|x [|y l]]; [congruence| |].
  - apply Forall_inv in F. cbn [vec_field] in H. unfold ser_field in H. destruct (s_ical ser_valarm x) as [o| |] eqn:O; cbn [obind] in H; try discriminate.
    cbn [s_component ser_valarm s_attr] in H. apply (alarm_framed T) in O; auto.
    pose proof (framed_named T (lit "ALARMS") (lit "VALARM") o false alarms_name (lit_no_eol (lit "VALARM") eq_refl) Ha O) as (A & HA & HR & HJ).
    apply pending_starts; auto. exists A. split; auto. split; auto.
    destruct o as [|c o]; [destruct O as (b & X & _); discriminate|]. eapply junk_fold_line; [apply insert_nothing| |exact H].
    replace (lit "ALARMS" ++ [] ++ [58] ++ (c :: o) ++ CRLF) with ((lit "ALARMS" ++ [COLON] ++ c :: o) ++ CRLF ++ []) by (unfold COLON; cbn [app]; now rewrite <- ?app_assoc, ?app_nil_r).
    apply junk_app; auto. apply (junk_self nothing CRLF []). reflexivity.
  - apply Forall_inv in F. eapply vec_crowd in H; [|apply alarms_name|apply (lit_no_eol (lit "VALARM")); reflexivity|exact Ha|intros o Ho; exists false; now apply (alarm_framed T) in Ho].
    destruct H as (A & H1 & H2). exists A. split; auto. now apply stuck_more.
Qed.
(** ** Each component *)
Lemma vtodo_framed T v out : vtodo_tidy v -> s_ical ser_vtodo v = Ok out -> framed T (lit "VTODO") out false.
Proof.
  intros Ht H. cbn [s_ical ser_vtodo ser_iso] in H.
  destruct (comp_clean (lit "VTODO") vtodo_schema (vtodo_to v) _ _ vtodo_names (vtodo_fields v Ht) ltac:(unfold vtodo_tidy in Ht; cbn [c_xprop vtodo_to]; tauto) ltac:(unfold vtodo_tidy in Ht; cbn [c_iana vtodo_to]; tauto) H) as (b & A & -> & Hb & Ho).
  exists b. split; [reflexivity|]. apply part_of. eauto.
Qed.
Lemma vjournal_framed T v out : vjournal_tidy v -> s_ical ser_vjournal v = Ok out -> framed T (lit "VJOURNAL") out false.
Proof.
  intros Ht H. cbn [s_ical ser_vjournal ser_iso] in H.
  destruct (comp_clean (lit "VJOURNAL") vjournal_schema (vjournal_to v) _ _ vjournal_names (vjournal_fields v Ht) ltac:(unfold vjournal_tidy in Ht; cbn [c_xprop vjournal_to]; tauto) ltac:(unfold vjournal_tidy in Ht; cbn [c_iana vjournal_to]; tauto) H) as (b & A & -> & Hb & Ho).
  exists b. split; [reflexivity|]. apply part_of. eauto.
Qed.
Lemma vfreebusy_framed T v out : vfreebusy_tidy v -> s_ical ser_vfreebusy v = Ok out -> framed T (lit "VFREEBUSY") out false.
Proof.
  intros Ht H. cbn [s_ical ser_vfreebusy ser_iso] in H.
  destruct (comp_clean (lit "VFREEBUSY") vfreebusy_schema (vfreebusy_to v) _ _ vfreebusy_names (vfreebusy_fields v Ht) ltac:(unfold vfreebusy_tidy in Ht; cbn [c_xprop vfreebusy_to]; tauto) ltac:(unfold vfreebusy_tidy in Ht; cbn [c_iana vfreebusy_to]; tauto) H) as (b & A & -> & Hb & Ho).
  exists b. split; [reflexivity|]. apply part_of. eauto.
Qed.
Lemma standard_framed T v out : standard_tidy v -> s_ical ser_standard v = Ok out -> framed T (lit "STANDARD") out false.
Proof.
  intros Ht H. cbn [s_ical ser_standard ser_iso] in H.
  destruct (comp_clean (lit "STANDARD") standard_schema (standard_to v) _ _ standard_names (standard_fields v Ht) ltac:(unfold standard_tidy in Ht; cbn [c_xprop standard_to]; tauto) ltac:(unfold standard_tidy in Ht; cbn [c_iana standard_to]; tauto) H) as (b & A & -> & Hb & Ho).
  exists b. split; [reflexivity|]. apply part_of. eauto.
Qed.
Lemma daylight_framed T v out : daylight_tidy v -> s_ical ser_daylight v = Ok out -> framed T (lit "DAYLIGHT") out false.
Proof.
  intros Ht H. cbn [s_ical ser_daylight ser_iso] in H.
  destruct (comp_clean (lit "DAYLIGHT") daylight_schema (daylight_to v) _ _ daylight_names (daylight_fields v Ht) ltac:(unfold daylight_tidy in Ht; cbn [c_xprop daylight_to]; tauto) ltac:(unfold daylight_tidy in Ht; cbn [c_iana daylight_to]; tauto) H) as (b & A & -> & Hb & Ho).
  exists b. split; [reflexivity|]. apply part_of. eauto.
Qed.

Definition has_alarm (v : vevent) : bool := match ev_alarms v with [] => false | _ => true end.
Lemma event_ser v body : ser_fields vevent_schema (c_fields (vevent_to v)) = Ok body ->
  exists h a, ser_fields vevent_schema (c_fields (vevent_to (set_ev_alarms v []))) = Ok h /\ vec_field ser_valarm (lit "ALARMS") (ev_alarms v) = Ok a /\ body = h ++ a.
Proof.
  unfold vevent_schema, vevent_to, set_ev_alarms.
  cbn [c_fields ser_fields fst snd ev_dtstamp ev_uid ev_dtstart ev_class ev_created ev_description ev_geo ev_last_modified ev_location ev_organizer ev_priority ev_sequence ev_status ev_summary ev_transp ev_url ev_recurid ev_rrule ev_dtend ev_duration ev_attach ev_attendee ev_categories ev_comment ev_contact ev_exdate ev_rstatus ev_related_to ev_resources ev_rdate ev_alarms].
  do 30 match goal with |- context [obind (f_ser ?n ?f ?x) _] => destruct (f_ser n f x) as [?s| |]; cbn [obind]; try discriminate end.
  change (f_ser (lit "ALARMS") (FIgn ser_valarm)) with (vec_field ser_valarm (lit "ALARMS")).
  destruct (vec_field ser_valarm (lit "ALARMS") (ev_alarms v)) as [a| |]; cbn [obind]; try discriminate. intros H. inv H.
  cbn [vec_field]. rewrite (C01_empty_value _ (ser_vec ser_valarm) (lit "ALARMS") []) by reflexivity. cbn [obind].
  eexists _, _. split; [reflexivity|]. split; [reflexivity|]. rewrite ?app_nil_r, <- ?app_assoc. reflexivity.
Qed.

Lemma ext_part T n m out : name_ok n -> tidy_ext m -> ser_field (ser_map ser_cl) n m = Ok out -> part T out false.
Proof. intros Hn Hm H. apply part_of. eapply item_clean; [exact Hn|apply item_ext, Hm|exact H]. Qed.
Lemma ext_starts n m out : name_ok n -> ser_field (ser_map ser_cl) n m = Ok out -> may_start out.
Proof. intros Hn H. eapply field_starts; [|exact Hn|exact H]. reflexivity. Qed.
Lemma starts_end nm : starts (end_row nm).
Proof. eexists _, _. split; [reflexivity|]. unfold CR, LF, SP. repeat split; intros X; vm_compute in X; discriminate. Qed.
(** The end of a component, after its fields. *)
Lemma framed_false T nm b : part T b false -> framed T nm (lit "BEGIN:" ++ nm ++ CRLF ++ b ++ end_row nm) false.
Proof. intros H. exists b. auto. Qed.
Lemma framed_true T nm b : part T (b ++ end_row nm) true -> framed T nm (lit "BEGIN:" ++ nm ++ CRLF ++ b ++ end_row nm) true.
Proof. intros H. exists b. auto. Qed.
Lemma part_more T a b : part T a true -> part T (a ++ b) true.
Proof. intros (A & H1 & H2). exists A. split; auto. now apply stuck_more. Qed.
Lemma framed_any T nm b k : part T b k -> framed T nm (lit "BEGIN:" ++ nm ++ CRLF ++ b ++ end_row nm) k.
Proof. destruct k; intros H; [apply framed_true; now apply part_more|now apply framed_false]. Qed.
Lemma event_framed T v out : apart T (lit "VALARM") -> event_tidy v -> s_ical ser_vevent v = Ok out -> framed T (lit "VEVENT") out (has_alarm v).
Proof.
  intros Ha [Ht Hal] H. cbn [s_ical ser_vevent ser_iso] in H. apply comp_parts in H as (b & x & i & B & Hx & Hi & ->).
  apply event_ser in B as (h & a & Hh & Hal2 & ->).
  pose proof (part_of T h (fields_lines_clean _ _ _ _ vevent_names (vevent_fields _ Ht) Hh)) as P1.
  assert (X1 : tidy_ext (ev_x_prop v) /\ tidy_ext (ev_iana_prop v)) by (unfold vevent_tidy in Ht; cbn [ev_x_prop ev_iana_prop set_ev_alarms] in Ht; tauto).
  cbn [c_xprop c_iana vevent_to] in *. destruct X1 as [X1 X2].
  pose proof (ext_part T _ _ _ name_ok_x X1 Hx) as P3. pose proof (ext_part T _ _ _ name_ok_i X2 Hi) as P4.
  change (lit "END:" ++ lit "VEVENT" ++ CRLF) with (end_row (lit "VEVENT")).
  replace ((h ++ a) ++ x ++ i ++ end_row (lit "VEVENT")) with ((h ++ a ++ x ++ i) ++ end_row (lit "VEVENT")) by now rewrite <- !app_assoc.
  unfold has_alarm. destruct (ev_alarms v) as [|a0 al] eqn:Q.
  - cbn [vec_field] in Hal2. rewrite (C01_empty_value _ (ser_vec ser_valarm) (lit "ALARMS") []) in Hal2 by reflexivity. inv Hal2.
    apply framed_false. apply (part_app T _ _ false false); auto. cbn [app]. now apply (part_app T _ _ false false).
  - apply framed_true. replace ((h ++ a ++ x ++ i) ++ end_row (lit "VEVENT")) with (h ++ a ++ x ++ i ++ end_row (lit "VEVENT")) by now rewrite <- !app_assoc.
    apply (part_app T _ _ false true); auto. eapply alarms_part; [exact Ha|exact Hal|discriminate|exact Hal2|].
    apply starts_app; [eapply (ext_starts (lit "X-PROP")); [apply name_ok_x|exact Hx]|]. apply starts_app; [eapply (ext_starts (lit "IANA-PROP")); [apply name_ok_i|exact Hi]|]. apply starts_end.
Qed.
Definition tz_crowd (v : vtimezone) : bool := (2 <=? length (tz_standard v))%nat || (2 <=? length (tz_daylight v))%nat.
Lemma existsb_no {X} (l : list X) : existsb (fun _ => false) l = false.
Proof. induction l; auto. Qed.
Ltac kid_name := apply name_ok_lit; [reflexivity|discriminate|reflexivity|reflexivity].
Lemma timezone_framed T v out : apart T (lit "STANDARD") -> apart T (lit "DAYLIGHT") -> timezone_tidy v -> s_ical ser_vtimezone v = Ok out -> framed T (lit "VTIMEZONE") out (tz_crowd v).
Proof.
  intros A1 A2 (Ht & F1 & F2) H. cbn [s_ical ser_vtimezone ser_iso] in H. apply comp_parts in H as (b & x & i & B & Hx & Hi & ->).
  apply tz_ser in B as (h & s & d & B & Hs & Hd & ->). cbn [c_xprop c_iana vtimezone_to] in *.
  pose proof (part_of T h (fields_lines_clean _ _ _ _ tz_line_names (tz_line_ok v Ht) B)) as P1.
  unfold vtimezone_tidy in Ht. destruct Ht as (_ & _ & _ & T1 & T2).
  pose proof (ext_part T _ _ _ name_ok_x T1 Hx) as P4. pose proof (ext_part T _ _ _ name_ok_i T2 Hi) as P5.
  apply (vec_part T ser_standard (lit "STANDARD") (lit "STANDARD") (fun _ => false)) in Hs; [|reflexivity|kid_name|now apply lit_no_eol|exact A1|].
  2: { eapply Forall_impl; [|exact F1]. intros y Hy o Ho. now apply (standard_framed T y). }
  apply (vec_part T ser_daylight (lit "DAYLIGHT") (lit "DAYLIGHT") (fun _ => false)) in Hd; [|reflexivity|kid_name|now apply lit_no_eol|exact A2|].
  2: { eapply Forall_impl; [|exact F2]. intros y Hy o Ho. now apply (daylight_framed T y). }
  rewrite existsb_no, orb_false_r in Hs. rewrite existsb_no, orb_false_r in Hd.
  change (lit "END:" ++ lit "VTIMEZONE" ++ CRLF) with (end_row (lit "VTIMEZONE")).
  replace ((h ++ s ++ d) ++ x ++ i ++ end_row (lit "VTIMEZONE")) with ((h ++ s ++ d ++ x ++ i) ++ end_row (lit "VTIMEZONE")) by now rewrite <- !app_assoc.
  apply framed_any. unfold tz_crowd. apply (part_app T _ _ false _ P1). apply (part_app T _ _ _ _ Hs).
  rewrite <- (orb_false_r (2 <=? length (tz_daylight v))%nat). apply (part_app T _ _ _ _ Hd). exact (part_app T _ _ false false P4 P5).
Qed.
Definition ca_crowd (v : vcalendar) : bool :=
  (match ca_alarms v with [] => false | _ => true end) || ((2 <=? length (ca_events v))%nat || existsb has_alarm (ca_events v)) ||
  (2 <=? length (ca_freebusy v))%nat || (2 <=? length (ca_journals v))%nat || (2 <=? length (ca_todo v))%nat ||
  ((2 <=? length (ca_timezones v))%nat || existsb tz_crowd (ca_timezones v)).
Lemma calendar_framed T v out : apart T (lit "VALARM") -> apart T (lit "VEVENT") -> apart T (lit "VFREEBUSY") -> apart T (lit "VJOURNAL") -> apart T (lit "VTODO") ->
  apart T (lit "VTIMEZONE") -> apart T (lit "STANDARD") -> apart T (lit "DAYLIGHT") -> calendar_tidy v -> s_ical ser_vcalendar v = Ok out -> framed T (lit "VCALENDAR") out (ca_crowd v).
Proof.
  intros A1 A2 A3 A4 A5 A6 A7 A8 (Ht & F0 & F1 & F2 & F3 & F4 & F5) H. cbn [s_ical ser_vcalendar ser_iso] in H. apply comp_parts in H as (b & x & i & B & Hx & Hi & ->).
  apply ca_ser in B as (h & xa & xe & xf & xj & xt & xz & B & Ha & He & Hf & Hj & Htd & Hz & ->). cbn [c_xprop c_iana vcalendar_to] in *.
  pose proof (part_of T h (fields_lines_clean _ _ _ _ ca_line_names (ca_line_ok v Ht) B)) as P1.
  unfold vcalendar_tidy in Ht. destruct Ht as (_ & _ & _ & _ & T1 & T2).
  pose proof (ext_part T _ _ _ name_ok_x T1 Hx) as P4. pose proof (ext_part T _ _ _ name_ok_i T2 Hi) as P5.
  assert (SX : forall R nm s (to : R -> comp s) n l o, name_ok n -> vec_field (ser_iso nm s to) n l = Ok o -> may_start o).
  { intros R nm s to n l o Hn Ho. eapply vec_starts; [exact Hn| |exact Ho]. right. intros y o' Hy. eapply comp_starts, Hy. }
  assert (St : starts (xe ++ xf ++ xj ++ xt ++ xz ++ x ++ i ++ end_row (lit "VCALENDAR"))).
  { apply starts_app; [eapply SX; [|exact He]; kid_name|]. apply starts_app; [eapply SX; [|exact Hf]; kid_name|]. apply starts_app; [eapply SX; [|exact Hj]; kid_name|].
    apply starts_app; [eapply SX; [|exact Htd]; kid_name|]. apply starts_app; [eapply SX; [|exact Hz]; kid_name|].
    apply starts_app; [eapply ext_starts; [|exact Hx]; apply name_ok_x|]. apply starts_app; [eapply ext_starts; [|exact Hi]; apply name_ok_i|]. apply starts_end. }
  apply (vec_part T ser_vevent (lit "EVENTS") (lit "VEVENT") has_alarm) in He; [|reflexivity|kid_name|now apply lit_no_eol|exact A2|].
  2: { eapply Forall_impl; [|exact F1]. intros y Hy o Ho. now apply (event_framed T y). }
  apply (vec_part T ser_vfreebusy (lit "FREEBUSY") (lit "VFREEBUSY") (fun _ => false)) in Hf; [|reflexivity|kid_name|now apply lit_no_eol|exact A3|].
  2: { eapply Forall_impl; [|exact F2]. intros y Hy o Ho. now apply (vfreebusy_framed T y). }
  apply (vec_part T ser_vjournal (lit "JOURNALS") (lit "VJOURNAL") (fun _ => false)) in Hj; [|reflexivity|kid_name|now apply lit_no_eol|exact A4|].
  2: { eapply Forall_impl; [|exact F3]. intros y Hy o Ho. now apply (vjournal_framed T y). }
  apply (vec_part T ser_vtodo (lit "TODO") (lit "VTODO") (fun _ => false)) in Htd; [|reflexivity|kid_name|now apply lit_no_eol|exact A5|].
  2: { eapply Forall_impl; [|exact F4]. intros y Hy o Ho. now apply (vtodo_framed T y). }
  apply (vec_part T ser_vtimezone (lit "TIMEZONES") (lit "VTIMEZONE") tz_crowd) in Hz; [|reflexivity|kid_name|now apply lit_no_eol|exact A6|].
  2: { eapply Forall_impl; [|exact F5]. intros y Hy o Ho. now apply (timezone_framed T y). }
  rewrite existsb_no, orb_false_r in Hf. rewrite existsb_no, orb_false_r in Hj. rewrite existsb_no, orb_false_r in Htd.
  change (lit "END:" ++ lit "VCALENDAR" ++ CRLF) with (end_row (lit "VCALENDAR")).
  replace ((h ++ xa ++ xe ++ xf ++ xj ++ xt ++ xz) ++ x ++ i ++ end_row (lit "VCALENDAR")) with ((h ++ xa ++ xe ++ xf ++ xj ++ xt ++ xz ++ x ++ i) ++ end_row (lit "VCALENDAR")) by now rewrite <- !app_assoc.
  unfold ca_crowd. destruct (ca_alarms v) as [|a0 al] eqn:Q.
  - cbn [vec_field] in Ha. rewrite (C01_empty_value _ (ser_vec ser_valarm) (lit "ALARMS") []) in Ha by reflexivity. inv Ha. cbn [app orb].
    match goal with |- framed _ _ _ ?k => replace k with (false || (((2 <=? length (ca_events v))%nat || existsb has_alarm (ca_events v)) ||
      ((2 <=? length (ca_freebusy v))%nat || ((2 <=? length (ca_journals v))%nat || ((2 <=? length (ca_todo v))%nat ||
      (((2 <=? length (ca_timezones v))%nat || existsb tz_crowd (ca_timezones v)) || false)))))) by (cbn [orb]; rewrite orb_false_r, <- !orb_assoc; reflexivity) end.
    apply framed_any. apply (part_app T _ _ false _ P1).
    apply (part_app T _ _ _ _ He). apply (part_app T _ _ _ _ Hf). apply (part_app T _ _ _ _ Hj). apply (part_app T _ _ _ _ Htd).
    apply (part_app T _ _ _ _ Hz). exact (part_app T _ _ false false P4 P5).
  - cbn [orb]. apply framed_true. replace ((h ++ xa ++ xe ++ xf ++ xj ++ xt ++ xz ++ x ++ i) ++ end_row (lit "VCALENDAR")) with (h ++ xa ++ xe ++ xf ++ xj ++ xt ++ xz ++ x ++ i ++ end_row (lit "VCALENDAR")) by now rewrite <- !app_assoc.
    apply (part_app T _ _ false true P1). eapply alarms_part; [exact A1|exact F0|discriminate|exact Ha|exact St].
Qed.
(** A component stuck before its END is not read. *)
Lemma framed_never nm out rest : no_eol nm -> framed nm nm out true -> ~ walk (unfold_lines out) (lit "END:" ++ nm ++ rest).
Proof.
  intros Hn (b & -> & P). assert (R : part nm ((lit "BEGIN:" ++ nm ++ CRLF) ++ b ++ end_row nm) true).
  { apply (part_app nm _ _ false true); [now apply part_begin|exact P]. }
  destruct R as (A & H1 & H2). replace (lit "BEGIN:" ++ nm ++ CRLF ++ b ++ end_row nm) with ((lit "BEGIN:" ++ nm ++ CRLF) ++ b ++ end_row nm) by now rewrite <- !app_assoc.
  eapply stuck_never; eauto.
Qed.
End Env.
