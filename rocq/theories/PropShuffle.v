(** * C80: the order of the lines does not matter *)
From Verif Require Import Base Env Nom Types Ser Parser Derive Components BaseFacts NomFacts SpecText SpecLine SpecComp SpecFields SpecFile SpecInput SpecShuffle
  SerFacts LineFacts DeriveFacts PropText PropLine PropComp PropFile PropDate PropInput.

(** ** Lines by name *)
Lemma str_eqb_spec a b : Bool.reflect (a = b) (str_eqb a b).
Proof. destruct (str_eqb a b) eqn:H; constructor; [now apply str_eqb_eq|now apply str_eqb_neq]. Qed.
Lemma named_first n ls l : first_line n ls l <-> exists p, lines_named n ls = l :: p.
Proof.
  split.
  - intros (a & b & -> & <- & H). apply absent_lines in H. rewrite lines_named_app, H. cbn. rewrite str_eqb_refl. eauto.
  - intros [p H]. revert p H. induction ls as [|x ls IH]; intros p H; [discriminate|].
    cbn in H. destruct (str_eqb_spec (cl_key x) n) as [K|K].
    + injection H as -> _. exists [], ls. repeat split; auto. constructor.
    + destruct (IH p H) as (a & b & -> & Q & R). exists (x :: a), b. repeat split; auto. now constructor.
Qed.
Section Names.
Context {T : Type} (n : str) (ls ls' : list content_line).
Hypothesis H : same_by_name ls ls'.
Lemma same_absent : absent n ls -> absent n ls'.
Proof. rewrite !absent_lines. now rewrite (H n). Qed.
Lemma same_last l : last_line n ls l -> last_line n ls' l.
Proof. rewrite !last_line_iff. now rewrite (H n). Qed.
Lemma same_first l : first_line n ls l -> first_line n ls' l.
Proof. rewrite !named_first. now rewrite (H n). Qed.
Lemma same_required (p : content_line -> outcome T) v : required p n ls v -> required p n ls' v.
Proof. intros (l & L & P). exists l. split; auto using same_last. Qed.
Lemma same_in l : cl_key l = n -> In l ls' -> In l ls.
Proof.
  intros K I. assert (X : In l (lines_named n ls')) by (apply filter_In; split; auto; rewrite K; apply str_eqb_refl).
  rewrite <- (H n) in X. apply filter_In in X. tauto.
Qed.
Lemma same_optional (p : content_line -> outcome T) v : optional p n ls v -> optional p n ls' v.
Proof.
  intros [A B]. split; [intros l I K; apply A; auto using same_in|]. destruct v; auto using same_required, same_absent.
Qed.
Lemma same_repeated (p : content_line -> outcome T) v : repeated p n ls v -> repeated p n ls' v.
Proof. unfold repeated. now rewrite (H n). Qed.
Lemma same_appended (p : content_line -> outcome (list T)) v : appended p n ls v -> appended p n ls' v.
Proof. unfold appended. now rewrite (H n). Qed.
End Names.
Lemma same_sym ls ls' : same_by_name ls ls' -> same_by_name ls' ls.
Proof. intros H n. now rewrite (H n). Qed.
Lemma same_extensions k ls ls' x i : same_by_name ls ls' -> extensions k ls x i -> extensions k ls' x i.
Proof.
  intros H (S1 & S2 & X & I). pose proof (same_sym _ _ H) as H'. split; auto. split; auto. split; intros n l.
  - rewrite (X n l). split; intros (P & Q & R); repeat split; auto; eauto using same_last.
  - rewrite (I n l). split; intros (P & Q & R); repeat split; auto; eauto using same_last.
Qed.
Section Env.
Context {E : Env}.
Ltac same_fields := intros ls ls' v H; unfold audio_read, display_read, email_read, vevent_read, vtodo_read, vjournal_read, vfreebusy_read, standard_read, daylight_read, vtimezone_read, vcalendar_read;
  intros X; repeat match type of X with _ /\ _ => let Y := fresh in destruct X as [Y X] end;
  repeat match goal with |- _ /\ _ => split end;
  first [eapply same_required; eassumption | eapply same_optional; eassumption | eapply same_repeated; eassumption | eapply same_appended; eassumption | eapply same_extensions; eassumption | idtac]; auto.
Lemma audio_same : forall ls ls' v, same_by_name ls ls' -> audio_read ls v -> audio_read ls' v. Proof. same_fields. Qed.
Lemma display_same : forall ls ls' v, same_by_name ls ls' -> display_read ls v -> display_read ls' v. Proof. same_fields. Qed.
Lemma email_same : forall ls ls' v, same_by_name ls ls' -> email_read ls v -> email_read ls' v. Proof. same_fields. Qed.
Lemma vevent_same : forall ls ls' v, same_by_name ls ls' -> vevent_read ls v -> vevent_read ls' v. Proof. same_fields. Qed.
Lemma vtodo_same : forall ls ls' v, same_by_name ls ls' -> vtodo_read ls v -> vtodo_read ls' v. Proof. same_fields. Qed.
Lemma vjournal_same : forall ls ls' v, same_by_name ls ls' -> vjournal_read ls v -> vjournal_read ls' v. Proof. same_fields. Qed.
Lemma vfreebusy_same : forall ls ls' v, same_by_name ls ls' -> vfreebusy_read ls v -> vfreebusy_read ls' v. Proof. same_fields. Qed.
Lemma standard_same : forall ls ls' v, same_by_name ls ls' -> standard_read ls v -> standard_read ls' v. Proof. same_fields. Qed.
Lemma daylight_same : forall ls ls' v, same_by_name ls ls' -> daylight_read ls v -> daylight_read ls' v. Proof. same_fields. Qed.
Lemma vtimezone_same : forall ls ls' v, same_by_name ls ls' -> vtimezone_read ls v -> vtimezone_read ls' v. Proof. same_fields. Qed.
Lemma vcalendar_same : forall ls ls' v, same_by_name ls ls' -> vcalendar_read ls v -> vcalendar_read ls' v. Proof. same_fields. Qed.
Lemma valarm_same : forall ls ls' v, same_by_name ls ls' -> valarm_read ls v -> valarm_read ls' v.
Proof.
  intros ls ls' v H (l & F & X). exists l. split; [eapply same_first; eauto|].
  destruct v; (split; [apply X|]); destruct X as [_ X]; eauto using audio_same, display_same, email_same.
Qed.
End Env.

(** ** Files as lists of lines *)
Ltac ands := repeat match goal with |- _ /\ _ => split end.
Definition ok (l : list (str * str)) : Prop := Forall file_line l.
Definition reads (x : str * str) (c : content_line) : Prop := p_content_line (fst x ++ [LF]) = POk [] c.
(** One exchange. *)
Inductive sw : list (str * str) -> list (str * str) -> Prop :=
| sw_refl l : sw l l
| sw_here x y b n m : proper (fst x) -> proper (fst y) -> line_name (fst x) n -> line_name (fst y) m -> n <> m -> sw (x :: y :: b) (y :: x :: b)
| sw_next x l l' : sw l l' -> sw (x :: l) (x :: l').
Lemma sw_swap a x y b n m : proper (fst x) -> proper (fst y) -> line_name (fst x) n -> line_name (fst y) m -> n <> m ->
  sw (a ++ x :: y :: b) (a ++ y :: x :: b).
Proof. intros. induction a as [|z a IH]; [eapply sw_here; eauto|now apply sw_next]. Qed.
Lemma sw_sym l l' : sw l l' -> sw l' l.
Proof. induction 1; [constructor|eapply sw_here; eauto|now apply sw_next]. Qed.
Lemma sw_ok l l' : sw l l' -> ok l -> ok l'.
Proof.
  induction 1; intros H'; auto.
  - inversion H' as [|? ? A B]; subst. inversion B; subst. repeat (constructor; auto).
  - inversion H'; subst. constructor; auto. now apply IHsw.
Qed.
Lemma file_cons x l : file_text (x :: l) = fst x ++ snd x ++ file_text l.
Proof. unfold file_text. cbn [flat_map]. now rewrite <- app_assoc. Qed.
Lemma file_no_quote l : ok l -> ~ In QUOTE (file_text l).
Proof.
  induction 1 as [|x l (Hb & Hq & He & _) _ IH]; [auto|]. rewrite file_cons, !in_app_iff. apply eol_no_quote in He. tauto.
Qed.
Lemma proper_reads x l : file_line x -> ok l -> proper (fst x) -> exists c, reads x c /\ p_content_line (file_text (x :: l)) = POk (file_text l) c.
Proof.
  intros (Hb & Hq & He & _) Hl Hp. apply proper_line in Hp as [c H]; auto. exists c. split.
  - unfold reads. change [LF] with ([LF] ++ []). apply H; [now left|auto].
  - rewrite file_cons. apply H; auto. now apply file_no_quote.
Qed.
Lemma reads_here x l c : file_line x -> ok l -> reads x c -> p_content_line (file_text (x :: l)) = POk (file_text l) c.
Proof.
  intros Hx Hl H. assert (P : proper (fst x)) by (exists c; now apply is_line_parse). destruct (proper_reads x l Hx Hl P) as (c' & H' & Q).
  unfold reads in *. rewrite H in H'. now injection H' as ->.
Qed.
Lemma delim_head x l : file_line x -> ok l -> PropFile.delimiter (file_text (x :: l)) -> delimiter (fst x).
Proof.
  intros Hx Hl D. pose proof Hx as (_ & _ & _ & [P|P]); auto. exfalso. destruct (proper_reads x l Hx Hl P) as (c & _ & Q).
  rewrite PropFile.delimiter_no_line in Q by auto. discriminate.
Qed.
Lemma head_delim (x : str * str) l : delimiter (fst x) -> PropFile.delimiter (file_text (x :: l)).
Proof. rewrite file_cons. intros [[y ->]|[y ->]]; [left|right]; exists (y ++ snd x ++ file_text l); now rewrite <- !app_assoc. Qed.
Lemma not_proper_delim (x : str * str) : proper (fst x) -> delimiter (fst x) -> False.
Proof. intros P D. now apply delimiter_not_proper in D. Qed.
Lemma sw_delim l l' : ok l -> sw l l' -> PropFile.delimiter (file_text l) -> PropFile.delimiter (file_text l').
Proof.
  intros Hl H D. destruct H as [l|x y b n m Hx Hy _ _ _|x l l' H]; auto.
  - inversion Hl as [|? ? A B]; subst. apply delim_head in D; auto. exfalso. now apply (not_proper_delim x).
  - inversion Hl as [|? ? A B]; subst. apply head_delim. now apply delim_head in D.
Qed.
Lemma lines_nil ls rest : PropFile.delimiter rest -> lines_text (file_text []) ls rest -> False.
Proof.
  intros D H. apply lines_parse in H; auto. apply lines_POk in H. cbn [file_text flat_map] in H. inversion H; subst; [|discriminate].
  destruct D as [[y Y]|[y Y]]; discriminate Y.
Qed.
Lemma lines_cons x l ls rest : file_line x -> ok l -> PropFile.delimiter rest -> lines_text (file_text (x :: l)) ls rest ->
  (ls = [] /\ rest = file_text (x :: l) /\ delimiter (fst x)) \/
  exists c ls0, ls = c :: ls0 /\ reads x c /\ lines_text (file_text l) ls0 rest.
Proof.
  intros Hx Hl D H. apply lines_parse in H; auto. apply lines_POk in H. inversion H as [s P|s r a ls0 r' P Lt H']; subst.
  - left. ands; auto. pose proof Hx as (_ & _ & _ & [Q|Q]); auto. destruct (proper_reads x l Hx Hl Q) as (c & _ & K). congruence.
  - right. exists a, ls0. pose proof Hx as (_ & _ & _ & [Q|Q]).
    + destruct (proper_reads x l Hx Hl Q) as (c & R & K). rewrite K in P. injection P as <- <-. ands; auto;
      apply lines_parse; auto; now apply lines_POk.
    + rewrite PropFile.delimiter_no_line in P by now apply head_delim. discriminate.
Qed.
Lemma cons_lines x l c ls rest : file_line x -> ok l -> reads x c -> lines_text (file_text l) ls rest -> lines_text (file_text (x :: l)) (c :: ls) rest.
Proof.
  intros Hx Hl R [H F]. apply (reads_here x l c Hx Hl) in R. split.
  - econstructor; [|exact H]. now apply is_line_parse.
  - constructor; auto. apply sorted_map_iff. now apply params_sorted in R.
Qed.
Lemma name_key x n c : reads x c -> line_name (fst x) n -> cl_key c = n.
Proof.
  intros R [Hn [r Hr]]. unfold reads in R. apply line_POk in R as (_ & _ & k & t & l & v & e & Q & Hk & Hp & _ & _ & ->). cbn.
  assert (U : forall k1 k2 c1 c2 s1 s2, key_text k1 -> key_text k2 -> ~ key_char c1 -> ~ key_char c2 -> k1 ++ c1 :: s1 = k2 ++ c2 :: s2 -> k1 = k2).
  { induction k1 as [|a k1 IH]; intros [|b k2] c1 c2 s1 s2 K1 K2 N1 N2 X; auto; cbn in X; injection X as X1 X2; subst.
    - now apply Forall_inv in K2.
    - now apply Forall_inv in K1.
    - f_equal. inversion K1; inversion K2; subst. eapply IH with (5 := X2); auto. }
  assert (exists d u, t = d :: u /\ ~ key_char d) as (d & u & -> & Hd).
  { apply params_read_head in Hp as [[u ->]|[u ->]]; [exists COLON, u|exists SEMI, u]; auto using not_key_colon, not_key_semi. }
  destruct Hr as [Hr|Hr]; rewrite Hr, <- app_assoc in Q; cbn [app] in Q; symmetry in Q; eapply U with (5 := Q); auto using not_key_colon, not_key_semi.
Qed.
Lemma same_cons c ls ls' : same_by_name ls ls' -> same_by_name (c :: ls) (c :: ls').
Proof. intros H n. unfold lines_named in *. cbn. specialize (H n). unfold lines_named in H. now rewrite H. Qed.
Lemma same_two c d ls : cl_key c <> cl_key d -> same_by_name (c :: d :: ls) (d :: c :: ls).
Proof.
  intros H n. unfold lines_named. cbn. destruct (str_eqb_spec (cl_key c) n), (str_eqb_spec (cl_key d) n); auto. congruence.
Qed.
Lemma lines_none s : lines_text s [] s.
Proof. split; constructor. Qed.
Lemma same_refl ls : same_by_name ls ls.
Proof. now intros n. Qed.
Lemma lines_sw l l' ls rest : ok l -> sw l l' -> PropFile.delimiter rest -> lines_text (file_text l) ls rest ->
  exists ls' r r', rest = file_text r /\ ok r /\ sw r r' /\ lines_text (file_text l') ls' (file_text r') /\ same_by_name ls ls'.
Proof.
  intros Hl H. revert ls Hl. induction H as [l|x y b n m Hx Hy Nx Ny Hn|x l l' H IH]; intros ls Hl D L.
  - revert ls L. induction l as [|x l IH]; intros ls L; [now apply lines_nil in L|]. inversion Hl as [|? ? A B]; subst.
    apply lines_cons in L as [(-> & -> & Dx)|(c & ls0 & -> & R & L)]; auto.
    + exists [], (x :: l), (x :: l). ands; auto using lines_none, same_refl, sw_refl.
    + destruct (IH B ls0 L) as (ls' & r & r' & -> & Hr & S' & L' & N). exists (c :: ls'), r, r'. ands; auto using cons_lines, same_cons;
      now apply cons_lines.
  - inversion Hl as [|? ? A B]; subst. inversion B as [|? ? A2 B2]; subst.
    apply lines_cons in L as [(-> & -> & Dx)|(c & ls0 & -> & R & L)]; auto; [now apply not_proper_delim in Dx|].
    apply lines_cons in L as [(-> & -> & Dx)|(d & ls1 & -> & R2 & L)]; auto; [now apply not_proper_delim in Dx|].
    assert (exists r, rest = file_text r /\ ok r) as (r & -> & Hr).
    { clear - D L B2. revert ls1 L. induction B2 as [|x l A B IH]; intros ls L; [now apply lines_nil in L|].
      apply lines_cons in L as [(-> & -> & Dx)|(c & ls0 & -> & R & L)]; auto; [exists (x :: l); split; auto; now constructor|eauto]. }
    exists (d :: c :: ls1), r, r. ands; auto; [constructor|..].
    + apply cons_lines; auto; [now constructor|]. apply cons_lines; auto.
    + apply same_two. rewrite (name_key x n c), (name_key y m d); auto.
  - inversion Hl as [|? ? A B]; subst. pose proof (sw_ok _ _ H B) as B'.
    apply lines_cons in L as [(-> & -> & Dx)|(c & ls0 & -> & R & L)]; auto.
    + exists [], (x :: l), (x :: l'). ands; auto using lines_none, same_refl, sw_next.
    + destruct (IH ls0 B D L) as (ls' & r & r' & -> & Hr & S' & L' & N). exists (c :: ls'), r, r'. ands; auto using same_cons; now apply cons_lines.
Qed.
(** BEGIN and END lines *)
Lemma tag_file n t l : ~ In CR n -> ~ In LF n -> ok l -> file_text l = (n ++ CRLF) ++ t -> exists l0, l = (n, CRLF) :: l0 /\ ok l0 /\ t = file_text l0.
Proof.
  intros H1 H2 Hl H. destruct Hl as [|x l Hx Hl].
  - cbn in H. exfalso. destruct n; discriminate H.
  - pose proof Hx as (Hb & _ & He & _). rewrite file_cons in H.
    assert (T : tag (n ++ CRLF) (fst x ++ snd x ++ file_text l) = POk t (n ++ CRLF)) by (rewrite H; apply tag_app).
    apply tag_line in T as (Q1 & Q2 & ->); auto. exists l. split; auto. destruct x; cbn in *; congruence.
Qed.
Lemma sw_tag n l0 l' : delimiter n -> sw ((n, CRLF) :: l0) l' -> exists l0', l' = (n, CRLF) :: l0' /\ sw l0 l0'.
Proof.
  intros D H. inversion H; subst.
  - eexists. split; [reflexivity|constructor].
  - exfalso. now apply (not_proper_delim (n, CRLF)).
  - eauto.
Qed.
Lemma tag_sw n t l l' : delimiter n -> ~ In CR n -> ~ In LF n -> ok l -> sw l l' -> file_text l = (n ++ CRLF) ++ t ->
  exists l0 l0', t = file_text l0 /\ ok l0 /\ sw l0 l0' /\ file_text l' = (n ++ CRLF) ++ file_text l0'.
Proof.
  intros D H1 H2 Hl H T. apply tag_file in T as (l0 & -> & Hl0 & ->); auto. apply sw_tag in H as (l0' & -> & H); auto.
  exists l0, l0'. ands; auto.
Qed.

(** ** The grammar *)
Definition moves {A} (one : str -> A -> str -> Prop) : Prop := forall l l' v rest, ok l -> sw l l' -> one (file_text l) v rest ->
  exists r r', rest = file_text r /\ ok r /\ sw r r' /\ one (file_text l') v (file_text r').
Lemma moves_seq {A} (one : str -> A -> str -> Prop) : moves one -> forall l l' vs rest, ok l -> sw l l' -> seq_text one (file_text l) vs rest ->
  exists r r', rest = file_text r /\ ok r /\ sw r r' /\ seq_text one (file_text l') vs (file_text r').
Proof.
  intros Hm l l' vs rest Hl H X. remember (file_text l) as s eqn:Q. revert l l' Hl H Q. induction X as [s|s a r l0 rest Ho X IH]; intros l l' Hl H ->.
  - exists l, l'. ands; auto; constructor.
  - destruct (Hm _ _ _ _ Hl H Ho) as (r1 & r1' & -> & Hr & S1 & O1). destruct (IH r1 r1' Hr S1 eq_refl) as (r2 & r2' & -> & Hr2 & S2 & O2).
    exists r2, r2'. ands; auto. econstructor; eauto.
Qed.
Ltac notin := let H := fresh in intros H; vm_compute in H; intuition discriminate.
Lemma moves_simple {A} name (read : list content_line -> A -> Prop) : ~ In CR name -> ~ In LF name ->
  (forall ls ls' v, same_by_name ls ls' -> read ls v -> read ls' v) -> moves (simple_text name read).
Proof.
  intros N1 N2 Hr l l' v rest Hl H (t & ls & T & L & R).
  assert (M : forall p q : str, ~ In CR p -> ~ In LF p -> ~ In CR (p ++ name) /\ ~ In LF (p ++ name)) by (intros; rewrite !in_app_iff; tauto).
  destruct (M (lit "BEGIN:") [] ltac:(notin) ltac:(notin)) as [B1 B2]. destruct (M (lit "END:") [] ltac:(notin) ltac:(notin)) as [E1 E2].
  replace (lit "BEGIN:" ++ name ++ [CR; LF] ++ t) with (((lit "BEGIN:" ++ name) ++ CRLF) ++ t) in T by assoc.
  apply (tag_sw _ _ l l') in T as (l0 & l0' & -> & Hl0 & H0 & T'); auto; [|left; now exists name].
  assert (D : PropFile.delimiter (lit "END:" ++ name ++ [CR; LF] ++ rest)) by (right; eexists; reflexivity).
  destruct (lines_sw _ _ _ _ Hl0 H0 D L) as (ls' & r & r' & Q & Hrr & Sr & L' & Sm).
  symmetry in Q. replace (lit "END:" ++ name ++ [CR; LF] ++ rest) with (((lit "END:" ++ name) ++ CRLF) ++ rest) in Q by assoc.
  apply (tag_sw _ _ r r') in Q as (r0 & r0' & -> & Hr0 & S0 & Q'); auto; [|right; now exists name].
  exists r0, r0'. ands; auto. exists (file_text l0'), ls'. split; [rewrite T'; assoc|]. split; [|eauto].
  rewrite Q' in L'. replace (lit "END:" ++ name ++ [CR; LF] ++ file_text r0') with (((lit "END:" ++ name) ++ CRLF) ++ file_text r0') by assoc. exact L'.
Qed.
Lemma seq_delim {A} (one : str -> A -> str -> Prop) s vs rest : (forall s v r, one s v r -> PropFile.delimiter s) -> PropFile.delimiter rest -> seq_text one s vs rest -> PropFile.delimiter s.
Proof. intros H D X. inversion X; subst; eauto. Qed.
Lemma simple_delim {A} name (read : list content_line -> A -> Prop) s v r : simple_text name read s v r -> PropFile.delimiter s.
Proof. intros (t & ls & -> & _). left. eexists. reflexivity. Qed.
Section Grammar.
Context {E : Env}.
Lemma moves_alarm : moves alarm_text.
Proof. apply moves_simple; [notin|notin|apply valarm_same]. Qed.
Lemma moves_event : moves event_text.
Proof.
  intros l l' v rest Hl H (t & ls & t2 & v0 & T & L & K & R & V).
  change (lit "BEGIN:VEVENT" ++ [CR; LF] ++ t) with ((lit "BEGIN:VEVENT" ++ CRLF) ++ t) in T.
  apply (tag_sw _ _ l l') in T as (l0 & l0' & -> & Hl0 & H0 & T'); auto; [|left; eexists; reflexivity|notin|notin].
  assert (De : PropFile.delimiter (lit "END:VEVENT" ++ [CR; LF] ++ rest)) by (right; eexists; reflexivity).
  assert (D : PropFile.delimiter t2) by (eapply seq_delim; [intros; eapply simple_delim; eassumption|exact De|exact K]).
  destruct (lines_sw _ _ _ _ Hl0 H0 D L) as (ls' & r & r' & -> & Hrr & Sr & L' & Sm).
  destruct (moves_seq _ moves_alarm _ _ _ _ Hrr Sr K) as (q & q' & Q & Hq & Sq & K').
  symmetry in Q. change (lit "END:VEVENT" ++ [CR; LF] ++ rest) with ((lit "END:VEVENT" ++ CRLF) ++ rest) in Q.
  apply (tag_sw _ _ q q') in Q as (z & z' & -> & Hz & Sz & Q'); auto; [|right; eexists; reflexivity|notin|notin].
  exists z, z'. ands; auto. exists (file_text l0'), ls', (file_text r'), v0. ands; auto.
  - rewrite Q' in K'. exact K'.
  - eapply vevent_same; eauto.
Qed.
Lemma moves_tz : moves tz_part_text.
Proof.
  intros l l' [x|x] rest Hl H X; cbn [tz_part_text] in *;
  (eapply moves_simple in X; [exact X|notin|notin| |exact Hl|exact H]); [apply standard_same|apply daylight_same].
Qed.
Lemma tz_delim s c r : tz_part_text s c r -> PropFile.delimiter s.
Proof. destruct c; cbn [tz_part_text]; apply simple_delim. Qed.
Lemma moves_timezone : moves timezone_text.
Proof.
  intros l l' v rest Hl H (t & ls & t2 & cs & v0 & T & L & K & R & V).
  change (lit "BEGIN:VTIMEZONE" ++ [CR; LF] ++ t) with ((lit "BEGIN:VTIMEZONE" ++ CRLF) ++ t) in T.
  apply (tag_sw _ _ l l') in T as (l0 & l0' & -> & Hl0 & H0 & T'); auto; [|left; eexists; reflexivity|notin|notin].
  assert (De : PropFile.delimiter (lit "END:VTIMEZONE" ++ [CR; LF] ++ rest)) by (right; eexists; reflexivity).
  assert (D : PropFile.delimiter t2) by (eapply seq_delim; [exact tz_delim|exact De|exact K]).
  destruct (lines_sw _ _ _ _ Hl0 H0 D L) as (ls' & r & r' & -> & Hrr & Sr & L' & Sm).
  destruct (moves_seq _ moves_tz _ _ _ _ Hrr Sr K) as (q & q' & Q & Hq & Sq & K').
  symmetry in Q. change (lit "END:VTIMEZONE" ++ [CR; LF] ++ rest) with ((lit "END:VTIMEZONE" ++ CRLF) ++ rest) in Q.
  apply (tag_sw _ _ q q') in Q as (z & z' & -> & Hz & Sz & Q'); auto; [|right; eexists; reflexivity|notin|notin].
  exists z, z'. ands; auto. exists (file_text l0'), ls', (file_text r'), cs, v0.
  split; [rewrite T'; assoc|]. split; [exact L'|]. split; [rewrite Q' in K'; exact K'|]. split; [eapply vtimezone_same; eauto|exact V].
Qed.
Lemma moves_child : moves child_text.
Proof.
  intros l l' [x|x|x|x|x|x] rest Hl H X; cbn [child_text] in *.
  - exact (moves_alarm _ _ _ _ Hl H X).
  - exact (moves_event _ _ _ _ Hl H X).
  - refine (moves_simple (lit "VFREEBUSY") vfreebusy_read _ _ vfreebusy_same _ _ _ _ Hl H X); notin.
  - refine (moves_simple (lit "VJOURNAL") vjournal_read _ _ vjournal_same _ _ _ _ Hl H X); notin.
  - exact (moves_timezone _ _ _ _ Hl H X).
  - refine (moves_simple (lit "VTODO") vtodo_read _ _ vtodo_same _ _ _ _ Hl H X); notin.
Qed.
Lemma child_delim s c r : child_text s c r -> PropFile.delimiter s.
Proof.
  destruct c; cbn [child_text]; try apply simple_delim.
  - intros (t & ls & t2 & v0 & -> & _). left. eexists. reflexivity.
  - intros (t0 & ls & t2 & cs & v0 & -> & _). left. eexists. reflexivity.
Qed.
Lemma moves_calendar l l' ls cs rest : ok l -> sw l l' -> calendar_text (file_text l) ls cs rest ->
  exists ls' rest', calendar_text (file_text l') ls' cs rest' /\ same_by_name ls ls'.
Proof.
  intros Hl H (t & t2 & T & L & K).
  change (lit "BEGIN:VCALENDAR" ++ [CR; LF] ++ t) with ((lit "BEGIN:VCALENDAR" ++ CRLF) ++ t) in T.
  apply (tag_sw _ _ l l') in T as (l0 & l0' & -> & Hl0 & H0 & T'); auto; [|left; eexists; reflexivity|notin|notin].
  assert (De : PropFile.delimiter (lit "END:VCALENDAR" ++ rest)) by (right; eexists; reflexivity).
  assert (D : PropFile.delimiter t2) by (eapply seq_delim; [exact child_delim|exact De|exact K]).
  destruct (lines_sw _ _ _ _ Hl0 H0 D L) as (ls' & r & r' & -> & Hrr & Sr & L' & Sm).
  destruct (moves_seq _ moves_child _ _ _ _ Hrr Sr K) as (q & q' & Q & Hq & Sq & K').
  assert (exists rest', file_text q' = lit "END:VCALENDAR" ++ rest') as [rest' Q'].
  { rewrite Q in De. destruct Hq as [|x q Hx Hq]; [destruct De as [[y Y]|[y Y]]; discriminate Y|].
    apply delim_head in De; auto. pose proof Hx as (Hb & _ & He & _).
    assert (T : tag (lit "END:VCALENDAR") (fst x ++ snd x ++ file_text q) = POk rest (lit "END:VCALENDAR")) by (rewrite <- file_cons, <- Q; apply tag_app).
    apply tag_eol in T as (y & Y & _); auto; [|notin|notin].
    inversion Sq as [|? ? ? ? ? P|? ? q0 Sq0]; subst.
    - exists (y ++ snd x ++ file_text q). rewrite file_cons, Y. assoc.
    - exfalso. now apply (not_proper_delim x).
    - exists (y ++ snd x ++ file_text q0). rewrite file_cons, Y. assoc. }
  exists ls', rest'. split; auto. exists (file_text l0'), (file_text r'). split; [rewrite T'; assoc|]. split; [exact L'|]. now rewrite <- Q'.
Qed.
Lemma ok_unfold l : ok l -> unfold_lines (file_text l) = file_text l.
Proof.
  intros H. assert (Q : file_text l = version1 (map (fun x => (fst x, (snd x, snd x))) l)).
  { unfold file_text, version1. rewrite flat_map_concat_map, flat_map_concat_map, map_map. reflexivity. }
  rewrite Q. apply variant_unfold. unfold agree. rewrite Forall_map. eapply Forall_impl; [|exact H]. intros [b e] (A & B & C & D). cbn in *. ands; auto; try apply A. tauto.
Qed.
(** Exchanging content lines of different names, anywhere in a file and at any depth, changes nothing in what is read. *)
Theorem C80_order_of_lines : every_reader (fun A read => forall l l' v, Forall file_line l -> reordered l l' ->
  read (file_text l) = Ok v <-> read (file_text l') = Ok v).
Proof.
  assert (G : forall A (read : str -> outcome A), (forall l l' v, ok l -> sw l l' -> read (file_text l) = Ok v -> read (file_text l') = Ok v) ->
    forall l l' v, Forall file_line l -> reordered l l' -> read (file_text l) = Ok v <-> read (file_text l') = Ok v).
  { intros A read H l l' v Hl Hr. assert (X : ok l' /\ (read (file_text l) = Ok v <-> read (file_text l') = Ok v)); [|apply X].
    revert Hl. induction Hr as [l|a x y b n m Hx Hy Nx Ny Hn|l1 l2 l3 H1 IH1 H2 IH2]; intros Hl.
    - split; [exact Hl|tauto].
    - pose proof (sw_swap a x y b n m Hx Hy Nx Ny Hn) as Hs. pose proof (sw_ok _ _ Hs Hl) as Hl'. split; auto. split; apply H; auto. now apply sw_sym.
    - destruct (IH1 Hl) as [Hl2 I1]. destruct (IH2 Hl2) as [Hl3 I2]. split; auto. now rewrite I1. }
  assert (M : forall A (one : str -> A -> str -> Prop) (read : str -> outcome A), moves one -> (forall s v, read s = Ok v <-> exists rest, one (unfold_lines s) v rest) ->
    forall l l' v, ok l -> sw l l' -> read (file_text l) = Ok v -> read (file_text l') = Ok v).
  { intros A one read Hm Hg l l' v Hl Hs R. apply Hg in R as [rest R]. rewrite ok_unfold in R by auto.
    destruct (Hm _ _ _ _ Hl Hs R) as (r & r' & _ & _ & _ & R'). apply Hg. exists (file_text r'). rewrite ok_unfold; auto. eapply sw_ok; eauto. }
  repeat match goal with |- every_reader _ => unfold every_reader | |- _ /\ _ => split end; apply G.
  - intros l l' v Hl Hs R. apply C15_calendar_grammar in R as (ls & cs & rest & R & V). rewrite ok_unfold in R by auto.
    destruct (moves_calendar _ _ _ _ _ Hl Hs R) as (ls' & rest' & R' & N). apply C15_calendar_grammar. exists ls', cs, rest'. rewrite ok_unfold by (eapply sw_ok; eauto).
    split; auto. destruct V as (V1 & V2 & V3 & V4 & V5 & V6 & v0 & V7 & V8). unfold calendar_holds; ands; auto. exists v0. split; auto. eapply vcalendar_same; eauto.
  - apply (M _ _ _ moves_event C15_event_grammar).
  - refine (M _ _ _ _ C15_todo_grammar). apply moves_simple; [notin|notin|apply vtodo_same].
  - refine (M _ _ _ _ C15_journal_grammar). apply moves_simple; [notin|notin|apply vjournal_same].
  - refine (M _ _ _ _ C15_freebusy_grammar). apply moves_simple; [notin|notin|apply vfreebusy_same].
  - apply (M _ _ _ moves_timezone C15_timezone_grammar).
  - refine (M _ _ _ _ C15_standard_grammar). apply moves_simple; [notin|notin|apply standard_same].
  - refine (M _ _ _ _ C15_daylight_grammar). apply moves_simple; [notin|notin|apply daylight_same].
  - refine (M _ _ _ _ C15_alarm_grammar). apply moves_simple; [notin|notin|apply valarm_same].
Qed.
(** Two calendars whose lines agree name by name and whose children agree kind by kind, however they are interleaved, are the same. *)
Theorem C80_order_of_children : forall s s' ls ls' cs cs' rest rest', calendar_text (unfold_lines s) ls cs rest -> calendar_text (unfold_lines s') ls' cs' rest' ->
  same_by_name ls ls' -> same_by_kind cs cs' -> forall v, vcalendar_of_str s = Ok v <-> vcalendar_of_str s' = Ok v.
Proof.
  assert (G : forall s s' ls ls' cs cs' rest rest' v, calendar_text (unfold_lines s) ls cs rest -> calendar_text (unfold_lines s') ls' cs' rest' ->
    same_by_name ls ls' -> same_by_kind cs cs' -> vcalendar_of_str s = Ok v -> vcalendar_of_str s' = Ok v).
  { intros s s' ls ls' cs cs' rest rest' v T T' N K R. apply C15_calendar_grammar in R as (ls0 & cs0 & rest0 & R & V).
    destruct (C15_calendar_unique _ _ _ _ _ _ _ T R) as (<- & <- & <-). apply C15_calendar_grammar. exists ls', cs', rest'. split; auto.
    destruct V as (V1 & V2 & V3 & V4 & V5 & V6 & v0 & V7 & V8). destruct K as (K1 & K2 & K3 & K4 & K5 & K6).
    unfold calendar_holds; ands; try congruence. exists v0. split; auto. eapply vcalendar_same; eauto. }
  intros s s' ls ls' cs cs' rest rest' T T' N K v. split; [eapply G; eauto|eapply G; eauto using same_sym].
  destruct K as (K1 & K2 & K3 & K4 & K5 & K6). now repeat split.
Qed.
End Grammar.
(** A calendar whose event has its UID and DTSTAMP lines exchanged. *)
Definition shuffled (a b : str) : list (str * str) := map (fun s => (s, CRLF))
  [lit "BEGIN:VCALENDAR"; lit "VERSION:2.0"; lit "PRODID:x"; lit "BEGIN:VEVENT"; a; b; lit "DTSTART;VALUE=DATE:20240101"; lit "END:VEVENT"; lit "END:VCALENDAR"].
Example C80_nonvacuous : let u := lit "UID:1" in let d := lit "DTSTAMP:20240101T000000" in
  Forall file_line (shuffled u d) /\ reordered (shuffled u d) (shuffled d u) /\ file_text (shuffled u d) <> file_text (shuffled d u) /\
  exists v, @vcalendar_of_str env_east (file_text (shuffled u d)) = Ok v /\ length (ca_events v) = 1%nat.
Proof.
  cbv zeta. assert (D : forall b, no_eol b -> ~ In QUOTE b -> delimiter b -> file_line (b, CRLF)) by (intros b H1 H2 H3; repeat split; try apply H1; auto; now right).
  assert (P : forall b c, no_eol b -> ~ In QUOTE b -> p_content_line (b ++ [LF]) = POk [] c -> file_line (b, CRLF)).
  { intros b c H1 H2 H3. repeat split; try apply H1; auto; [now right|left; exists c; now apply is_line_parse]. }
  assert (N : forall b, forallb (fun c => negb (c =? CR) && negb (c =? LF) && negb (c =? QUOTE)) b = true -> no_eol b /\ ~ In QUOTE b).
  { intros b H. rewrite forallb_forall in H. assert (G : forall c, In c b -> c <> CR /\ c <> LF /\ c <> QUOTE) by (intros c I; specialize (H c I); unfold CR, LF, QUOTE in *; lia).
    repeat split; intros I; apply G in I; tauto. }
  assert (PR : forall b c, p_content_line (b ++ [LF]) = POk [] c -> proper b) by (intros b c H; exists c; now apply is_line_parse).
  repeat match goal with |- _ /\ _ => split end.
  - unfold shuffled. cbn [map]. repeat match goal with |- Forall _ (_ :: _) => apply Forall_cons | |- Forall _ [] => constructor end.
    all: try (apply D; [apply N; reflexivity|apply N; reflexivity|first [left; eexists; reflexivity|right; eexists; reflexivity]]).
    all: eapply P; [apply N; reflexivity|apply N; reflexivity|vm_compute; reflexivity].
  - apply (re_swap (map (fun s => (s, CRLF)) [lit "BEGIN:VCALENDAR"; lit "VERSION:2.0"; lit "PRODID:x"; lit "BEGIN:VEVENT"])) with (n := lit "UID") (m := lit "DTSTAMP"); cbn [fst].
    + eapply PR. vm_compute. reflexivity.
    + eapply PR. vm_compute. reflexivity.
    + split; [|exists (lit "1"); left; reflexivity]. unfold key_text. cbn. repeat constructor; unfold key_char; lia.
    + split; [|exists (lit "20240101T000000"); left; reflexivity]. unfold key_text. cbn. repeat constructor; unfold key_char; lia.
    + discriminate.
  - vm_compute. discriminate.
  - eexists. split; vm_compute; reflexivity.
Qed.
(** Lines of the same name do not commute. *)
Example C80_same_name_refuted : exists v', @vevent_of_str env_east (file_text (map (fun s => (s, CRLF)) [lit "BEGIN:VEVENT"; lit "DTSTAMP:20240101T000000"; lit "DTSTART:20240101"; lit "UID:1"; lit "UID:2"; lit "END:VEVENT"])) = Ok v' /\
  t_text (ev_uid v') = lit "2" /\
  exists w, @vevent_of_str env_east (file_text (map (fun s => (s, CRLF)) [lit "BEGIN:VEVENT"; lit "DTSTAMP:20240101T000000"; lit "DTSTART:20240101"; lit "UID:2"; lit "UID:1"; lit "END:VEVENT"])) = Ok w /\ t_text (ev_uid w) = lit "1".
Proof. eexists. split; [vm_compute; reflexivity|]. split; [reflexivity|]. eexists. split; vm_compute; reflexivity. Qed.
