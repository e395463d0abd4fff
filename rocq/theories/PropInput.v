(** * C63-C66: what surrounds, folds and ends the lines of a component *)
From Verif Require Import Base Env Nom Types Ser Parser Derive Components BaseFacts NomFacts SpecText SpecLine SpecComp SpecFields SpecFile SpecInput SerFacts LineFacts PropText PropLine PropComp PropFile PropDate.

(** ** Tails *)
Lemma colon_in_begins p b x : ~ In COLON p -> In COLON b -> begins (p ++ [COLON]) (b ++ x) -> begins (p ++ [COLON]) b.
Proof.
  revert b. induction p as [|c p IH]; intros b Hp Hb [r H].
  - destruct b as [|d b]; [contradiction|]. cbn in H. injection H as -> _. now exists b.
  - destruct b as [|d b]; [contradiction|]. cbn in H. injection H as -> H. cbn in Hb, Hp.
    destruct (IH b) as [y Hy]; [tauto| |now exists r|].
    + destruct Hb as [->|]; auto. exfalso. apply Hp. auto.
    + exists y. cbn. now rewrite <- app_assoc in *; cbn in *; rewrite Hy.
Qed.
Lemma quote_stays (a w x r : str) : a ++ r = w ++ QUOTE :: x -> ~ In QUOTE r -> exists x', a = w ++ QUOTE :: x'.
Proof.
  revert w. induction a as [|c a IH]; intros w Hq Hr; cbn in Hq.
  - exfalso. apply Hr. rewrite Hq. rewrite in_app_iff. cbn. auto.
  - destruct w as [|d w]; cbn in Hq; injection Hq as -> Hq; [now exists a|].
    destruct (IH _ Hq Hr) as [x' ->]. now exists x'.
Qed.
Ltac assoc := cbn [app]; repeat (rewrite <- ?app_assoc; cbn [app]); reflexivity.
Lemma params_tail t l w r : params_read t l (w ++ r) -> exists p, t = p ++ w ++ r /\ In COLON p /\ forall r', ~ In QUOTE r' -> params_read (p ++ w ++ r') l (w ++ r').
Proof.
  remember (w ++ r) as rest eqn:R. induction 1 as [rest|k v t l rest Hk Hv H IH|k f v t l rest Hk H1 H2 Hf Hn H IH].
  - subst. exists [COLON]. split; auto. split; [cbn; auto|]. intros. constructor.
  - destruct (IH R) as (p & -> & Hc & IH'). clear IH. subst rest. exists (SEMI :: k ++ [EQUALS; QUOTE] ++ v ++ [QUOTE] ++ p). split; [assoc|]. split; [right; rewrite !in_app_iff; tauto|].
    intros r' Hr. specialize (IH' r' Hr).
    replace ((SEMI :: k ++ [EQUALS; QUOTE] ++ v ++ [QUOTE] ++ p) ++ w ++ r') with (SEMI :: k ++ [EQUALS; QUOTE] ++ v ++ [QUOTE] ++ (p ++ w ++ r')) by assoc.
    now constructor.
  - destruct (IH R) as (p & -> & Hc & IH'). clear IH. subst rest. exists (SEMI :: k ++ [EQUALS] ++ f ++ v ++ p). split; [assoc|]. split; [right; rewrite !in_app_iff; tauto|].
    intros r' Hr. specialize (IH' r' Hr).
    replace ((SEMI :: k ++ [EQUALS] ++ f ++ v ++ p) ++ w ++ r') with (SEMI :: k ++ [EQUALS] ++ f ++ v ++ (p ++ w ++ r')) by assoc.
    apply pr_plain; auto.
    + destruct Hf as [[-> Hf]| ->]; [left; split; auto|right; auto]. intros [y Hb]. apply Hf.
      assert (G : In COLON (v ++ p)) by (rewrite in_app_iff; auto).
      rewrite (app_assoc v) in Hb. rewrite (app_assoc v). destruct (v ++ p) as [|a [|b [|c u]]]; cbn in Hb.
      * contradiction.
      * injection Hb as -> _. exfalso. cbn in G. unfold COLON, CR in G. intuition discriminate.
      * injection Hb as -> -> _. exfalso. cbn in G. unfold COLON, CR, LF in G. intuition discriminate.
      * injection Hb as -> -> -> _. exists (u ++ w ++ r). reflexivity.
    + intros (y & x & Hq). apply Hn. replace (f ++ v ++ p ++ w ++ r') with ((f ++ v ++ p ++ w) ++ r') in Hq by assoc.
      destruct (quote_stays _ (QUOTE :: y) x _ Hq Hr) as [x' Hx]. exists y, (x' ++ r). replace (f ++ v ++ p ++ w ++ r) with ((f ++ v ++ p ++ w) ++ r) by assoc. rewrite Hx. assoc.
Qed.
Lemma params_tail2 t l w e r : eol e -> params_read t l (w ++ e ++ r) -> exists p, t = p ++ w ++ e ++ r /\ In COLON p /\ forall r', ~ In QUOTE r' -> params_read (p ++ w ++ r') l (w ++ r').
Proof. intros _ H. apply params_tail in H as (p & A & B & C). eauto. Qed.
(** The text of a line determines how it is read, whatever follows without a double
    quote. *)
Lemma eol_no_quote e : eol e -> ~ In QUOTE e.
Proof. unfold QUOTE. intros [-> | ->]; cbn; unfold LF, CR; intuition discriminate. Qed.
Lemma line_local s r c : p_content_line s = POk r c -> exists b e, s = b ++ e ++ r /\ eol e /\
  forall e' r', eol e' -> ~ In QUOTE r' -> p_content_line (b ++ e' ++ r') = POk r' c.
Proof.
  intros H. apply line_POk in H as (Hb & He & k & t & l & v & e & -> & Hk & Hp & Hv & Hee & ->).
  destruct (params_tail2 _ _ _ _ _ Hee Hp) as (p & -> & Hc & Ht). exists (k ++ p ++ v), e. split; [now rewrite <- !app_assoc|]. split; auto.
  intros e' r' He' Hr'. apply line_POk.
  assert (C : In COLON (k ++ p ++ v)) by (rewrite !in_app_iff; auto).
  assert (Q : ~ In QUOTE (e' ++ r')) by (rewrite in_app_iff; intros [X|X]; auto; now apply eol_no_quote in X).
  assert (B : forall n, ~ In COLON n -> ~ begins (n ++ [COLON]) (k ++ p ++ v ++ e ++ r) -> ~ begins (n ++ [COLON]) ((k ++ p ++ v) ++ e' ++ r')).
  { intros n Hn G X. apply G. apply colon_in_begins in X as [y Y]; auto. exists (y ++ e ++ r). replace (k ++ p ++ v ++ e ++ r) with ((k ++ p ++ v) ++ e ++ r) by assoc. rewrite Y. assoc. }
  split; [apply (B (lit "BEGIN")); auto; cbn; unfold COLON; intuition discriminate|]. split; [apply (B (lit "END")); auto; cbn; unfold COLON; intuition discriminate|].
  exists k, (p ++ v ++ e' ++ r'), l, v, e'. split; [assoc|]. auto 10.
Qed.

(** ** C63 *)
Lemma unfold_cut a b : ~ inside_fold a b -> unfold_lines (a ++ b) = unfold_lines a ++ unfold_lines b.
Proof.
  remember (length a) as n eqn:L. revert a L. induction n as [n IH] using lt_wf_ind. intros a L H.
  destruct a as [|c a]; [reflexivity|]. cbn [app].
  assert (I : forall x y, c :: a = x ++ y -> ~ inside_fold y b).
  { intros x y Q [(u & z & -> & ->)|(u & z & -> & ->)]; apply H; rewrite Q; [left|right]; exists (x ++ u), z; split; auto; now rewrite <- app_assoc. }
  destruct (Z.eq_dec c CR) as [->|N].
  - destruct a as [|c1 a]; cbn [app].
    + destruct b as [|c1 [|c2 b]]; [reflexivity|reflexivity|]. rewrite unfold_step; [reflexivity|].
      intros s Q. injection Q as -> -> _. apply H. left. exists [], b. auto.
    + destruct (Z.eq_dec c1 LF) as [->|N1].
      * destruct a as [|c2 a]; cbn [app].
        -- destruct b as [|c2 b]; [reflexivity|]. rewrite (unfold_step CR).
           2:{ intros s Q. injection Q as -> _. apply H. right. exists [], b. auto. }
           rewrite (unfold_step LF) by (intros s Q; injection Q as Q _; discriminate). reflexivity.
        -- destruct (Z.eq_dec c2 SP) as [->|N2].
           ++ change (CR :: LF :: SP :: a ++ b) with (FOLD ++ a ++ b). change (CR :: LF :: SP :: a) with (FOLD ++ a). rewrite !unfold_skip.
              apply (IH (length a)); cbn in L; try lia. eapply (I [CR; LF; SP]). reflexivity.
           ++ rewrite (unfold_step CR) by (intros s Q; injection Q; congruence). rewrite (unfold_step CR (LF :: c2 :: a)) by (intros s Q; injection Q; congruence).
              cbn [app]. f_equal. change (LF :: c2 :: a ++ b) with ((LF :: c2 :: a) ++ b). apply (IH (length (LF :: c2 :: a))); cbn in *; try lia. eapply (I [CR]). reflexivity.
      * rewrite (unfold_step CR) by (intros s Q; injection Q; congruence). rewrite (unfold_step CR (c1 :: a)) by (intros s Q; injection Q; congruence).
        cbn [app]. f_equal. change (c1 :: a ++ b) with ((c1 :: a) ++ b). apply (IH (length (c1 :: a))); cbn in *; try lia. eapply (I [CR]). reflexivity.
  - rewrite (unfold_step c) by (intros s Q; injection Q; congruence). rewrite (unfold_step c a) by (intros s Q; injection Q; congruence).
    cbn [app]. f_equal. apply (IH (length a)); cbn in *; try lia. eapply (I [c]). reflexivity.
Qed.
Lemma fresh_cut a b : fresh b -> ~ inside_fold a b.
Proof. intros [A B] [(x & y & -> & ->)|(x & y & -> & ->)]; [apply B; now exists ([SP] ++ y)|apply A; now exists y]. Qed.
Lemma unfold_in x s : In x (unfold_lines s) -> In x s.
Proof.
  remember (length s) as n eqn:L. revert s L. induction n as [n IH] using lt_wf_ind. intros s L H. destruct s as [|c [|c1 [|c2 s]]]; auto.
  cbn [unfold_lines] in H. destruct (_ && _ && _).
  - right; right; right. apply (IH (length s)); cbn in L; auto; lia.
  - destruct H as [->|H]; [now left|]. right. apply (IH (length (c1 :: c2 :: s))); cbn in *; auto; lia.
Qed.

Lemma is_line_more s c r u : ~ In QUOTE u -> is_line s c r -> is_line (s ++ u) c (r ++ u).
Proof.
  intros Hu (Hb & He & k & t & l & v & e & -> & Hk & Hp & Hv & Hee & <- & <- & Hm).
  replace (cl_value c ++ e ++ r) with ((cl_value c ++ e ++ r) ++ []) in Hp by apply app_nil_r.
  apply params_tail in Hp as (p & -> & Hc & Ht). rewrite app_nil_r in *.
  assert (B : forall n, ~ In COLON n -> ~ begins (n ++ [COLON]) (cl_key c ++ p ++ cl_value c ++ e ++ r) -> ~ begins (n ++ [COLON]) ((cl_key c ++ p ++ cl_value c ++ e ++ r) ++ u)).
  { intros n Hn G X. apply G. apply colon_in_begins in X; auto. rewrite !in_app_iff; auto. }
  split; [apply (B (lit "BEGIN")); auto; cbn; unfold COLON; intuition discriminate|]. split; [apply (B (lit "END")); auto; cbn; unfold COLON; intuition discriminate|].
  exists (cl_key c), (p ++ (cl_value c ++ e ++ r) ++ u), l, (cl_value c), e. split; [assoc|]. split; auto. split; [|auto 10].
  specialize (Ht u Hu). replace (cl_value c ++ e ++ r ++ u) with ((cl_value c ++ e ++ r) ++ u) by assoc. exact Ht.
Qed.
Lemma lines_text_more s ls r u : ~ In QUOTE u -> lines_text s ls r -> lines_text (s ++ u) ls (r ++ u).
Proof.
  intros Hu [H F]. split; auto. clear F. induction H as [s|s c r ls rest H HL IH]; [constructor|].
  econstructor; [|exact IH]. now apply is_line_more.
Qed.
Lemma seq_text_more {A} (one : str -> A -> str -> Prop) u : (forall s a r, one s a r -> one (s ++ u) a (r ++ u)) ->
  forall s l r, seq_text one s l r -> seq_text one (s ++ u) l (r ++ u).
Proof. intros H. induction 1; [constructor|econstructor; eauto]. Qed.
Section More.
Context {E : Env}.
Lemma simple_text_more {A} name (read : list content_line -> A -> Prop) u : ~ In QUOTE u ->
  forall s v r, simple_text name read s v r -> simple_text name read (s ++ u) v (r ++ u).
Proof.
  intros Hu s v r (t & ls & -> & L & R). exists (t ++ u), ls. split; [assoc|]. split; auto.
  apply (lines_text_more _ _ _ u Hu) in L. repeat rewrite <- app_assoc in L. exact L.
Qed.
Lemma event_text_more u : ~ In QUOTE u -> forall s v r, event_text s v r -> event_text (s ++ u) v (r ++ u).
Proof.
  intros Hu s v r (t & ls & t2 & v0 & -> & L & Sq & R & Q). exists (t ++ u), ls, (t2 ++ u), v0. split; [assoc|]. split; [now apply lines_text_more|]. split; auto.
  apply (seq_text_more _ u) in Sq; [|intros; now apply simple_text_more]. repeat rewrite <- app_assoc in Sq. exact Sq.
Qed.
Lemma timezone_text_more u : ~ In QUOTE u -> forall s v r, timezone_text s v r -> timezone_text (s ++ u) v (r ++ u).
Proof.
  intros Hu s v r (t & ls & t2 & cs & v0 & -> & L & Sq & R). exists (t ++ u), ls, (t2 ++ u), cs, v0. split; [assoc|]. split; [now apply lines_text_more|]. split; auto.
  apply (seq_text_more _ u) in Sq; [|intros ? [] ? ?; now apply simple_text_more]. repeat rewrite <- app_assoc in Sq. exact Sq.
Qed.
Lemma child_text_more u : ~ In QUOTE u -> forall s v r, child_text s v r -> child_text (s ++ u) v (r ++ u).
Proof. intros Hu s [] r; cbn [child_text]; first [now apply simple_text_more|now apply event_text_more|now apply timezone_text_more]. Qed.
Lemma calendar_text_more u : ~ In QUOTE u -> forall s ls cs r, calendar_text s ls cs r -> calendar_text (s ++ u) ls cs (r ++ u).
Proof.
  intros Hu s ls cs r (t & t2 & -> & L & Sq). exists (t ++ u), (t2 ++ u). split; [assoc|]. split; [now apply lines_text_more|].
  apply (seq_text_more _ u) in Sq; [|intros; now apply child_text_more]. repeat rewrite <- app_assoc in Sq. exact Sq.
Qed.

(** What follows a component that was read is ignored, unless it continues its last
    line or holds a double quote. *)
Theorem C63_trailing_text : every_reader (fun A read =>
  forall s v rest, read s = Ok v -> fresh rest -> ~ In QUOTE rest -> read (s ++ rest) = Ok v).
Proof.
  assert (G : forall A (read : str -> outcome A) (txt : str -> A -> str -> Prop), (forall s v, read s = Ok v <-> exists rest, txt (unfold_lines s) v rest) ->
    (forall u, ~ In QUOTE u -> forall s v r, txt s v r -> txt (s ++ u) v (r ++ u)) ->
    forall s v rest, read s = Ok v -> fresh rest -> ~ In QUOTE rest -> read (s ++ rest) = Ok v).
  { intros A read txt H M s v rest R F Q. apply H in R as [r R]. apply H. rewrite unfold_cut by now apply fresh_cut. exists (r ++ unfold_lines rest). apply M; auto.
    intros X. now apply unfold_in in X. }
  unfold every_reader. split; [|repeat split].
  - apply (G _ _ (fun s v r => exists ls cs, calendar_text s ls cs r /\ calendar_holds v ls cs)).
    + intros s v. rewrite C15_calendar_grammar. split; intros (a & b & c & H); eauto.
    + intros u Hu s v r (ls & cs & A & B). exists ls, cs. split; auto. now apply calendar_text_more.
  - apply (G _ _ event_text); auto using C15_event_grammar, event_text_more.
  - apply (G _ _ (simple_text (lit "VTODO") vtodo_read)); auto using C15_todo_grammar, simple_text_more.
  - apply (G _ _ (simple_text (lit "VJOURNAL") vjournal_read)); auto using C15_journal_grammar, simple_text_more.
  - apply (G _ _ (simple_text (lit "VFREEBUSY") vfreebusy_read)); auto using C15_freebusy_grammar, simple_text_more.
  - apply (G _ _ timezone_text); auto using C15_timezone_grammar, timezone_text_more.
  - apply (G _ _ (simple_text (lit "STANDARD") standard_read)); auto using C15_standard_grammar, simple_text_more.
  - apply (G _ _ (simple_text (lit "DAYLIGHT") daylight_read)); auto using C15_daylight_grammar, simple_text_more.
  - apply (G _ _ (simple_text (lit "VALARM") valarm_read)); auto using C15_alarm_grammar, simple_text_more.
Qed.
End More.
(** The double quote matters: a parameter whose value starts with one that is never
    closed is read up to the next one, wherever it is - even after the component. *)
Definition odd_todo : str :=
  lit "BEGIN:VTODO" ++ CRLF ++ lit "DTSTAMP:20240101T000000" ++ CRLF ++ lit "UID:1" ++ CRLF ++ lit "X-A;B=""c:d" ++ CRLF ++ lit "END:VTODO" ++ CRLF.
Theorem C63_quote_refuted : exists v e, @vtodo_of_str env_east odd_todo = Ok v /\
  @vtodo_of_str env_east (odd_todo ++ lit "BEGIN:VTODO" ++ CRLF ++ lit "X-B;C=""d"":e" ++ CRLF) = Err e.
Proof.
  destruct (@vtodo_of_str env_east odd_todo) as [v| |] eqn:A; [|vm_compute in A; discriminate A..].
  destruct (@vtodo_of_str env_east (odd_todo ++ lit "BEGIN:VTODO" ++ CRLF ++ lit "X-B;C=""d"":e" ++ CRLF)) as [?|e|] eqn:B; [vm_compute in B; discriminate B| |vm_compute in B; discriminate B].
  exists v, e. auto.
Qed.
Example C63_nonvacuous : exists v, @vtodo_of_str env_east odd_todo = Ok v /\ to_dtstart v = None /\ fresh (lit "BEGIN:VTODO") /\ ~ In QUOTE (lit "BEGIN:VTODO").
Proof.
  eexists. split; [vm_compute; reflexivity|]. split; [reflexivity|]. split; [split; intros [r H]; vm_compute in H; discriminate H|].
  intros H. vm_compute in H. intuition discriminate.
Qed.
(** In a calendar the rest of the END line is ignored too. *)
Theorem C63_end_line : forall (E : Env) s v rest, vcalendar_of_str (s ++ lit "END:VCALENDAR") = Ok v -> fresh rest -> ~ In QUOTE rest ->
  vcalendar_of_str (s ++ lit "END:VCALENDAR" ++ rest) = Ok v.
Proof. intros E s v rest H F Q. rewrite app_assoc. now apply C63_trailing_text. Qed.

(** ** C64 *)
Lemma unfold_marker a b : unfold_lines (a ++ FOLD ++ b) = unfold_lines a ++ unfold_lines b.
Proof.
  rewrite unfold_cut.
  - now rewrite unfold_skip.
  - intros [(x & y & _ & H)|(x & y & _ & H)]; discriminate H.
Qed.
(** Folding a text anywhere but inside a fold marker changes nothing. *)
Theorem C64_folding_is_invisible : forall E : Env, every_reader (fun A read =>
  forall a b, ~ inside_fold a b -> read (a ++ [CR; LF; 32] ++ b) = read (a ++ b)).
Proof.
  intros E. assert (G : forall A (p : parser A) a b, ~ inside_fold a b -> from_str p (a ++ [CR; LF; 32] ++ b) = from_str p (a ++ b)).
  { intros A p a b H. unfold from_str. change [CR; LF; 32] with FOLD. now rewrite unfold_marker, unfold_cut. }
  repeat split; intros a b H; now apply G.
Qed.
(** Any number of folds. *)
Theorem C64_any_folding : forall E : Env, every_reader (fun A read =>
  forall parts, ~ contains FOLD (concat parts) -> read (folded parts) = read (concat parts)).
Proof.
  intros E. assert (G : forall A (p : parser A) parts, ~ contains FOLD (concat parts) -> from_str p (folded parts) = from_str p (concat parts)).
  { intros A p parts H. unfold from_str. now rewrite unfold_folded, unfold_id. }
  repeat split; intros; now apply G.
Qed.
(** A fold marker inside a fold marker is not removed. *)
Theorem C64_nested_refuted : exists a b, inside_fold a b /\ unfold_lines (a ++ FOLD ++ b) <> unfold_lines (a ++ b).
Proof. exists [CR; LF], [SP]. split; [right; exists [], []; auto|]. vm_compute. discriminate. Qed.
Example C64_nonvacuous : exists a b v, ~ inside_fold a b /\ odd_todo = a ++ b /\ a <> [] /\ b <> [] /\ @vtodo_of_str env_east (a ++ FOLD ++ b) = Ok v.
Proof.
  exists (lit "BEGIN:VT"), (skipn 8 odd_todo). eexists. split; [|split; [vm_compute; reflexivity|split; [discriminate|split; [vm_compute; discriminate|vm_compute; reflexivity]]]].
  intros [(x & y & _ & H)|(x & y & _ & H)]; vm_compute in H; discriminate H.
Qed.
(** Nothing but CR LF SPACE is a fold: a line that starts with a tab (or, the line
    before ending in LF, with a space) is no content line, and the component is
    rejected. [blank] is what is left of the text after the lines [ls]. *)
Lemma blank_no_line c t : c = 9 \/ c = 32 -> p_content_line (c :: t) = PErr.
Proof.
  intros H. destruct (p_content_line (c :: t)) as [r l| |] eqn:P; auto; [|now apply calm_line in P].
  apply line_POk in P as (_ & _ & k & u & l0 & v & e & Q & Hk & Hp & _). exfalso. destruct k as [|d k]; cbn in Q.
  - subst u. apply params_read_head in Hp as [[x X]|[x X]]; injection X as -> _; unfold COLON, SEMI in *; lia.
  - injection Q as -> _. apply Forall_inv in Hk. unfold key_char in Hk. lia.
Qed.
Lemma blank_run t ls c r : c = 9 \/ c = 32 -> is_lines t ls (c :: r) -> exists ls', p_content_lines t = POk (c :: r) ls'.
Proof.
  intros Hc H. remember (c :: r) as rest eqn:R. induction H as [s|s l r1 ls rest H HL IH].
  - subst. exists []. apply lines_POk. constructor. now apply blank_no_line.
  - destruct (IH R) as [ls' P]. apply is_line_parse_inv in H as (l' & H & _). exists (l' :: ls'). apply lines_POk. apply lines_POk in P.
    econstructor; eauto. now apply line_progress in H.
Qed.
Lemma tag_blank n c r : c = 9 \/ c = 32 -> begins (lit "BEGIN:") n \/ begins (lit "END:") n -> tag n (c :: r) = PErr.
Proof. intros Hc [[x ->]|[x ->]]; apply tag_PErr; intros y H; injection H as -> _; lia. Qed.
Lemma blank_many {A} (p : parser A) c r : p (c :: r) = PErr -> many0 p (c :: r) = POk (c :: r) [].
Proof. intros H. unfold many0. cbn [many0_fuel]. now rewrite H. Qed.
Section Blank.
Context {E : Env}.
Lemma component_blank {A} name (f : list content_line -> outcome A) c r : c = 9 \/ c = 32 -> p_component name f (c :: r) = PErr.
Proof. intros H. unfold p_component, pmap_res, delimited, pbind. rewrite tag_blank; auto. left. eexists. cbn [app]. reflexivity. Qed.
Lemma any_blank c r : c = 9 \/ c = 32 -> p_any_component (c :: r) = PErr.
Proof.
  intros H. unfold p_any_component, palt, pmap, pbind, p_valarm, p_vfreebusy, p_vjournal, p_vtodo. rewrite !component_blank by auto.
  unfold p_vevent, p_vtimezone, pmap_res, delimited, pbind. rewrite !tag_blank; auto; left; eexists; reflexivity.
Qed.
Lemma tz_blank c r : c = 9 \/ c = 32 -> palt (pmap p_standard TStandard) (pmap p_daylight TDaylight) (c :: r) = PErr.
Proof. intros H. unfold palt, pmap, pbind, p_standard, p_daylight. now rewrite !component_blank. Qed.
Theorem C64_only_one_kind_of_fold : forall s t ls c rest, c = 9 \/ c = 32 -> is_lines t ls (c :: rest) ->
  (unfold_lines s = lit "BEGIN:VCALENDAR" ++ [CR; LF] ++ t -> exists e, vcalendar_of_str s = Err e) /\
  (unfold_lines s = lit "BEGIN:VEVENT" ++ [CR; LF] ++ t -> exists e, vevent_of_str s = Err e) /\
  (unfold_lines s = lit "BEGIN:VTODO" ++ [CR; LF] ++ t -> exists e, vtodo_of_str s = Err e) /\
  (unfold_lines s = lit "BEGIN:VJOURNAL" ++ [CR; LF] ++ t -> exists e, vjournal_of_str s = Err e) /\
  (unfold_lines s = lit "BEGIN:VFREEBUSY" ++ [CR; LF] ++ t -> exists e, vfreebusy_of_str s = Err e) /\
  (unfold_lines s = lit "BEGIN:VTIMEZONE" ++ [CR; LF] ++ t -> exists e, vtimezone_of_str s = Err e) /\
  (unfold_lines s = lit "BEGIN:STANDARD" ++ [CR; LF] ++ t -> exists e, standard_of_str s = Err e) /\
  (unfold_lines s = lit "BEGIN:DAYLIGHT" ++ [CR; LF] ++ t -> exists e, daylight_of_str s = Err e) /\
  (unfold_lines s = lit "BEGIN:VALARM" ++ [CR; LF] ++ t -> exists e, valarm_of_str s = Err e).
Proof.
  intros s t ls c rest Hc H. apply (blank_run _ _ _ _ Hc) in H as [ls' P].
  assert (T : forall n u, tag n (n ++ u) = POk u n) by (intros; apply tag_app).
  assert (S1 : forall A name (f : list content_line -> outcome A), unfold_lines s = (lit "BEGIN:" ++ name ++ CRLF) ++ t -> exists e, from_str (p_component name f) s = Err e).
  { intros A name f Q. unfold from_str. rewrite Q. unfold p_component, pmap_res, delimited, pbind. rewrite T, P, tag_blank; cbn; eauto. right. eexists. reflexivity. }
  repeat split; intros Q.
  - unfold vcalendar_of_str, from_str. rewrite app_assoc in Q. rewrite Q. unfold p_vcalendar, pmap_res, delimited, pbind. rewrite (T (lit "BEGIN:VCALENDAR" ++ CRLF)), P. unfold p_components.
    rewrite blank_many by now apply any_blank. unfold pret. rewrite tag_blank; cbn; eauto. right. eexists. reflexivity.
  - unfold vevent_of_str, from_str. rewrite app_assoc in Q. rewrite Q. unfold p_vevent, pmap_res, delimited, pbind. rewrite (T (lit "BEGIN:VEVENT" ++ CRLF)), P.
    rewrite blank_many by now apply component_blank. unfold pret. rewrite tag_blank; cbn; eauto. right. eexists. reflexivity.
  - apply S1, Q.
  - apply S1, Q.
  - apply S1, Q.
  - unfold vtimezone_of_str, from_str. rewrite app_assoc in Q. rewrite Q. unfold p_vtimezone, pmap_res, delimited, pbind. rewrite (T (lit "BEGIN:VTIMEZONE" ++ CRLF)), P.
    rewrite blank_many by (now apply tz_blank). unfold pret. rewrite tag_blank; cbn; eauto. right. eexists. reflexivity.
  - apply S1, Q.
  - apply S1, Q.
  - apply S1, Q.
Qed.
End Blank.
Example C64_tab_nonvacuous : exists t ls, is_lines t ls (9 :: lit "long" ++ CRLF) /\ length ls = 1%nat /\
  t = lit "SUMMARY:a" ++ CRLF ++ 9 :: lit "long" ++ CRLF.
Proof.
  eexists _, [mk_cl (lit "SUMMARY") [] (lit "a")]. split; [|split; reflexivity]. econstructor; [apply is_line_parse; vm_compute; reflexivity|constructor].
Qed.

(** ** C65 *)
Definition agree (l : list (str * (str * str))) : Prop := Forall line_variant l.
(** [same Q p]: [p] does the same on the two versions of a file; [Q] relates what is left. *)
Definition at_lines (r1 r2 : str) : Prop := exists l, agree l /\ r1 = version1 l /\ r2 = version2 l.
Definition anywhere (r1 r2 : str) : Prop := True.
Definition same {A} (Q : str -> str -> Prop) (p : parser A) : Prop := forall s1 s2, at_lines s1 s2 ->
  match p s1, p s2 with
  | POk r1 a, POk r2 b => a = b /\ Q r1 r2 /\ (length r1 <= length s1)%nat /\ (length r2 <= length s2)%nat /\ (length r1 = length s1 <-> length r2 = length s2)
  | PErr, PErr | PPanic, PPanic => True
  | _, _ => False
  end.
Lemma version1_no_quote l : agree l -> ~ In QUOTE (version1 l).
Proof.
  induction 1 as [|[b [e e']] l (Hb & Hq & He & He' & _) _ IH]; [auto|]. cbn. rewrite !in_app_iff. apply eol_no_quote in He. tauto.
Qed.
Lemma version2_no_quote l : agree l -> ~ In QUOTE (version2 l).
Proof.
  induction 1 as [|[b [e e']] l (Hb & Hq & He & He' & _) _ IH]; [auto|]. cbn. rewrite !in_app_iff. apply eol_no_quote in He'. tauto.
Qed.
Lemma proper_line b : no_eol b -> proper b -> exists c, forall e r, eol e -> ~ In QUOTE r -> p_content_line (b ++ e ++ r) = POk r c.
Proof.
  intros Hb [c H]. apply is_line_parse_inv in H as (c' & H & _). exists c'. intros e r He Hr.
  apply line_local in H as (b' & e' & Q & E' & H). rewrite app_nil_r in Q.
  assert (b' = b) as ->; [|now apply H].
  destruct E' as [-> | ->].
  - now apply app_inj_tail in Q as [-> _].
  - exfalso. change (b' ++ [CR; LF]) with (b' ++ [CR] ++ [LF]) in Q. rewrite app_assoc in Q. apply app_inj_tail in Q as [-> _].
    destruct Hb as [Hb _]. apply Hb. rewrite in_app_iff. cbn. auto.
Qed.
Lemma delimiter_no_line b r : delimiter b -> p_content_line (b ++ r) = PErr.
Proof.
  intros H. destruct (p_content_line (b ++ r)) as [x l| |] eqn:P; auto; [|now apply calm_line in P].
  apply line_POk in P as (H1 & H2 & _). exfalso. destruct H as [[y ->]|[y ->]]; [apply H1|apply H2]; exists (y ++ r); now rewrite <- app_assoc.
Qed.
Lemma empty_no_line : p_content_line [] = PErr.
Proof. reflexivity. Qed.
Lemma same_line : same at_lines p_content_line.
Proof.
  intros s1 s2 (l & Hl & -> & ->). destruct Hl as [|[b [e e']] l (Hb & Hq & He & He' & H) Hl]; [exact I|].
  change (version1 ((b, (e, e')) :: l)) with ((b ++ e) ++ version1 l). change (version2 ((b, (e, e')) :: l)) with ((b ++ e') ++ version2 l). rewrite <- !app_assoc.
  destruct H as [H|[H _]].
  - apply proper_line in H as [c H]; auto. rewrite !H by auto using version1_no_quote, version2_no_quote.
    split; auto. split; [exists l; auto|]. assert (G : forall x, eol x -> length x <> 0%nat) by (intros x [-> | ->]; discriminate).
    pose proof (G _ He). pose proof (G _ He'). rewrite !app_length. lia.
  - now rewrite !delimiter_no_line.
Qed.
Lemma same_bind {A B} Q (p : parser A) (f : A -> parser B) : same at_lines p -> (forall a, same Q (f a)) -> same Q (pbind p f).
Proof.
  intros Hp Hf s1 s2 H. specialize (Hp _ _ H). unfold pbind. destruct (p s1) as [r1 a| |], (p s2) as [r2 b| |]; try easy.
  destruct Hp as (-> & Q1 & L1 & L2 & L3). specialize (Hf b _ _ Q1). destruct (f b r1) as [x1 u| |], (f b r2) as [x2 w| |]; try easy.
  destruct Hf as (-> & Q2 & M1 & M2 & M3). split; auto. split; auto. repeat split; lia.
Qed.
Lemma same_ret {A} (a : A) (Q : str -> str -> Prop) : (forall l, agree l -> Q (version1 l) (version2 l)) -> same Q (pret a).
Proof. intros H s1 s2 (l & Hl & -> & ->). cbn. repeat split; auto. Qed.
Lemma same_ret_lines {A} (a : A) : same at_lines (pret a).
Proof. apply same_ret. intros l Hl. now exists l. Qed.
Lemma same_alt {A} Q (p q : parser A) : same Q p -> same Q q -> same Q (palt p q).
Proof.
  intros Hp Hq s1 s2 H. specialize (Hp _ _ H). specialize (Hq _ _ H). unfold palt. destruct (p s1), (p s2); try easy.
Qed.
Lemma same_map {A B} (p : parser A) (f : A -> B) : same at_lines p -> same at_lines (pmap p f).
Proof. intros H. apply same_bind; auto. intros. apply same_ret_lines. Qed.
Lemma same_map_res {A B} Q (p : parser A) (f : A -> outcome B) : same Q p -> same Q (pmap_res p f).
Proof.
  intros Hp s1 s2 H. specialize (Hp _ _ H). unfold pmap_res, pbind. destruct (p s1) as [r1 a| |], (p s2) as [r2 b| |]; try easy.
  destruct Hp as (-> & G). destruct (f b); auto.
Qed.
Lemma same_many {A} (p : parser A) : same at_lines p -> same at_lines (many0 p).
Proof.
  intros Hp s1 s2 H. unfold many0.
  assert (G : forall n m s1 s2, at_lines s1 s2 -> (length s1 < n)%nat -> (length s2 < m)%nat ->
    match many0_fuel n p s1, many0_fuel m p s2 with
    | POk r1 a, POk r2 b => a = b /\ at_lines r1 r2 /\ (length r1 <= length s1)%nat /\ (length r2 <= length s2)%nat /\ (length r1 = length s1 <-> length r2 = length s2)
    | PErr, PErr | PPanic, PPanic => True | _, _ => False end); [|apply G; auto].
  clear s1 s2 H. induction n as [|n IH]; intros m s1 s2 H L1 L2; [lia|]. destruct m as [|m]; [lia|].
  specialize (Hp _ _ H). cbn [many0_fuel]. destruct (p s1) as [r1 a| |], (p s2) as [r2 b| |]; try easy.
  - destruct Hp as (-> & Q & M1 & M2 & M3). destruct (Nat.eqb_spec (length r1) (length s1)), (Nat.eqb_spec (length r2) (length s2)); auto; try tauto.
    assert (G := IH m r1 r2 Q ltac:(lia) ltac:(lia)). destruct (many0_fuel n p r1) as [x1 l1| |], (many0_fuel m p r2) as [x2 l2| |]; try easy.
    destruct G as (-> & Q2 & N1 & N2 & N3). split; auto. split; auto. repeat split; lia.
Qed.
Lemma tag_eol n b e t : ~ In CR n -> ~ In LF n -> no_eol b -> eol e -> forall r, tag n (b ++ e ++ t) = POk r n -> exists x, b = n ++ x /\ r = x ++ e ++ t.
Proof.
  intros H1 H2 [B1 B2] He r H. apply tag_POk in H as [H _]. revert b B1 B2 H. induction n as [|c n IH]; intros b B1 B2 H; [now exists b|].
  destruct b as [|d b].
  - cbn [app] in H. destruct He as [-> | ->]; injection H as <- _; cbn in H1, H2; tauto.
  - cbn [app] in H. injection H as <- H. cbn in *. destruct (IH ltac:(tauto) ltac:(tauto) b ltac:(tauto) ltac:(tauto) H) as (x & -> & ->). now exists x.
Qed.
Lemma tag_line n b e t : ~ In CR n -> ~ In LF n -> no_eol b -> eol e -> forall r, tag (n ++ CRLF) (b ++ e ++ t) = POk r (n ++ CRLF) -> b = n /\ e = CRLF /\ r = t.
Proof.
  intros H1 H2 [B1 B2] He r H. apply tag_POk in H as [H _]. revert b B1 B2 H. induction n as [|c n IH]; intros b B1 B2 H.
  - destruct b as [|d b].
    + cbn in H. destruct He as [-> | ->]; [discriminate H|]. injection H as ->. auto.
    + cbn in H. injection H as -> _. exfalso. apply B1. now left.
  - destruct b as [|d b].
    + cbn [app] in H. exfalso. destruct He as [-> | ->]; injection H as <- _; [apply H2|apply H1]; now left.
    + cbn [app] in H. injection H as -> H. cbn in *. destruct (IH ltac:(tauto) ltac:(tauto) b ltac:(tauto) ltac:(tauto) H) as (-> & -> & ->). auto.
Qed.
Lemma delimiter_not_proper b : delimiter b -> ~ proper b.
Proof. intros H [c (B1 & B2 & _)]. destruct H as [[y ->]|[y ->]]; [apply B1|apply B2]; exists (y ++ [LF]); now rewrite <- app_assoc. Qed.
Lemma same_tag n : ~ In CR n -> ~ In LF n -> delimiter n -> same at_lines (tag (n ++ CRLF)).
Proof.
  intros H1 H2 Hd s1 s2 (l & Hl & -> & ->). destruct Hl as [|[b [e e']] l (Hb & Hq & He & He' & H) Hl].
  - cbn. assert (G : tag (n ++ CRLF) [] = PErr) by (apply tag_PErr; intros r; destruct n; discriminate). now rewrite G.
  - change (version1 ((b, (e, e')) :: l)) with ((b ++ e) ++ version1 l). change (version2 ((b, (e, e')) :: l)) with ((b ++ e') ++ version2 l). rewrite <- !app_assoc.
    destruct (tag (n ++ CRLF) (b ++ e ++ version1 l)) as [r1 x1| |] eqn:P1.
    + pose proof P1 as P0. apply tag_POk in P0 as [_ ->]. apply tag_line in P1 as (-> & -> & ->); auto.
      destruct H as [H|[_ <-]]; [now apply delimiter_not_proper in H|].
      replace (n ++ CRLF ++ version2 l) with ((n ++ CRLF) ++ version2 l) by assoc. rewrite tag_app. split; auto. split; [exists l; auto|]. rewrite !app_length. cbn [length CRLF]. lia.
    + destruct (tag (n ++ CRLF) (b ++ e' ++ version2 l)) as [r2 x2| |] eqn:P2; auto; [|now apply calm_tag in P2].
      pose proof P2 as P0. apply tag_POk in P0 as [_ ->]. apply tag_line in P2 as (-> & -> & ->); auto.
      destruct H as [H|[_ ->]]; [now apply delimiter_not_proper in H|].
      apply tag_PErr with (r := version1 l) in P1. apply P1. assoc.
    + now apply calm_tag in P1.
Qed.
(** The last tag of a calendar, which does not include the end of the line. *)
Lemma same_tag_end n : n <> [] -> ~ In CR n -> ~ In LF n -> same anywhere (tag n).
Proof.
  intros Hn H1 H2 s1 s2 (l & Hl & -> & ->). destruct Hl as [|[b [e e']] l (Hb & Hq & He & He' & _) Hl].
  - cbn. assert (G : tag n [] = PErr) by (apply tag_PErr; intros r; destruct n; [congruence|discriminate]). now rewrite G.
  - change (version1 ((b, (e, e')) :: l)) with ((b ++ e) ++ version1 l). change (version2 ((b, (e, e')) :: l)) with ((b ++ e') ++ version2 l). rewrite <- !app_assoc.
    assert (L : length n <> 0%nat) by (destruct n; [congruence|discriminate]).
    destruct (tag n (b ++ e ++ version1 l)) as [r1 x1| |] eqn:P1.
    + pose proof P1 as P0. apply tag_POk in P0 as [_ ->]. apply tag_eol in P1 as (x & -> & ->); auto. rewrite <- app_assoc, tag_app. split; auto. split; [exact I|]. rewrite <- app_assoc, !app_length. lia.
    + destruct (tag n (b ++ e' ++ version2 l)) as [r2 x2| |] eqn:P2; auto; [|now apply calm_tag in P2].
      pose proof P2 as P0. apply tag_POk in P0 as [_ ->]. apply tag_eol in P2 as (x & -> & ->); auto.
      apply tag_PErr with (r := x ++ e ++ version1 l) in P1. apply P1. assoc.
    + now apply calm_tag in P1.
Qed.
Lemma same_lines : same at_lines p_content_lines.
Proof. unfold p_content_lines, fold_many0. apply same_map, same_many, same_line. Qed.
Lemma same_delim {A B C} Q (p : parser A) (q : parser B) (r : parser C) : same at_lines p -> same at_lines q -> same Q r -> same Q (delimited p q r).
Proof.
  intros Hp Hq Hr. unfold delimited. apply same_bind; auto. intros _. apply same_bind; auto. intros b.
  intros s1 s2 H. specialize (Hr _ _ H). unfold pbind. destruct (r s1) as [r1 a| |], (r s2) as [r2 b'| |]; try easy.
Qed.
Section Same.
Context {E : Env}.
Ltac dtag := let H := fresh in apply same_tag; [intros H; vm_compute in H; intuition discriminate..|first [left; eexists; reflexivity|right; eexists; reflexivity]].
Lemma same_component {A} name (f : list content_line -> outcome A) : ~ In CR name -> ~ In LF name -> same at_lines (p_component name f).
Proof.
  intros H1 H2. unfold p_component. apply same_map_res, same_delim.
  - rewrite app_assoc. apply same_tag; [rewrite in_app_iff; intros [X|X]; auto; vm_compute in X; intuition discriminate..|left; now exists name].
  - apply same_lines.
  - rewrite app_assoc. apply same_tag; [rewrite in_app_iff; intros [X|X]; auto; vm_compute in X; intuition discriminate..|right; now exists name].
Qed.
Ltac scomp := let H := fresh in apply same_component; intros H; vm_compute in H; intuition discriminate.
Lemma same_event : same at_lines p_vevent.
Proof.
  unfold p_vevent. apply same_map_res, same_delim; [dtag| |dtag]. apply same_bind; [apply same_lines|intros ls]. apply same_bind; [apply same_many; scomp|intros; apply same_ret_lines].
Qed.
Lemma same_timezone : same at_lines p_vtimezone.
Proof.
  unfold p_vtimezone. apply same_map_res, same_delim; [dtag| |dtag]. apply same_bind; [apply same_lines|intros ls].
  apply same_bind; [apply same_many, same_alt; apply same_map; scomp|intros; apply same_ret_lines].
Qed.
Lemma same_any : same at_lines p_any_component.
Proof. unfold p_any_component. repeat apply same_alt; apply same_map; first [scomp|apply same_event|apply same_timezone]. Qed.
Lemma same_calendar : same anywhere p_vcalendar.
Proof.
  unfold p_vcalendar. apply same_map_res, same_delim; [dtag| |].
  - apply same_bind; [apply same_lines|intros ls]. apply same_bind; [apply same_many, same_any|intros; apply same_ret_lines].
  - apply same_tag_end; [discriminate|intros H; vm_compute in H; intuition discriminate..].
Qed.
Lemma unfold_no_cr s : ~ In CR s -> unfold_lines s = s.
Proof. intros H. apply unfold_id. intros (a & b & ->). apply H. rewrite !in_app_iff. right. left. now left. Qed.
Lemma line_first b r : proper b \/ delimiter b -> fresh (b ++ r) /\ b <> [].
Proof.
  assert (G : b <> [] /\ ~ begins [SP] b /\ ~ begins [LF] b -> fresh (b ++ r) /\ b <> []).
  { intros (N & A & B). split; auto. destruct b as [|c b]; [congruence|]. split; intros [y Y]; injection Y as -> _; [apply A|apply B]; now exists b. }
  intros [[c (_ & _ & k & t & l & v & e & Q & Hk & Hp & _)]|[[y ->]|[y ->]]]; apply G.
  - assert (K : forall d x, b ++ [LF] = d :: x -> d <> SP /\ d <> LF).
    { intros d x X. rewrite Q in X. destruct k as [|d' k].
      - apply params_read_head in Hp as [[u U]|[u U]]; cbn in X; rewrite U in X; injection X as <- _; split; discriminate.
      - cbn in X. injection X as <- _. apply Forall_inv in Hk. unfold key_char in Hk. unfold SP, LF. lia. }
    destruct b as [|d b]; [exfalso; destruct (K LF []); auto|]. cbn in K. specialize (K _ _ eq_refl). split; [discriminate|]. split; intros [y Y]; injection Y as -> _; tauto.
  - split; [discriminate|]. split; intros [u U]; vm_compute in U; discriminate U.
  - split; [discriminate|]. split; intros [u U]; vm_compute in U; discriminate U.
Qed.
Lemma unfold_eol b e r : no_eol b -> eol e -> fresh r -> unfold_lines (b ++ e ++ r) = b ++ e ++ unfold_lines r.
Proof.
  intros Hb He Hr. rewrite app_assoc, unfold_cut by now apply fresh_cut. rewrite unfold_cut.
  - rewrite unfold_no_cr by apply Hb. rewrite <- app_assoc. do 2 f_equal. now destruct He as [-> | ->].
  - destruct Hb as [Hb _]. intros [(x & y & -> & _)|(x & y & -> & _)]; apply Hb; rewrite in_app_iff; cbn; auto.
Qed.
Lemma fresh_nil : fresh [].
Proof. split; intros [y Y]; discriminate Y. Qed.
Lemma variant_unfold l : agree l -> (unfold_lines (version1 l) = version1 l /\ fresh (version1 l)) /\ (unfold_lines (version2 l) = version2 l /\ fresh (version2 l)).
Proof.
  induction 1 as [|[b [e e']] l (Hb & Hq & He & He' & H) Hl [[I1 F1] [I2 F2]]]; [split; split; auto using fresh_nil|].
  change (version1 ((b, (e, e')) :: l)) with ((b ++ e) ++ version1 l). change (version2 ((b, (e, e')) :: l)) with ((b ++ e') ++ version2 l). rewrite <- !app_assoc.
  rewrite !unfold_eol, I1, I2 by auto. repeat split; auto; apply line_first; tauto.
Qed.
(** Content lines may end in LF or in CR LF, each on its own. *)
Theorem C65_line_endings : every_reader (fun A read => forall l, Forall line_variant l -> read (version1 l) = read (version2 l)).
Proof.
  assert (G : forall A Q (p : parser A), same Q p -> forall l, Forall line_variant l -> from_str p (version1 l) = from_str p (version2 l)).
  { intros A Q p H l Hl. unfold from_str. destruct (variant_unfold l Hl) as [[-> _] [-> _]].
    assert (K : at_lines (version1 l) (version2 l)) by now exists l. specialize (H _ _ K). destruct (p (version1 l)), (p (version2 l)); try easy. destruct H as [-> _]. reflexivity. }
  repeat split; first [apply (G _ anywhere), same_calendar|apply (G _ at_lines)]; first [apply same_event|apply same_timezone|scomp].
Qed.
(** BEGIN and END lines must end in CR LF: a text without CR is no component. *)
Theorem C65_unix_file_is_rejected : every_reader (fun A read => forall s, ~ In CR s -> exists e, read s = Err e).
Proof.
  assert (G : forall A (n : str) (p : parser A), In CR n -> (forall s, tag n s = PErr -> p s = PErr) -> forall s, ~ In CR s -> exists e, from_str p s = Err e).
  { intros A n p Hn H s Hs. unfold from_str. rewrite unfold_no_cr by auto. rewrite H; [now exists EParser|]. apply tag_PErr. intros r ->. apply Hs. rewrite in_app_iff. auto. }
  assert (D : forall A B C X (p : parser A) (q : parser B) (r : parser C) (f : B -> outcome X) s, p s = PErr -> pmap_res (delimited p q r) f s = PErr).
  { intros A B C X p q r f s H. unfold pmap_res, delimited, pbind. now rewrite H. }
  repeat split; match goal with |- forall s, _ -> exists e, _ s = _ => idtac end.
  - apply (G _ (lit "BEGIN:VCALENDAR" ++ CRLF)); [rewrite in_app_iff; right; now left|]. intros s. apply D.
  - apply (G _ (lit "BEGIN:VEVENT" ++ CRLF)); [rewrite in_app_iff; right; now left|]. intros s. apply D.
  - apply (G _ (lit "BEGIN:" ++ lit "VTODO" ++ CRLF)); [rewrite !in_app_iff; right; right; now left|]. intros s. apply D.
  - apply (G _ (lit "BEGIN:" ++ lit "VJOURNAL" ++ CRLF)); [rewrite !in_app_iff; right; right; now left|]. intros s. apply D.
  - apply (G _ (lit "BEGIN:" ++ lit "VFREEBUSY" ++ CRLF)); [rewrite !in_app_iff; right; right; now left|]. intros s. apply D.
  - apply (G _ (lit "BEGIN:VTIMEZONE" ++ CRLF)); [rewrite in_app_iff; right; now left|]. intros s. apply D.
  - apply (G _ (lit "BEGIN:" ++ lit "STANDARD" ++ CRLF)); [rewrite !in_app_iff; right; right; now left|]. intros s. apply D.
  - apply (G _ (lit "BEGIN:" ++ lit "DAYLIGHT" ++ CRLF)); [rewrite !in_app_iff; right; right; now left|]. intros s. apply D.
  - apply (G _ (lit "BEGIN:" ++ lit "VALARM" ++ CRLF)); [rewrite !in_app_iff; right; right; now left|]. intros s. apply D.
Qed.
End Same.
(** A to-do whose content lines all end in CR LF in one version and in LF in the other. *)
Definition mixed : list (str * (str * str)) :=
  [(lit "BEGIN:VTODO", ([CR; LF], [CR; LF])); (lit "DTSTAMP:20240101T000000", ([CR; LF], [LF])); (lit "UID:1", ([LF], [CR; LF])); (lit "END:VTODO", ([CR; LF], [CR; LF]))].
Example C65_nonvacuous : Forall line_variant mixed /\ version1 mixed <> version2 mixed /\ exists v, @vtodo_of_str env_east (version1 mixed) = Ok v.
Proof.
  split; [|split; [vm_compute; discriminate|eexists; vm_compute; reflexivity]].
  assert (D : forall b, let e := [CR; LF] in no_eol b -> ~ In QUOTE b -> delimiter b -> line_variant (b, (e, e))) by (intros b e H1 H2 H3; unfold line_variant; repeat split; unfold eol; try apply H1; auto).
  assert (P : forall b c e e', no_eol b -> ~ In QUOTE b -> eol e -> eol e' -> p_content_line (b ++ [LF]) = POk [] c -> line_variant (b, (e, e'))).
  { intros b c e e' H1 H2 H3 H4 H5. unfold line_variant. repeat split; try apply H1; auto. left. exists c. now apply is_line_parse. }
  unfold mixed. repeat (apply Forall_cons || apply Forall_nil).
  - apply D; [split|..]; try (intros H; vm_compute in H; intuition discriminate). left. eexists. reflexivity.
  - eapply P; [split|..]; try (intros H; vm_compute in H; intuition discriminate); unfold eol; auto. vm_compute. reflexivity.
  - eapply P; [split|..]; try (intros H; vm_compute in H; intuition discriminate); unfold eol; auto. vm_compute. reflexivity.
  - apply D; [split|..]; try (intros H; vm_compute in H; intuition discriminate). right. eexists. reflexivity.
Qed.

(** ** C66 *)
Definition is_lower (c : char) : bool := (97 <=? c) && (c <=? 122).
Lemma upper_names names : forallb (forallb (fun c => negb (is_lower c))) names = true -> forall n, In n names -> ~ Exists lower_case n.
Proof.
  intros H n Hn X. rewrite forallb_forall in H. specialize (H n Hn). rewrite forallb_forall in H. apply Exists_exists in X as (c & Hc & L).
  specialize (H c Hc). unfold is_lower, lower_case in *. lia.
Qed.
Lemma lower_kept names ls x i : forallb (forallb (fun c => negb (is_lower c))) names = true -> extensions names ls x i -> kept_as_extension ls x i.
Proof.
  intros H (_ & _ & A & B) n l Hn Hl. assert (~ In n names) by (intros K; now apply (upper_names _ H) in K).
  split; intros K; [apply A|apply B]; auto.
Qed.
Theorem C66_lower_case_names : forall E : Env,
  (forall ls v, vevent_of_lines ls = Ok v -> kept_as_extension ls (ev_x_prop v) (ev_iana_prop v)) /\
  (forall ls v, vtodo_of_lines ls = Ok v -> kept_as_extension ls (to_x_prop v) (to_iana_prop v)) /\
  (forall ls v, vjournal_of_lines ls = Ok v -> kept_as_extension ls (jo_x_prop v) (jo_iana_prop v)) /\
  (forall ls v, vfreebusy_of_lines ls = Ok v -> kept_as_extension ls (fb_x_prop v) (fb_iana_prop v)) /\
  (forall ls v, vtimezone_of_lines ls = Ok v -> kept_as_extension ls (tz_x_prop v) (tz_iana_prop v)) /\
  (forall ls v, standard_of_lines ls = Ok v -> kept_as_extension ls (st_x_prop v) (st_iana_prop v)) /\
  (forall ls v, daylight_of_lines ls = Ok v -> kept_as_extension ls (dl_x_prop v) (dl_iana_prop v)) /\
  (forall ls v, audio_of_lines ls = Ok v -> kept_as_extension ls (au_x_prop v) (au_iana_prop v)) /\
  (forall ls v, display_of_lines ls = Ok v -> kept_as_extension ls (di_x_prop v) (di_iana_prop v)) /\
  (forall ls v, email_of_lines ls = Ok v -> kept_as_extension ls (em_x_prop v) (em_iana_prop v)) /\
  (forall ls v, vcalendar_of_lines ls = Ok v -> kept_as_extension ls (ca_x_prop v) (ca_iana_prop v)).
Proof.
  intros E. repeat match goal with |- _ /\ _ => split end; intros ls v H;
    (eapply lower_kept; [|first [exact (C12_vevent_others _ _ H)|exact (C12_vtodo_others _ _ H)|exact (C12_vjournal_others _ _ H)|exact (C12_vfreebusy_others _ _ H)|exact (C12_vtimezone_others _ _ H)|exact (C12_standard_others _ _ H)|exact (C12_daylight_others _ _ H)|exact (C12_audio_others _ _ H)|exact (C12_display_others _ _ H)|exact (C12_email_others _ _ H)|exact (C12_vcalendar_others _ _ H)]]; reflexivity).
Qed.

(** BEGIN, END and the names of the components are in upper case too. *)
Theorem C66_lower_case_keywords : forall E : Env, every_reader (fun A read => forall s, ~ Exists (fun c => 65 <= c <= 90) s -> exists e, read s = Err e).
Proof.
  intros E. assert (G : forall A (n : str) (p : parser A), begins (lit "BEGIN:") n -> (forall s, tag n s = PErr -> p s = PErr) -> forall s, ~ Exists (fun c => 65 <= c <= 90) s -> exists e, from_str p s = Err e).
  { intros A n p [x ->] H s Hs. unfold from_str. rewrite H; [now exists EParser|]. apply tag_PErr. intros r Q. apply Hs. apply Exists_exists. exists 66. split; [|lia].
    apply unfold_in. rewrite Q. now left. }
  assert (D : forall A B C X (p : parser A) (q : parser B) (r : parser C) (f : B -> outcome X) s, p s = PErr -> pmap_res (delimited p q r) f s = PErr).
  { intros A B C X p q r f s H. unfold pmap_res, delimited, pbind. now rewrite H. }
  unfold every_reader. repeat match goal with |- _ /\ _ => split end.
  - apply (G _ (lit "BEGIN:VCALENDAR" ++ CRLF)); [eexists; reflexivity|]. intros s. apply D.
  - apply (G _ (lit "BEGIN:VEVENT" ++ CRLF)); [eexists; reflexivity|]. intros s. apply D.
  - apply (G _ (lit "BEGIN:" ++ lit "VTODO" ++ CRLF)); [eexists; reflexivity|]. intros s. apply D.
  - apply (G _ (lit "BEGIN:" ++ lit "VJOURNAL" ++ CRLF)); [eexists; reflexivity|]. intros s. apply D.
  - apply (G _ (lit "BEGIN:" ++ lit "VFREEBUSY" ++ CRLF)); [eexists; reflexivity|]. intros s. apply D.
  - apply (G _ (lit "BEGIN:VTIMEZONE" ++ CRLF)); [eexists; reflexivity|]. intros s. apply D.
  - apply (G _ (lit "BEGIN:" ++ lit "STANDARD" ++ CRLF)); [eexists; reflexivity|]. intros s. apply D.
  - apply (G _ (lit "BEGIN:" ++ lit "DAYLIGHT" ++ CRLF)); [eexists; reflexivity|]. intros s. apply D.
  - apply (G _ (lit "BEGIN:" ++ lit "VALARM" ++ CRLF)); [eexists; reflexivity|]. intros s. apply D.
Qed.
(** A to-do with a lower-case [summary]: it has no summary, and the line is kept. *)
Example C66_nonvacuous : exists v l, @vtodo_of_str env_east (lit "BEGIN:VTODO" ++ CRLF ++ lit "DTSTAMP:20240101T000000" ++ CRLF ++ lit "UID:1" ++ CRLF ++ lit "summary:x" ++ CRLF ++ lit "END:VTODO" ++ CRLF) = Ok v /\
  to_summary v = None /\ mget (lit "summary") (to_iana_prop v) = Some l /\ cl_value l = lit "x".
Proof. eexists. eexists. split; [vm_compute; reflexivity|]. repeat split. Qed.

(** ** C67 *)
(** A parameter value that is not quoted runs to the next ';' or ':', over the ends of
    lines, so the lines between are swallowed. *)
Theorem C67_parameter_over_lines : forall k p v w e rest, key_text k -> key_text p ->
  ~ In SEMI v -> ~ In COLON v -> ~ In QUOTE (v ++ w ++ e ++ rest) -> ~ begins FOLD (v ++ [COLON]) ->
  no_eol w -> eol e ->
  p_content_line (k ++ [SEMI] ++ p ++ [EQUALS] ++ v ++ [COLON] ++ w ++ e ++ rest) = POk rest (mk_cl k [(p, v)] w).
Proof.
  intros k p v w e rest Hk Hp H1 H2 Hq Hf Hw He. apply line_POk.
  assert (K : forall n, begins (n ++ [COLON]) (k ++ [SEMI] ++ p ++ [EQUALS] ++ v ++ [COLON] ++ w ++ e ++ rest) -> key_text n -> False).
  { intros n. revert k Hk. induction n as [|c n IH]; intros k Hk [r R] Hn.
    - destruct k as [|d k]; [discriminate R|]. injection R as -> _. apply Forall_inv in Hk. unfold key_char, COLON in Hk. lia.
    - destruct k as [|d k]; cbn [app] in R; injection R as R0 R; [apply Forall_inv in Hn; unfold key_char, SEMI in *; lia|].
      apply (IH k (Forall_inv_tail Hk)); [now exists r|now apply Forall_inv_tail in Hn]. }
  assert (U : forall t, forallb (fun c => (65 <=? c) && (c <=? 90)) t = true -> key_text t).
  { intros t Ht. apply Forall_forall. intros c Hc. rewrite forallb_forall in Ht. specialize (Ht c Hc). unfold key_char. lia. }
  split; [intros X; apply (K (lit "BEGIN")); [exact X|apply U; reflexivity]|].
  split; [intros X; apply (K (lit "END")); [exact X|apply U; reflexivity]|].
  exists k, ([SEMI] ++ p ++ [EQUALS] ++ v ++ [COLON] ++ w ++ e ++ rest), [(p, v)], w, e. split; [reflexivity|]. split; auto. split; [|auto].
  change ([SEMI] ++ p ++ [EQUALS] ++ v ++ [COLON] ++ w ++ e ++ rest) with (SEMI :: p ++ [EQUALS] ++ [] ++ v ++ (COLON :: w ++ e ++ rest)). apply pr_plain; auto.
  - left. split; auto. intros [y Y]. apply Hf. destruct v as [|a [|b [|c u]]]; cbn in Y.
    + discriminate Y.
    + injection Y as -> Y. discriminate Y.
    + injection Y as -> -> Y. discriminate Y.
    + injection Y as -> -> -> _. exists (u ++ [COLON]). reflexivity.
  - intros (y & x & Q). cbn [app] in Q. assert (In QUOTE (v ++ COLON :: w ++ e ++ rest)) by (rewrite Q; now left).
    rewrite in_app_iff in H. destruct H as [H|[H|H]]; [|discriminate H|]; apply Hq; rewrite in_app_iff; auto.
  - constructor.
Qed.
(** A to-do whose summary is inside a parameter of the line before. *)
Example C67_swallowed : exists v l, @vtodo_of_str env_east (lit "BEGIN:VTODO" ++ CRLF ++ lit "DTSTAMP:20240101T000000" ++ CRLF ++ lit "UID:1" ++ CRLF ++ lit "X-A;B=c" ++ CRLF ++ lit "SUMMARY:x" ++ CRLF ++ lit "END:VTODO" ++ CRLF) = Ok v /\
  to_summary v = None /\ mget (lit "X-A") (to_x_prop v) = Some l /\ mget (lit "B") (cl_params l) = Some (lit "c" ++ CRLF ++ lit "SUMMARY") /\ cl_value l = lit "x".
Proof. eexists. eexists. split; [vm_compute; reflexivity|]. repeat split. Qed.
