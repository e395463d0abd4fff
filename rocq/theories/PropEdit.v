(** * C95: a content line written into a file, or taken out of it *)
From Verif Require Import Base Env Chrono Nom Types Ser Parser Derive Components BaseFacts SerFacts DeriveFacts BackFacts RoundFacts ExactFacts JunkFacts ChildFacts CrowdFacts SpecText SpecLine SpecComp SpecFields PropComp SpecFile PropFile SpecInput PropInput SpecAssemble PropAssemble SpecAppend PropAppend SpecPieces PropPieces SpecEdit.
(** ** Lines are pieces of the text *)
Definition one_line (s : str) (l : content_line) (r : str) : Prop := is_line s l r /\ sorted_map (cl_params l).
Lemma lines_seq s ls r : lines_text s ls r <-> seq_text one_line s ls r.
Proof.
  split.
  - intros [H F]. induction H; [constructor|]. inv F. econstructor; [split; eauto|auto].
  - induction 1 as [|s c r ls rest [H1 H2] H IH]; [split; constructor|]. destruct IH as [A B]. split; [econstructor; eauto|constructor; auto].
Qed.
Lemma one_line_local : local one_line.
Proof.
  intros s l y z [H F]. destruct (is_line_local _ _ _ _ H) as (x & -> & G). exists x. split; auto. intros r Hr. split; auto.
Qed.
Lemma local_more {A} (one : str -> A -> str -> Prop) : local one -> forall u, ~ In QUOTE u -> forall s a r, one s a r -> one (s ++ u) a (r ++ u).
Proof.
  intros L u Hu s a r H. rewrite <- (app_nil_r r) in H. destruct (L _ _ _ _ H) as (x & -> & G). rewrite app_nil_r, <- app_assoc. auto.
Qed.
Lemma line_start s l r : is_line s l r -> exists c z, s = c :: z /\ c <> SP /\ c <> LF.
Proof.
  intros (_ & _ & k & t & ps & v & e & -> & Hk & Hp & _). destruct k as [|c k].
  - destruct Hp; (eexists _, _; split; [reflexivity|split; discriminate]).
  - inversion Hk as [|? ? K ?]; subst. exists c, (k ++ t). split; [reflexivity|]. unfold key_char, SP, LF in *. lia.
Qed.
Lemma fresh_app c o z : fresh (c :: o) -> fresh (c :: o ++ z).
Proof. intros [F1 F2]. split; intros [y Y]; cbn in Y; injection Y as -> _; [apply F1|apply F2]; now exists o. Qed.
Lemma more_lines outs ls tail : Forall2 line_exact outs ls -> fresh tail -> ~ In QUOTE tail ->
  fresh (concat outs ++ tail) /\ ~ In QUOTE (concat outs ++ tail) /\ lines_text (unfold_lines (concat outs ++ tail)) ls (unfold_lines tail).
Proof.
  intros F Ft Qt. induction F as [|o a outs l (H & Hs & Q) F (IF & IQ & IH)]; cbn [concat app]; [split; auto; split; auto; split; constructor|].
  rewrite <- app_assoc. destruct (line_start _ _ _ H) as (c & z & U & N1 & N2). pose proof (starts_fresh _ _ _ U N1 N2) as Fo.
  destruct o as [|c0 o]; [discriminate|]. split; [now apply fresh_app|]. split; [rewrite in_app_iff; tauto|].
  rewrite unfold_cut by now apply fresh_cut. apply lines_seq. econstructor; [|apply lines_seq, IH].
  apply (local_more one_line one_line_local (unfold_lines (concat outs ++ tail))) with (r := []); [intros X; apply unfold_in in X; contradiction|]. split; auto.
Qed.
(** The frame: what comes before and after the lines. *)
Lemma lines_frame b s t ls t2 : ~ In QUOTE s -> unfold_lines s = b ++ t -> lines_text t ls t2 -> delimiter t2 ->
  exists head outs fin, s = head ++ concat outs ++ fin /\ unfold_lines head = b /\ unfold_lines fin = t2 /\ Forall2 line_exact outs ls /\ ~ In QUOTE (head ++ fin) /\
    forall outs' ls', Forall2 line_exact outs' ls' ->
      exists t', unfold_lines (head ++ concat outs' ++ fin) = b ++ t' /\ lines_text t' ls' t2.
Proof.
  intros Q U L D. apply cut_back in U as (head & s' & -> & Ub & <-). apply no_quote_app in Q as [Q1 Q2]. apply lines_seq in L.
  destruct (pieces one_line ls one_line_local s' t2 Q2 L) as (outs & fin & -> & Uf & P). apply no_quote_app in Q2 as [_ Q2].
  assert (Ff : fresh fin) by (destruct D as [[z D]|[z D]]; rewrite D in Uf; eapply starts_fresh; [exact Uf|discriminate|discriminate|exact Uf|discriminate|discriminate]).
  exists head, outs, fin. split; auto. split; auto. split; auto. split; [|split; [rewrite in_app_iff; tauto|]].
  - eapply F2_mono; [|exact P]. intros o l ((A & B) & C). split; auto.
  - intros outs' ls' P'. destruct (more_lines outs' ls' fin P' Ff Q2) as (F & _ & L'). rewrite Uf in L'. eexists. split; [|exact L']. rewrite unfold_cut by now apply fresh_cut. now rewrite Ub.
Qed.
Section Env.
Context {E : Env}.
Lemma name_inj b (n t t' : str) : b ++ n ++ [CR; LF] ++ t = b ++ n ++ [CR; LF] ++ t' -> t = t'.
Proof. intros H. now repeat apply app_inv_head in H. Qed.
Lemma simple_frame {A} name (read : list content_line -> A -> Prop) s v r : ~ In QUOTE s -> simple_text name read (unfold_lines s) v r ->
  exists head outs fin ls, s = head ++ concat outs ++ fin /\ unfold_lines head = lit "BEGIN:" ++ name ++ CRLF /\
    begins (lit "END:" ++ name) (unfold_lines fin) /\ Forall2 line_exact outs ls /\ ~ In QUOTE (head ++ fin) /\ read ls v /\
    forall outs' ls', Forall2 line_exact outs' ls' -> forall v' r', simple_text name read (unfold_lines (head ++ concat outs' ++ fin)) v' r' <-> r' = r /\ read ls' v'.
Proof.
  intros Q (t & ls & U & L & R). destruct (lines_frame (lit "BEGIN:" ++ name ++ CRLF) s t ls _ Q ltac:(rewrite U; unfold CRLF; now rewrite <- !app_assoc) L (delim_end _ _)) as (head & outs & fin & Hs & Uh & Uf & P & Qf & G).
  exists head, outs, fin, ls. split; [exact Hs|]. split; [exact Uh|]. split; [rewrite Uf; exists ([CR; LF] ++ r); now rewrite <- app_assoc|]. split; [exact P|]. split; [exact Qf|]. split; [exact R|].
  intros outs' ls' P' v' r'. destruct (G outs' ls' P') as (t' & U' & L'). rewrite U'. unfold CRLF. rewrite <- !app_assoc. split.
  - intros (t'' & ls'' & X & L'' & R''). apply name_inj in X as <-. destruct (lines_text_det _ _ _ _ _ (delim_end _ _) (delim_end _ _) L'' L') as [-> Y]. apply name_inj in Y. auto.
  - intros [-> R']. exists t', ls'. auto.
Qed.
Lemma event_frame s v r : ~ In QUOTE s -> event_text (unfold_lines s) v r ->
  exists head outs fin ls, s = head ++ concat outs ++ fin /\ unfold_lines head = lit "BEGIN:" ++ lit "VEVENT" ++ CRLF /\
    (begins (lit "BEGIN:") (unfold_lines fin) \/ begins (lit "END:" ++ lit "VEVENT") (unfold_lines fin)) /\ Forall2 line_exact outs ls /\ ~ In QUOTE (head ++ fin) /\
    (exists v0, vevent_read ls v0 /\ v = event_own v0 v) /\
    forall outs' ls', Forall2 line_exact outs' ls' -> forall v' r', event_text (unfold_lines (head ++ concat outs' ++ fin)) v' r' <-> r' = r /\ exists w, vevent_read ls' w /\ v' = event_own w v.
Proof.
  intros Q (t & ls & t2 & v0 & U & L & Sq & R & V).
  assert (D : delimiter t2) by (eapply seq_head; [exact Sq|intros ? ? ?; apply simple_head|apply (begins_app (lit "END:"))]).
  assert (D' : begins (lit "BEGIN:") t2 \/ begins (lit "END:" ++ lit "VEVENT") t2).
  { inversion Sq as [|? ? ? ? ? X Y]; subst; [right; eexists; reflexivity|left; eapply simple_head; exact X]. }
  destruct (lines_frame (lit "BEGIN:" ++ lit "VEVENT" ++ CRLF) s t ls t2 Q ltac:(rewrite U; reflexivity) L D) as (head & outs & fin & Hs & Uh & Uf & P & Qf & G).
  exists head, outs, fin, ls. split; [exact Hs|]. split; [exact Uh|]. split; [now rewrite Uf|]. split; [exact P|]. split; [exact Qf|]. split; [now exists v0|].
  intros outs' ls' P' v' r'. destruct (G outs' ls' P') as (t' & U' & L').
  assert (K : forall w, vevent_read ls' w -> event_text (unfold_lines (head ++ concat outs' ++ fin)) (event_own w v) r).
  { intros w W. exists t', ls', t2, w. rewrite U'. split; [reflexivity|]. split; [exact L'|]. split; [destruct w; exact Sq|]. split; [exact W|destruct w; reflexivity]. }
  split.
  - intros X. pose proof X as (t'' & ls'' & t2'' & w & U'' & L'' & Sq'' & R'' & V''). rewrite U' in U''. apply (name_inj (lit "BEGIN:") (lit "VEVENT")) in U'' as <-.
    assert (D2 : delimiter t2'') by (eapply seq_head; [exact Sq''|intros ? ? ?; apply simple_head|apply (begins_app (lit "END:"))]).
    destruct (lines_text_det _ _ _ _ _ D2 D L'' L') as [-> ->]. apply K in R'' as Y. apply event_POk in X, Y. rewrite X in Y. injection Y as -> ->. split; eauto.
  - intros [-> (w & W & ->)]. auto.
Qed.
Lemma timezone_frame s v r : ~ In QUOTE s -> timezone_text (unfold_lines s) v r ->
  exists head outs fin ls, s = head ++ concat outs ++ fin /\ unfold_lines head = lit "BEGIN:" ++ lit "VTIMEZONE" ++ CRLF /\
    (begins (lit "BEGIN:") (unfold_lines fin) \/ begins (lit "END:" ++ lit "VTIMEZONE") (unfold_lines fin)) /\ Forall2 line_exact outs ls /\ ~ In QUOTE (head ++ fin) /\
    (exists v0, vtimezone_read ls v0 /\ v = timezone_own v0 v) /\
    forall outs' ls', Forall2 line_exact outs' ls' -> forall v' r', timezone_text (unfold_lines (head ++ concat outs' ++ fin)) v' r' <-> r' = r /\ exists w, vtimezone_read ls' w /\ v' = timezone_own w v.
Proof.
  intros Q (t & ls & t2 & cs & v0 & U & L & Sq & R & V & W1 & W2).
  assert (D : delimiter t2) by (eapply seq_head; [exact Sq|apply tz_part_head|apply (begins_app (lit "END:"))]).
  assert (D' : begins (lit "BEGIN:") t2 \/ begins (lit "END:" ++ lit "VTIMEZONE") t2).
  { inversion Sq as [|? ? ? ? ? X Y]; subst; [right; eexists; reflexivity|left; eapply tz_part_head; exact X]. }
  destruct (lines_frame (lit "BEGIN:" ++ lit "VTIMEZONE" ++ CRLF) s t ls t2 Q ltac:(rewrite U; reflexivity) L D) as (head & outs & fin & Hs & Uh & Uf & P & Qf & G).
  exists head, outs, fin, ls. split; [exact Hs|]. split; [exact Uh|]. split; [now rewrite Uf|]. split; [exact P|]. split; [exact Qf|]. split; [now exists v0|].
  intros outs' ls' P' v' r'. destruct (G outs' ls' P') as (t' & U' & L').
  assert (K : forall w, vtimezone_read ls' w -> timezone_text (unfold_lines (head ++ concat outs' ++ fin)) (timezone_own w v) r).
  { intros w W. exists t', ls', t2, cs, w. rewrite U'. split; [reflexivity|]. split; [exact L'|]. split; [exact Sq|]. split; [exact W|]. split; [destruct w; reflexivity|]. split; [exact W1|exact W2]. }
  split.
  - intros X. pose proof X as (t'' & ls'' & t2'' & cs'' & w & U'' & L'' & Sq'' & R'' & _). rewrite U' in U''. apply (name_inj (lit "BEGIN:") (lit "VTIMEZONE")) in U'' as <-.
    assert (D2 : delimiter t2'') by (eapply seq_head; [exact Sq''|apply tz_part_head|apply (begins_app (lit "END:"))]).
    destruct (lines_text_det _ _ _ _ _ D2 D L'' L') as [-> ->]. apply K in R'' as Y. apply timezone_POk in X, Y. rewrite X in Y. injection Y as -> ->. split; eauto.
  - intros [-> (w & W & ->)]. auto.
Qed.
Lemma child_begin s c r : child_text s c r -> begins (lit "BEGIN:") s.
Proof. intros X. apply child_head in X as [z ->]. destruct c; cbn [head_of]; (eexists; cbn [lit app]; reflexivity). Qed.
Lemma calendar_frame s v : ~ In QUOTE s -> vcalendar_of_str s = Ok v ->
  exists head outs fin ls, s = head ++ concat outs ++ fin /\ unfold_lines head = lit "BEGIN:" ++ lit "VCALENDAR" ++ CRLF /\
    (begins (lit "BEGIN:") (unfold_lines fin) \/ begins (lit "END:" ++ lit "VCALENDAR") (unfold_lines fin)) /\ Forall2 line_exact outs ls /\ ~ In QUOTE (head ++ fin) /\
    (exists v0, vcalendar_read ls v0 /\ v = calendar_own v0 v) /\
    forall outs' ls', Forall2 line_exact outs' ls' -> forall v', vcalendar_of_str (head ++ concat outs' ++ fin) = Ok v' <-> exists w, vcalendar_read ls' w /\ v' = calendar_own w v.
Proof.
  intros Q H. apply C15_calendar_grammar in H as (ls & cs & r & (t & t2 & U & L & Sq) & (A1 & A2 & A3 & A4 & A5 & A6 & v0 & R & B)).
  assert (D : delimiter t2) by (eapply seq_head; [exact Sq|apply child_begin|apply (begins_app (lit "END:"))]).
  assert (D' : begins (lit "BEGIN:") t2 \/ begins (lit "END:" ++ lit "VCALENDAR") t2).
  { inversion Sq as [|? ? ? ? ? X Y]; subst; [right; eexists; reflexivity|left; eapply child_begin; exact X]. }
  destruct (lines_frame (lit "BEGIN:" ++ lit "VCALENDAR" ++ CRLF) s t ls t2 Q ltac:(rewrite U; reflexivity) L D) as (head & outs & fin & Hs & Uh & Uf & P & Qf & G).
  exists head, outs, fin, ls. split; [exact Hs|]. split; [exact Uh|]. split; [now rewrite Uf|]. split; [exact P|]. split; [exact Qf|].
  split; [exists v0; split; [exact R|]; clear - B; destruct B as (B1 & B2 & B3 & B4 & B5 & B6); destruct v; unfold calendar_own; cbn in *; now subst|].
  intros outs' ls' P' v'. destruct (G outs' ls' P') as (t' & U' & L'). rewrite C15_calendar_grammar.
  assert (K : forall w, vcalendar_read ls' w -> calendar_text (unfold_lines (head ++ concat outs' ++ fin)) ls' cs r /\ calendar_holds (calendar_own w v) ls' cs).
  { intros w W. split; [exists t', t2; rewrite U'; split; [reflexivity|]; split; [exact L'|exact Sq]|].
    repeat (split; [assumption|]). exists w. split; [exact W|repeat split]. }
  split.
  - intros (ls'' & cs'' & r'' & X & Hh). pose proof X as (t'' & t2'' & U'' & L'' & Sq''). pose proof Hh as (_ & _ & _ & _ & _ & _ & w & R'' & _).
    rewrite U' in U''. apply (name_inj (lit "BEGIN:") (lit "VCALENDAR")) in U'' as <-.
    assert (D2 : delimiter t2'') by (eapply seq_head; [exact Sq''|apply child_begin|apply (begins_app (lit "END:"))]).
    destruct (lines_text_det _ _ _ _ _ D2 D L'' L') as [-> ->]. exists w. split; [exact R''|]. destruct (K w R'') as [K1 K2].
    assert (P1 : p_vcalendar (unfold_lines (head ++ concat outs' ++ fin)) = POk r'' v') by (apply calendar_POk; eauto).
    assert (P2 : p_vcalendar (unfold_lines (head ++ concat outs' ++ fin)) = POk r (calendar_own w v)) by (apply calendar_POk; eauto). congruence.
  - intros (w & W & ->). destruct (K w W) as [K1 K2]. exists ls', cs, r. auto.
Qed.
(** ** One line more, the lines of a name less: the kinds of fields *)
Lemma named_last n ls l : lines_named n (ls ++ [l]) = lines_named n ls ++ if str_eqb (cl_key l) n then [l] else [].
Proof. rewrite lines_named_app. unfold lines_named at 2. cbn [filter]. destruct (str_eqb _ _); reflexivity. Qed.
Lemma named_cons n ls l : lines_named n (l :: ls) = (if str_eqb (cl_key l) n then [l] else []) ++ lines_named n ls.
Proof. unfold lines_named. cbn [filter]. destruct (str_eqb _ _); reflexivity. Qed.
Lemma named_kept n m ls : lines_named m (kept_lines n ls) = if str_eqb n m then [] else lines_named m ls.
Proof.
  unfold kept_lines. induction ls as [|l ls IH]; cbn [filter]; [now destruct (str_eqb n m)|]. destruct (str_eqb (cl_key l) n) eqn:A; cbn [negb].
  - rewrite IH, named_cons. apply str_eqb_eq in A. rewrite A. now destruct (str_eqb n m).
  - rewrite !named_cons, IH. destruct (str_eqb n m) eqn:B; auto. apply str_eqb_eq in B as <-. now rewrite A.
Qed.
Lemma key_dec (a b : str) : (a = b /\ str_eqb a b = true) \/ (a <> b /\ str_eqb a b = false).
Proof. destruct (str_eqb a b) eqn:Q; [left|right]; split; auto; [now apply str_eqb_eq|now apply str_eqb_neq]. Qed.
(** Everything a field depends on is the lines with its name. *)
Lemma required_named {T} (p : content_line -> outcome T) n ls v : required p n ls v <-> exists l, last_opt (lines_named n ls) = Some l /\ p l = Ok v.
Proof. unfold required. setoid_rewrite last_line_iff. reflexivity. Qed.
Lemma optional_named {T} (p : content_line -> outcome T) n ls o : optional p n ls o <->
  (forall l, In l (lines_named n ls) -> exists v, p l = Ok v) /\ match last_opt (lines_named n ls) with Some l => exists v, p l = Ok v /\ o = Some v | None => o = None end.
Proof.
  assert (V : (forall l, In l ls -> cl_key l = n -> exists v, p l = Ok v) <-> (forall l, In l (lines_named n ls) -> exists v, p l = Ok v)).
  { unfold lines_named. setoid_rewrite filter_In. setoid_rewrite str_eqb_eq. split; intros H l; [intros [A B]; auto|auto]. }
  unfold optional. rewrite V. apply and_iff_compat_l. destruct o as [v|].
  - rewrite required_named. destruct (last_opt _) as [l|]; split.
    + intros (l' & X & Y). injection X as <-. eauto.
    + intros (v' & X & Y). injection Y as <-. eauto.
    + intros (l' & X & Y). discriminate.
    + discriminate.
  - rewrite absent_lines. destruct (lines_named n ls) as [|l r] eqn:Q; [cbn; tauto|]. destruct (last_opt (l :: r)) eqn:L.
    + split; [discriminate|]. intros (? & ? & ?). discriminate.
    + exfalso. destruct (exists_last (l := l :: r) ltac:(discriminate)) as (y & z & Hy). rewrite Hy, last_opt_app in L. discriminate.
Qed.
Section Kinds.
Context {T : Type} (p : content_line -> outcome T) (n : str) (ls : list content_line).
Lemma last_required_iff l v v' : required p n ls v -> required p n (ls ++ [l]) v' <-> last_required p n l v v'.
Proof.
  rewrite !required_named, named_last. intros (k & A & B). unfold last_required. destruct (key_dec (cl_key l) n) as [[-> ->]|[N ->]].
  - rewrite last_opt_app. split; [intros (k' & X & Y); injection X as <-; tauto|]. intros [H _]. eauto.
  - rewrite app_nil_r, A. split; [intros (k' & X & Y); injection X as <-; split; [tauto|congruence]|]. intros [_ H]. rewrite (H N). eauto.
Qed.
Lemma last_optional_iff l o o' : optional p n ls o -> optional p n (ls ++ [l]) o' <-> last_optional p n l o o'.
Proof.
  rewrite !optional_named, named_last. intros [A B]. unfold last_optional. destruct (key_dec (cl_key l) n) as [[-> ->]|[N ->]].
  - rewrite last_opt_app. setoid_rewrite in_app_iff. split; [tauto|]. intros [H _]. destruct (H eq_refl) as (x & X & ->). split; eauto. intros l' [I|[<-|[]]]; eauto.
  - rewrite app_nil_r. split.
    + intros [_ C]. split; [tauto|]. intros _. destruct (last_opt _); [|congruence]. destruct B as (x & X & ->), C as (y & Y & ->). congruence.
    + intros [_ H]. rewrite (H N). auto.
Qed.
Lemma F2_one {X Y} (R : X -> Y -> Prop) x ys : Forall2 R [x] ys <-> exists y, R x y /\ ys = [y].
Proof. split; [intros H; inversion H as [|? ? ? ? A B]; subst; inversion B; subst; eauto|]. intros (y & H & ->). auto. Qed.
Lemma F2_nil {X Y} (R : X -> Y -> Prop) ys : Forall2 R [] ys <-> ys = [].
Proof. split; [intros H; now inversion H|intros ->; constructor]. Qed.
Lemma F2_same (vs vs' : list T) ks : Forall2 (fun l v => p l = Ok v) ks vs -> Forall2 (fun l v => p l = Ok v) ks vs' <-> vs' = vs.
Proof.
  intros A. split; [|intros ->; auto]. revert vs'. induction A as [|k v ks vs K A IH]; intros vs' B; inversion B; subst; auto. f_equal; [congruence|auto].
Qed.
Lemma last_repeated_iff l vs vs' : repeated p n ls vs -> repeated p n (ls ++ [l]) vs' <-> last_repeated p n l vs vs'.
Proof.
  unfold repeated. rewrite named_last. intros A. unfold last_repeated. destruct (key_dec (cl_key l) n) as [[-> ->]|[N ->]].
  - split.
    + intros H. apply Forall2_app_inv_l in H as (a & b & H1 & H2 & ->). rewrite F2_same in H1 by exact A. subst a. apply F2_one in H2 as (x & X & ->). split; [eauto|tauto].
    + intros [H _]. destruct (H eq_refl) as (x & X & ->). apply Forall2_app; [exact A|]. apply F2_one. eauto.
  - rewrite app_nil_r, F2_same by exact A. tauto.
Qed.
Lemma first_required_iff l v v' : required p n ls v -> required p n (l :: ls) v' <-> v' = v.
Proof.
  rewrite !required_named, named_cons. intros (k & A & B). assert (Q : last_opt ((if str_eqb (cl_key l) n then [l] else []) ++ lines_named n ls) = Some k).
  { destruct (lines_named n ls) as [|x r] eqn:X; [discriminate|]. destruct (exists_last (l := x :: r) ltac:(discriminate)) as (y & z & Hy). rewrite Hy in *. rewrite app_assoc, last_opt_app. now rewrite last_opt_app in A. }
  rewrite Q. split; [intros (k' & X & Y); injection X as <-; congruence|]. intros ->. eauto.
Qed.
Lemma first_optional_iff l o o' : optional p n ls o -> optional p n (l :: ls) o' <-> first_optional p n l o o'.
Proof.
  rewrite !optional_named, named_cons. intros [A B]. unfold first_optional. destruct (key_dec (cl_key l) n) as [[-> ->]|[N ->]].
  - destruct (lines_named n ls) as [|x r] eqn:X.
    + cbn [last_opt app] in *. subst o. split; [intros [_ (v & V & ->)]; split; [eauto|tauto]|]. intros [H _]. destruct (H eq_refl) as (y & Y & ->). split; [intros l' [<-|[]]; eauto|eauto].
    + destruct (exists_last (l := x :: r) ltac:(discriminate)) as (y & z & Hy). rewrite Hy in *. rewrite app_assoc, !last_opt_app in *. destruct B as (b & B & ->). split.
      * intros [V (v & Y & ->)]. split; [|tauto]. intros _. destruct (V l) as (u & Hu); [rewrite !in_app_iff; left; left; now left|]. exists u. split; auto. congruence.
      * intros [H _]. destruct (H eq_refl) as (u & Hu & ->). split; [|eauto]. intros l'. rewrite <- app_assoc, in_app_iff. intros [[<-|[]]|I]; eauto.
  - cbn [app]. split.
    + intros [_ C]. split; [tauto|]. intros _. destruct (last_opt _); [|congruence]. destruct B as (x & X & ->), C as (y & Y & ->). congruence.
    + intros [_ H]. rewrite (H N). auto.
Qed.
Lemma first_repeated_iff l vs vs' : repeated p n ls vs -> repeated p n (l :: ls) vs' <-> first_repeated p n l vs vs'.
Proof.
  unfold repeated. rewrite named_cons. intros A. unfold first_repeated. destruct (key_dec (cl_key l) n) as [[-> ->]|[N ->]].
  - split.
    + intros H. apply Forall2_app_inv_l in H as (a & b & H1 & H2 & ->). rewrite F2_same in H2 by exact A. subst b. apply F2_one in H1 as (x & X & ->). split; [eauto|tauto].
    + intros [H _]. destruct (H eq_refl) as (x & X & ->). constructor; auto.
  - cbn [app]. rewrite F2_same by exact A. tauto.
Qed.
Lemma without_required_iff m v v' : n <> m -> required p n ls v -> required p n (kept_lines m ls) v' <-> v' = v.
Proof.
  rewrite !required_named, named_kept. intros N (k & A & B). destruct (key_dec m n) as [[-> _]|[_ ->]]; [congruence|]. rewrite A. split; [intros (k' & X & Y); injection X as <-; congruence|]. intros ->. eauto.
Qed.
Lemma without_optional_iff m o o' : optional p n ls o -> optional p n (kept_lines m ls) o' <-> without_optional n m o o'.
Proof.
  rewrite !optional_named, named_kept. intros [A B]. unfold without_optional. destruct (key_dec m n) as [[-> ->]|[N ->]].
  - cbn [last_opt]. split; [tauto|]. intros [H _]. split; auto. intros ? [].
  - split.
    + intros [_ C]. split; [tauto|]. intros _. destruct (last_opt _); [|congruence]. destruct B as (x & X & ->), C as (y & Y & ->). congruence.
    + intros [_ H]. rewrite (H N). auto.
Qed.
Lemma without_repeated_iff m vs vs' : repeated p n ls vs -> repeated p n (kept_lines m ls) vs' <-> without_repeated n m vs vs'.
Proof.
  unfold repeated. rewrite named_kept. intros A. unfold without_repeated. destruct (key_dec m n) as [[-> ->]|[N ->]]; [rewrite F2_nil; tauto|]. rewrite F2_same by exact A. tauto.
Qed.
End Kinds.
Section Appended.
Context {T : Type} (p : content_line -> outcome (list T)) (n : str) (ls : list content_line).
Lemma last_appended_iff l vs vs' : appended p n ls vs -> appended p n (ls ++ [l]) vs' <-> last_appended p n l vs vs'.
Proof.
  intros (vss & A & ->). unfold appended. change (Forall2 (fun l v => p l = Ok v) (lines_named n ls) vss) with (repeated p n ls vss) in A.
  assert (G : forall w, Forall2 (fun l0 v => p l0 = Ok v) (lines_named n (ls ++ [l])) w <-> last_repeated p n l vss w) by (intros w; apply (last_repeated_iff p n ls l vss w A)).
  setoid_rewrite G. unfold last_repeated, last_appended. destruct (key_dec (cl_key l) n) as [[Q _]|[N _]]; split.
  - intros (w & [H _] & ->). split; [|tauto]. intros _. destruct (H Q) as (x & X & ->). exists x. split; auto. rewrite concat_app. cbn [concat]. now rewrite app_nil_r.
  - intros [H _]. destruct (H Q) as (x & X & ->). exists (vss ++ [x]). split; [split; [eauto|tauto]|]. rewrite concat_app. cbn [concat]. now rewrite app_nil_r.
  - intros (w & [_ H] & ->). split; [tauto|]. intros _. now rewrite (H N).
  - intros [_ H]. exists vss. split; [split; tauto|auto].
Qed.
Lemma first_appended_iff l vs vs' : appended p n ls vs -> appended p n (l :: ls) vs' <-> first_appended p n l vs vs'.
Proof.
  intros (vss & A & ->). unfold appended. change (Forall2 (fun l v => p l = Ok v) (lines_named n ls) vss) with (repeated p n ls vss) in A.
  assert (G : forall w, Forall2 (fun l0 v => p l0 = Ok v) (lines_named n (l :: ls)) w <-> first_repeated p n l vss w) by (intros w; apply (first_repeated_iff p n ls l vss w A)).
  setoid_rewrite G. unfold first_repeated, first_appended. destruct (key_dec (cl_key l) n) as [[Q _]|[N _]]; split.
  - intros (w & [H _] & ->). split; [|tauto]. intros _. destruct (H Q) as (x & X & ->). exists x. split; auto.
  - intros [H _]. destruct (H Q) as (x & X & ->). exists (x :: vss). split; [split; [eauto|tauto]|]. reflexivity.
  - intros (w & [_ H] & ->). split; [tauto|]. intros _. now rewrite (H N).
  - intros [_ H]. exists vss. split; [split; tauto|auto].
Qed.
Lemma without_appended_iff m vs vs' : appended p n ls vs -> appended p n (kept_lines m ls) vs' <-> without_appended n m vs vs'.
Proof.
  intros (vss & A & ->). unfold appended. change (Forall2 (fun l v => p l = Ok v) (lines_named n ls) vss) with (repeated p n ls vss) in A.
  assert (G : forall w, Forall2 (fun l0 v => p l0 = Ok v) (lines_named n (kept_lines m ls)) w <-> without_repeated n m vss w) by (intros w; apply (without_repeated_iff p n ls m vss w A)).
  setoid_rewrite G. unfold without_appended, without_repeated. destruct (key_dec m n) as [[Q _]|[N _]]; split.
  - intros (w & [H _] & ->). split; [|tauto]. intros _. now rewrite (H Q).
  - intros [H _]. exists []. split; [split; tauto|auto].
  - intros (w & [_ H] & ->). split; [tauto|]. intros _. now rewrite (H N).
  - intros [_ H]. exists vss. split; [split; tauto|auto].
Qed.
End Appended.
(** The two maps *)
Definition half (P : str -> Prop) (ls : list content_line) (x : smap content_line) : Prop :=
  sorted_map x /\ forall n, (P n -> mget n x = last_opt (lines_named n ls)) /\ (~ P n -> mget n x = None).
Definition in_x (known : list str) (n : str) : Prop := ~ In n known /\ begins (lit "X-") n.
Definition in_i (known : list str) (n : str) : Prop := ~ In n known /\ ~ begins (lit "X-") n.
Lemma begins_dec p s : begins p s \/ ~ begins p s.
Proof. unfold begins. destruct (starts_with p s) eqn:B; [left; now apply starts_with_iff|right]. intros H. apply starts_with_iff in H. congruence. Qed.
Lemma known_dec (n : str) l : In n l \/ ~ In n l. Proof. destruct (in_dec (list_eq_dec Z.eq_dec) n l); auto. Qed.
Lemma half_iff (P : str -> Prop) ls x : (forall n, P n \/ ~ P n) -> sorted_map x /\ (forall n l, mget n x = Some l <-> P n /\ last_line n ls l) <-> half P ls x.
Proof.
  intros D. unfold half. setoid_rewrite last_line_iff. apply and_iff_compat_l. split.
  - intros H n. split; intros Pn.
    + destruct (last_opt (lines_named n ls)) as [l|] eqn:L; [apply H; auto|]. destruct (mget n x) eqn:M; auto. apply H in M as [_ M]. congruence.
    + destruct (mget n x) eqn:M; auto. apply H in M as [M _]. contradiction.
  - intros H n l. destruct (H n) as [H1 H2], (D n) as [Pn|Pn]; [rewrite H1 by auto; tauto|]. rewrite H2 by auto. split; [discriminate|tauto].
Qed.
Lemma extensions_half known ls x i : extensions known ls x i <-> half (in_x known) ls x /\ half (in_i known) ls i.
Proof.
  rewrite <- !half_iff. 2, 3: intros n; unfold in_x, in_i; destruct (known_dec n known), (begins_dec (lit "X-") n); tauto. unfold extensions, in_x, in_i. split.
  - intros (A & B & C & D). split; split; auto; intros n l; [rewrite C|rewrite D]; tauto.
  - intros ((A & C) & (B & D)). split; [exact A|]. split; [exact B|]. split; intros n l; [rewrite C|rewrite D]; tauto.
Qed.
Lemma map_ext {V} (x y : smap V) : sorted_map x -> sorted_map y -> (forall k, mget k x = mget k y) -> x = y.
Proof. rewrite !sorted_map_iff. apply msorted_ext. Qed.
Section Half.
Variables (P : str -> Prop) (ls : list content_line) (x : smap content_line).
Hypothesis D : forall n, P n \/ ~ P n.
Hypothesis H : half P ls x.
Lemma half_last l x' : half P (ls ++ [l]) x' <-> (P (cl_key l) /\ put (cl_key l) l x x') \/ (~ P (cl_key l) /\ x' = x).
Proof.
  destruct H as [Sx Hx]. split.
  - intros [Sx' Hx']. destruct (D (cl_key l)) as [Pl|Pl]; [left|right]; split; auto.
    + split; [exact Sx'|]. split; [rewrite (proj1 (Hx' _) Pl), named_last, str_eqb_refl; apply last_opt_app|].
      intros k N. destruct (D k) as [Pk|Pk]; [|rewrite (proj2 (Hx _) Pk), (proj2 (Hx' _) Pk); reflexivity].
      rewrite (proj1 (Hx _) Pk), (proj1 (Hx' _) Pk), named_last. destruct (key_dec (cl_key l) k) as [[Q _]|[_ ->]]; [congruence|]. now rewrite app_nil_r.
    + apply map_ext; auto. intros k. destruct (D k) as [Pk|Pk]; [|rewrite (proj2 (Hx _) Pk), (proj2 (Hx' _) Pk); reflexivity].
      rewrite (proj1 (Hx _) Pk), (proj1 (Hx' _) Pk), named_last. destruct (key_dec (cl_key l) k) as [[Q _]|[_ ->]]; [congruence|]. now rewrite app_nil_r.
  - intros [[Pl (Sx' & A & B)]|[Pl ->]].
    + split; [exact Sx'|]. intros k. rewrite named_last. destruct (key_dec (cl_key l) k) as [[<- ->]|[N ->]].
      * rewrite last_opt_app, A. tauto.
      * rewrite app_nil_r, B by auto. apply Hx.
    + split; [exact Sx|]. intros k. rewrite named_last. destruct (key_dec (cl_key l) k) as [[<- ->]|[N ->]]; [split; [tauto|apply Hx]|]. rewrite app_nil_r. apply Hx.
Qed.
Lemma last_opt_front {X} (a : X) r : last_opt (a :: r) = match last_opt r with Some b => Some b | None => Some a end.
Proof.
  destruct r as [|b r]; [reflexivity|]. destruct (exists_last (l := b :: r) ltac:(discriminate)) as (y & z & Hy). rewrite Hy. change (a :: y ++ [z]) with ((a :: y) ++ [z]). now rewrite !last_opt_app.
Qed.
Lemma half_first l x' : half P (l :: ls) x' <-> (P (cl_key l) /\ put_missing (cl_key l) l x x') \/ (~ P (cl_key l) /\ x' = x).
Proof.
  destruct H as [Sx Hx]. split.
  - intros [Sx' Hx'].
    assert (O : forall k, k <> cl_key l -> mget k x' = mget k x).
    { intros k N. destruct (D k) as [Pk|Pk]; [|rewrite (proj2 (Hx _) Pk), (proj2 (Hx' _) Pk); reflexivity].
      rewrite (proj1 (Hx _) Pk), (proj1 (Hx' _) Pk), named_cons. destruct (key_dec (cl_key l) k) as [[Q _]|[_ ->]]; [congruence|]. reflexivity. }
    destruct (D (cl_key l)) as [Pl|Pl]; [left|right]; split; auto.
    + pose proof (proj1 (Hx' _) Pl) as K. rewrite named_cons, str_eqb_refl in K. cbn [app] in K. rewrite last_opt_front, <- (proj1 (Hx _) Pl) in K. split.
      * intros N. rewrite N in K. split; [exact Sx'|]. split; [exact K|exact O].
      * intros N. apply map_ext; auto. intros k. destruct (key_dec (cl_key l) k) as [[<- _]|[N' _]]; [|apply O; congruence]. rewrite K. destruct (mget (cl_key l) x); congruence.
    + apply map_ext; auto. intros k. destruct (key_dec (cl_key l) k) as [[<- _]|[N' _]]; [|apply O; congruence]. rewrite (proj2 (Hx _) Pl), (proj2 (Hx' _) Pl). reflexivity.
  - intros [[Pl [M1 M2]]|[Pl ->]].
    + destruct (mget (cl_key l) x) as [l0|] eqn:G.
      * rewrite M2 by congruence. split; [exact Sx|]. intros k. rewrite named_cons. destruct (key_dec (cl_key l) k) as [[<- ->]|[N ->]]; [|apply Hx].
        cbn [app]. rewrite last_opt_front, <- (proj1 (Hx _) Pl), G. tauto.
      * destruct (M1 eq_refl) as (Sx' & A & B). split; [exact Sx'|]. intros k. rewrite named_cons. destruct (key_dec (cl_key l) k) as [[<- ->]|[N ->]].
        -- cbn [app]. rewrite last_opt_front, <- (proj1 (Hx _) Pl), G, A. tauto.
        -- cbn [app]. rewrite B by auto. apply Hx.
    + split; [exact Sx|]. intros k. rewrite named_cons. destruct (key_dec (cl_key l) k) as [[<- ->]|[N ->]]; [split; [tauto|apply Hx]|]. apply Hx.
Qed.
Lemma half_without n x' : half P (kept_lines n ls) x' <-> taken n x x'.
Proof.
  destruct H as [Sx Hx]. split.
  - intros [Sx' Hx']. split; [exact Sx'|]. split.
    + destruct (D n) as [Pn|Pn]; [rewrite (proj1 (Hx' _) Pn), named_kept, str_eqb_refl; reflexivity|apply Hx', Pn].
    + intros k N. destruct (D k) as [Pk|Pk]; [|rewrite (proj2 (Hx _) Pk), (proj2 (Hx' _) Pk); reflexivity].
      rewrite (proj1 (Hx _) Pk), (proj1 (Hx' _) Pk), named_kept. destruct (key_dec n k) as [[Q _]|[_ ->]]; [congruence|reflexivity].
  - intros (Sx' & A & B). split; [exact Sx'|]. intros k. rewrite named_kept. destruct (key_dec n k) as [[<- ->]|[N ->]]; [rewrite A; tauto|]. rewrite B by auto. apply Hx.
Qed.
End Half.
Lemma in_x_dec known n : in_x known n \/ ~ in_x known n.
Proof. unfold in_x. destruct (known_dec n known), (begins_dec (lit "X-") n); tauto. Qed.
Lemma in_i_dec known n : in_i known n \/ ~ in_i known n.
Proof. unfold in_i. destruct (known_dec n known), (begins_dec (lit "X-") n); tauto. Qed.
Lemma last_extensions_iff known ls l x i x' i' : extensions known ls x i -> extensions known (ls ++ [l]) x' i' <-> last_extensions known l x i x' i'.
Proof.
  rewrite !extensions_half. intros [A B]. rewrite (half_last _ _ _ (in_x_dec known) A), (half_last _ _ _ (in_i_dec known) B). unfold last_extensions, in_x, in_i.
  destruct (known_dec (cl_key l) known), (begins_dec (lit "X-") (cl_key l)); tauto.
Qed.
Lemma first_extensions_iff known ls l x i x' i' : extensions known ls x i -> extensions known (l :: ls) x' i' <-> first_extensions known l x i x' i'.
Proof.
  rewrite !extensions_half. intros [A B]. rewrite (half_first _ _ _ (in_x_dec known) A), (half_first _ _ _ (in_i_dec known) B). unfold first_extensions, in_x, in_i.
  destruct (known_dec (cl_key l) known), (begins_dec (lit "X-") (cl_key l)); tauto.
Qed.
Lemma without_extensions_iff known ls n x i x' i' : extensions known ls x i -> extensions known (kept_lines n ls) x' i' <-> without_extensions n x i x' i'.
Proof. rewrite !extensions_half. intros [A B]. rewrite (half_without _ _ _ (in_x_dec known) A), (half_without _ _ _ (in_i_dec known) B). reflexivity. Qed.
(** ** Every component *)
Lemma and_cong A B C D : (A <-> B) -> (C <-> D) -> (A /\ C <-> B /\ D). Proof. tauto. Qed.
Lemma empty_same {T} (a b : list T) : a = [] -> (b = [] <-> b = a). Proof. intros ->. reflexivity. Qed.
Ltac step_last := first [apply last_required_iff; assumption|apply last_optional_iff; assumption|apply last_repeated_iff; assumption|apply last_appended_iff; assumption|apply last_extensions_iff; assumption|apply empty_same; assumption].
Ltac step_first := first [eapply first_required_iff; eassumption|apply first_optional_iff; assumption|apply first_repeated_iff; assumption|apply first_appended_iff; assumption|apply first_extensions_iff; assumption|apply empty_same; assumption].
Ltac step_without N := first [eapply without_required_iff; [intros <-; apply N; clear; cbn [In]; tauto|eassumption]|apply without_optional_iff; assumption|apply without_repeated_iff; assumption|apply without_appended_iff; assumption|eapply without_extensions_iff; eassumption|apply empty_same; assumption].
Ltac halves H tac := repeat match type of H with _ /\ _ => let H1 := fresh in destruct H as [H1 H] end; repeat (apply and_cong; [tac|]); tac.
Lemma audio_last_iff ls l v v' : audio_read ls v -> audio_read (ls ++ [l]) v' <-> audio_last l v v'.
Proof. intros H. unfold audio_read in *. unfold audio_last. halves H step_last. Qed.
Lemma audio_first_iff ls l v v' : audio_read ls v -> audio_read (l :: ls) v' <-> audio_first l v v'.
Proof. intros H. unfold audio_read in *. unfold audio_first. halves H step_first. Qed.
Lemma audio_without_iff ls n v v' : ~ In n audio_required -> audio_read ls v -> audio_read (kept_lines n ls) v' <-> audio_without n v v'.
Proof. intros N H. unfold audio_read in *. unfold audio_without. unfold audio_required in N. halves H ltac:(step_without N). Qed.
Lemma display_last_iff ls l v v' : display_read ls v -> display_read (ls ++ [l]) v' <-> display_last l v v'.
Proof. intros H. unfold display_read in *. unfold display_last. halves H step_last. Qed.
Lemma display_first_iff ls l v v' : display_read ls v -> display_read (l :: ls) v' <-> display_first l v v'.
Proof. intros H. unfold display_read in *. unfold display_first. halves H step_first. Qed.
Lemma display_without_iff ls n v v' : ~ In n display_required -> display_read ls v -> display_read (kept_lines n ls) v' <-> display_without n v v'.
Proof. intros N H. unfold display_read in *. unfold display_without. unfold display_required in N. halves H ltac:(step_without N). Qed.
Lemma email_last_iff ls l v v' : email_read ls v -> email_read (ls ++ [l]) v' <-> email_last l v v'.
Proof. intros H. unfold email_read in *. unfold email_last. halves H step_last. Qed.
Lemma email_first_iff ls l v v' : email_read ls v -> email_read (l :: ls) v' <-> email_first l v v'.
Proof. intros H. unfold email_read in *. unfold email_first. halves H step_first. Qed.
Lemma email_without_iff ls n v v' : ~ In n email_required -> email_read ls v -> email_read (kept_lines n ls) v' <-> email_without n v v'.
Proof. intros N H. unfold email_read in *. unfold email_without. unfold email_required in N. halves H ltac:(step_without N). Qed.
Lemma vevent_last_iff ls l v v' : vevent_read ls v -> vevent_read (ls ++ [l]) v' <-> vevent_last l v v'.
Proof. intros H. unfold vevent_read in *. unfold vevent_last. halves H step_last. Qed.
Lemma vevent_first_iff ls l v v' : vevent_read ls v -> vevent_read (l :: ls) v' <-> vevent_first l v v'.
Proof. intros H. unfold vevent_read in *. unfold vevent_first. halves H step_first. Qed.
Lemma vevent_without_iff ls n v v' : ~ In n vevent_required -> vevent_read ls v -> vevent_read (kept_lines n ls) v' <-> vevent_without n v v'.
Proof. intros N H. unfold vevent_read in *. unfold vevent_without. unfold vevent_required in N. halves H ltac:(step_without N). Qed.
Lemma vfreebusy_last_iff ls l v v' : vfreebusy_read ls v -> vfreebusy_read (ls ++ [l]) v' <-> vfreebusy_last l v v'.
Proof. intros H. unfold vfreebusy_read in *. unfold vfreebusy_last. halves H step_last. Qed.
Lemma vfreebusy_first_iff ls l v v' : vfreebusy_read ls v -> vfreebusy_read (l :: ls) v' <-> vfreebusy_first l v v'.
Proof. intros H. unfold vfreebusy_read in *. unfold vfreebusy_first. halves H step_first. Qed.
Lemma vfreebusy_without_iff ls n v v' : ~ In n vfreebusy_required -> vfreebusy_read ls v -> vfreebusy_read (kept_lines n ls) v' <-> vfreebusy_without n v v'.
Proof. intros N H. unfold vfreebusy_read in *. unfold vfreebusy_without. unfold vfreebusy_required in N. halves H ltac:(step_without N). Qed.
Lemma vjournal_last_iff ls l v v' : vjournal_read ls v -> vjournal_read (ls ++ [l]) v' <-> vjournal_last l v v'.
Proof. intros H. unfold vjournal_read in *. unfold vjournal_last. halves H step_last. Qed.
Lemma vjournal_first_iff ls l v v' : vjournal_read ls v -> vjournal_read (l :: ls) v' <-> vjournal_first l v v'.
Proof. intros H. unfold vjournal_read in *. unfold vjournal_first. halves H step_first. Qed.
Lemma vjournal_without_iff ls n v v' : ~ In n vjournal_required -> vjournal_read ls v -> vjournal_read (kept_lines n ls) v' <-> vjournal_without n v v'.
Proof. intros N H. unfold vjournal_read in *. unfold vjournal_without. unfold vjournal_required in N. halves H ltac:(step_without N). Qed.
Lemma vtodo_last_iff ls l v v' : vtodo_read ls v -> vtodo_read (ls ++ [l]) v' <-> vtodo_last l v v'.
Proof. intros H. unfold vtodo_read in *. unfold vtodo_last. halves H step_last. Qed.
Lemma vtodo_first_iff ls l v v' : vtodo_read ls v -> vtodo_read (l :: ls) v' <-> vtodo_first l v v'.
Proof. intros H. unfold vtodo_read in *. unfold vtodo_first. halves H step_first. Qed.
Lemma vtodo_without_iff ls n v v' : ~ In n vtodo_required -> vtodo_read ls v -> vtodo_read (kept_lines n ls) v' <-> vtodo_without n v v'.
Proof. intros N H. unfold vtodo_read in *. unfold vtodo_without. unfold vtodo_required in N. halves H ltac:(step_without N). Qed.
Lemma standard_last_iff ls l v v' : standard_read ls v -> standard_read (ls ++ [l]) v' <-> standard_last l v v'.
Proof. intros H. unfold standard_read in *. unfold standard_last. halves H step_last. Qed.
Lemma standard_first_iff ls l v v' : standard_read ls v -> standard_read (l :: ls) v' <-> standard_first l v v'.
Proof. intros H. unfold standard_read in *. unfold standard_first. halves H step_first. Qed.
Lemma standard_without_iff ls n v v' : ~ In n standard_required -> standard_read ls v -> standard_read (kept_lines n ls) v' <-> standard_without n v v'.
Proof. intros N H. unfold standard_read in *. unfold standard_without. unfold standard_required in N. halves H ltac:(step_without N). Qed.
Lemma daylight_last_iff ls l v v' : daylight_read ls v -> daylight_read (ls ++ [l]) v' <-> daylight_last l v v'.
Proof. intros H. unfold daylight_read in *. unfold daylight_last. halves H step_last. Qed.
Lemma daylight_first_iff ls l v v' : daylight_read ls v -> daylight_read (l :: ls) v' <-> daylight_first l v v'.
Proof. intros H. unfold daylight_read in *. unfold daylight_first. halves H step_first. Qed.
Lemma daylight_without_iff ls n v v' : ~ In n daylight_required -> daylight_read ls v -> daylight_read (kept_lines n ls) v' <-> daylight_without n v v'.
Proof. intros N H. unfold daylight_read in *. unfold daylight_without. unfold daylight_required in N. halves H ltac:(step_without N). Qed.
Lemma vtimezone_last_iff ls l v v' : vtimezone_read ls v -> vtimezone_read (ls ++ [l]) v' <-> vtimezone_last l v v'.
Proof. intros H. unfold vtimezone_read in *. unfold vtimezone_last. halves H step_last. Qed.
Lemma vtimezone_first_iff ls l v v' : vtimezone_read ls v -> vtimezone_read (l :: ls) v' <-> vtimezone_first l v v'.
Proof. intros H. unfold vtimezone_read in *. unfold vtimezone_first. halves H step_first. Qed.
Lemma vtimezone_without_iff ls n v v' : ~ In n vtimezone_required -> vtimezone_read ls v -> vtimezone_read (kept_lines n ls) v' <-> vtimezone_without n v v'.
Proof. intros N H. unfold vtimezone_read in *. unfold vtimezone_without. unfold vtimezone_required in N. halves H ltac:(step_without N). Qed.
Lemma vcalendar_last_iff ls l v v' : vcalendar_read ls v -> vcalendar_read (ls ++ [l]) v' <-> vcalendar_last l v v'.
Proof. intros H. unfold vcalendar_read in *. unfold vcalendar_last. halves H step_last. Qed.
Lemma vcalendar_first_iff ls l v v' : vcalendar_read ls v -> vcalendar_read (l :: ls) v' <-> vcalendar_first l v v'.
Proof. intros H. unfold vcalendar_read in *. unfold vcalendar_first. halves H step_first. Qed.
Lemma vcalendar_without_iff ls n v v' : ~ In n vcalendar_required -> vcalendar_read ls v -> vcalendar_read (kept_lines n ls) v' <-> vcalendar_without n v v'.
Proof. intros N H. unfold vcalendar_read in *. unfold vcalendar_without. unfold vcalendar_required in N. halves H ltac:(step_without N). Qed.
(** ** The theorems *)
Lemma F2_kept n outs ls : Forall2 line_exact outs ls -> Forall2 line_exact (kept n outs ls) (kept_lines n ls).
Proof.
  unfold kept, kept_lines. induction 1 as [|o l outs ls H F IH]; cbn [combine filter map snd]; [constructor|]. destruct (negb _); cbn [map fst]; auto.
Qed.
Lemma make_editable {A} name (loads : str -> A -> Prop) (read : list content_line -> A -> Prop) last first without needed s v head outs fin ls :
  s = head ++ concat outs ++ fin -> unfold_lines head = lit "BEGIN:" ++ name ++ CRLF ->
  (begins (lit "BEGIN:") (unfold_lines fin) \/ begins (lit "END:" ++ name) (unfold_lines fin)) -> Forall2 line_exact outs ls ->
  (forall outs' ls', Forall2 line_exact outs' ls' -> forall v', loads (head ++ concat outs' ++ fin) v' <-> read ls' v') ->
  (forall l v', read (ls ++ [l]) v' <-> last l v v') -> (forall l v', read (l :: ls) v' <-> first l v v') -> (forall n v', ~ In n needed -> read (kept_lines n ls) v' <-> without n v v') ->
  editable name loads read last first without needed s v.
Proof.
  intros Hs Hh Hf P G L F W. exists head, outs, fin, ls. split; [exact Hs|]. split; [exact Hh|]. split; [exact Hf|]. split; [exact P|]. split; [exact G|]. split; [|split].
  - intros o l Ho v'. rewrite <- L, <- (G (outs ++ [o]) (ls ++ [l])) by (apply Forall2_app; auto). rewrite concat_app. cbn [concat]. now rewrite app_nil_r, <- app_assoc.
  - intros o l Ho v'. rewrite <- F, <- (G (o :: outs) (l :: ls)) by auto. cbn [concat]. now rewrite <- app_assoc.
  - intros n N v'. rewrite <- W by auto. apply G, F2_kept, P.
Qed.
Lemma lines_quote outs ls : Forall2 line_exact outs ls -> ~ In QUOTE (concat outs).
Proof. induction 1 as [|o l outs ls (_ & _ & Q) F IH]; cbn [concat]; [intros []|]. rewrite in_app_iff. tauto. Qed.
Lemma put_in_quote head fin outs ls : ~ In QUOTE (head ++ fin) -> Forall2 line_exact outs ls -> ~ In QUOTE (head ++ concat outs ++ fin).
Proof. intros Q F. apply lines_quote in F. rewrite in_app_iff in *. rewrite in_app_iff. tauto. Qed.
(** *** The components that hold lines only *)
Section Simple.
Context {A : Type} (name : str) (read : list content_line -> A -> Prop) (of_str : str -> outcome A) (last first : content_line -> A -> A -> Prop) (without : str -> A -> A -> Prop) (needed : list str).
Hypothesis G : forall s v, of_str s = Ok v <-> exists r, simple_text name read (unfold_lines s) v r.
Hypothesis HL : forall ls l v v', read ls v -> read (ls ++ [l]) v' <-> last l v v'.
Hypothesis HF : forall ls l v v', read ls v -> read (l :: ls) v' <-> first l v v'.
Hypothesis HW : forall ls n v v', ~ In n needed -> read ls v -> read (kept_lines n ls) v' <-> without n v v'.
Lemma simple_editable s v : of_str s = Ok v -> ~ In QUOTE s -> editable name (fun s v => of_str s = Ok v) read last first without needed s v.
Proof.
  intros H Q. apply G in H as [r H]. destruct (simple_frame name read s v r Q H) as (head & outs & fin & ls & Hs & Uh & Uf & P & Qf & R & K).
  eapply (make_editable _ _ _ _ _ _ _ _ _ head outs fin ls); auto.
  intros outs' ls' P' v'. rewrite G. split; [intros [r' X]; apply (K _ _ P') in X; tauto|]. intros X. exists r. apply (K _ _ P'). auto.
Qed.
Lemma simple_exact s v : simple_text name read (unfold_lines s) v [] /\ ~ In QUOTE s ->
  editable name (fun s v => simple_text name read (unfold_lines s) v [] /\ ~ In QUOTE s) read last first without needed s v.
Proof.
  intros [H Q]. destruct (simple_frame name read s v [] Q H) as (head & outs & fin & ls & Hs & Uh & Uf & P & Qf & R & K).
  eapply (make_editable _ _ _ _ _ _ _ _ _ head outs fin ls); auto.
  intros outs' ls' P' v'. pose proof (put_in_quote _ _ _ _ Qf P'). rewrite (K _ _ P'). tauto.
Qed.
End Simple.
Theorem C95_todo : forall s v, vtodo_of_str s = Ok v -> ~ In QUOTE s ->
  editable (lit "VTODO") (fun s v => vtodo_of_str s = Ok v) vtodo_read vtodo_last vtodo_first vtodo_without vtodo_required s v.
Proof. intros s v. apply simple_editable; [apply C15_todo_grammar|apply vtodo_last_iff|apply vtodo_first_iff|apply vtodo_without_iff]. Qed.
Theorem C95_journal : forall s v, vjournal_of_str s = Ok v -> ~ In QUOTE s ->
  editable (lit "VJOURNAL") (fun s v => vjournal_of_str s = Ok v) vjournal_read vjournal_last vjournal_first vjournal_without vjournal_required s v.
Proof. intros s v. apply simple_editable; [apply C15_journal_grammar|apply vjournal_last_iff|apply vjournal_first_iff|apply vjournal_without_iff]. Qed.
Theorem C95_freebusy : forall s v, vfreebusy_of_str s = Ok v -> ~ In QUOTE s ->
  editable (lit "VFREEBUSY") (fun s v => vfreebusy_of_str s = Ok v) vfreebusy_read vfreebusy_last vfreebusy_first vfreebusy_without vfreebusy_required s v.
Proof. intros s v. apply simple_editable; [apply C15_freebusy_grammar|apply vfreebusy_last_iff|apply vfreebusy_first_iff|apply vfreebusy_without_iff]. Qed.
Theorem C95_standard : forall s v, standard_of_str s = Ok v -> ~ In QUOTE s ->
  editable (lit "STANDARD") (fun s v => standard_of_str s = Ok v) standard_read standard_last standard_first standard_without standard_required s v.
Proof. intros s v. apply simple_editable; [apply C15_standard_grammar|apply standard_last_iff|apply standard_first_iff|apply standard_without_iff]. Qed.
Theorem C95_daylight : forall s v, daylight_of_str s = Ok v -> ~ In QUOTE s ->
  editable (lit "DAYLIGHT") (fun s v => daylight_of_str s = Ok v) daylight_read daylight_last daylight_first daylight_without daylight_required s v.
Proof. intros s v. apply simple_editable; [apply C15_daylight_grammar|apply daylight_last_iff|apply daylight_first_iff|apply daylight_without_iff]. Qed.
(** *** Events, timezones, calendars: their children stay *)
Section Container.
Context {A : Type} (read : list content_line -> A -> Prop) (own : A -> A -> A) (last first : content_line -> A -> A -> Prop) (without : str -> A -> A -> Prop) (needed : list str).
Hypothesis HL : forall ls l v v', read ls v -> read (ls ++ [l]) v' <-> last l v v'.
Hypothesis HF : forall ls l v v', read ls v -> read (l :: ls) v' <-> first l v v'.
Hypothesis HW : forall ls n v v', ~ In n needed -> read ls v -> read (kept_lines n ls) v' <-> without n v v'.
(** The relations do not depend on the children, which remain. *)
Definition keeps (R : A -> A -> Prop) : Prop :=
  (forall v0 w v, R v0 w -> R (own v0 v) (own w v)) /\
  (forall v0 v v', R (own v0 v) v' -> v' = own v' v /\ R v0 (own v' v0)).
Hypothesis KL : forall l, keeps (last l).
Hypothesis KF : forall l, keeps (first l).
Hypothesis KW : forall n, keeps (without n).
Hypothesis own_own : forall a b c, own (own a b) c = own a c.
Lemma own_iff (R : A -> A -> Prop) (P : A -> Prop) v0 v v' : keeps R -> v = own v0 v -> (forall w, P w <-> R v0 w) -> (exists w, P w /\ v' = own w v) <-> R v v'.
Proof.
  intros [K1 K2] V H. split.
  - intros (w & W & ->). rewrite V at 1. apply K1, H, W.
  - intros X. rewrite V in X. apply K2 in X as [X1 X2]. exists (own v' v0). split; [now apply H|]. now rewrite own_own.
Qed.
Lemma container_editable name (loads : str -> A -> Prop) s v head outs fin ls :
  s = head ++ concat outs ++ fin -> unfold_lines head = lit "BEGIN:" ++ name ++ CRLF ->
  (begins (lit "BEGIN:") (unfold_lines fin) \/ begins (lit "END:" ++ name) (unfold_lines fin)) -> Forall2 line_exact outs ls ->
  (exists v0, read ls v0 /\ v = own v0 v) ->
  (forall outs' ls', Forall2 line_exact outs' ls' -> forall v', loads (head ++ concat outs' ++ fin) v' <-> exists w, read ls' w /\ v' = own w v) ->
  editable name loads (fun ls v' => exists w, read ls w /\ v' = own w v) last first without needed s v.
Proof.
  intros Hs Uh Uf P (v0 & R & V) K. eapply (make_editable _ _ _ _ _ _ _ _ _ head outs fin ls); auto.
  - intros l v'. apply (own_iff (last l) _ v0); auto.
  - intros l v'. apply (own_iff (first l) _ v0); auto.
  - intros n v' N. apply (own_iff (without n) _ v0); auto.
Qed.
End Container.
Lemma event_own_same v v' : ev_alarms v' = ev_alarms v -> v' = event_own v' v.
Proof. unfold event_own. intros <-. destruct v'. reflexivity. Qed.
Lemma timezone_own_same v v' : tz_standard v' = tz_standard v -> tz_daylight v' = tz_daylight v -> v' = timezone_own v' v.
Proof. unfold timezone_own. intros <- <-. destruct v'. reflexivity. Qed.
Lemma calendar_own_same v v' : ca_alarms v' = ca_alarms v -> ca_events v' = ca_events v -> ca_freebusy v' = ca_freebusy v -> ca_journals v' = ca_journals v ->
  ca_todo v' = ca_todo v -> ca_timezones v' = ca_timezones v -> v' = calendar_own v' v.
Proof. unfold calendar_own. intros <- <- <- <- <- <-. destruct v'. reflexivity. Qed.
Ltac march H := lazymatch goal with |- _ /\ _ => let h := fresh in destruct H as [h H]; split; [first [exact h|reflexivity]|march H] | _ => first [exact H|reflexivity] end.
Ltac fetch H := lazymatch type of H with ?A /\ ?B => let h := fresh in destruct H as [h H]; fetch H | _ => idtac end.
Lemma vevent_last_keeps l : keeps event_own (vevent_last l).
Proof.
  split.
  - intros v0 w v H. unfold vevent_last in *. destruct v0, v, w. march H.
  - intros v0 v v' H. split.
    + unfold vevent_last in H. fetch H. apply event_own_same; assumption.
    + unfold vevent_last in *. destruct v0, v, v'. march H.
Qed.
Lemma vevent_first_keeps l : keeps event_own (vevent_first l).
Proof.
  split.
  - intros v0 w v H. unfold vevent_first in *. destruct v0, v, w. march H.
  - intros v0 v v' H. split.
    + unfold vevent_first in H. fetch H. apply event_own_same; assumption.
    + unfold vevent_first in *. destruct v0, v, v'. march H.
Qed.
Lemma vevent_without_keeps n : keeps event_own (vevent_without n).
Proof.
  split.
  - intros v0 w v H. unfold vevent_without in *. destruct v0, v, w. march H.
  - intros v0 v v' H. split.
    + unfold vevent_without in H. fetch H. apply event_own_same; assumption.
    + unfold vevent_without in *. destruct v0, v, v'. march H.
Qed.
Lemma vtimezone_last_keeps l : keeps timezone_own (vtimezone_last l).
Proof.
  split.
  - intros v0 w v H. unfold vtimezone_last in *. destruct v0, v, w. march H.
  - intros v0 v v' H. split.
    + unfold vtimezone_last in H. fetch H. apply timezone_own_same; assumption.
    + unfold vtimezone_last in *. destruct v0, v, v'. march H.
Qed.
Lemma vtimezone_first_keeps l : keeps timezone_own (vtimezone_first l).
Proof.
  split.
  - intros v0 w v H. unfold vtimezone_first in *. destruct v0, v, w. march H.
  - intros v0 v v' H. split.
    + unfold vtimezone_first in H. fetch H. apply timezone_own_same; assumption.
    + unfold vtimezone_first in *. destruct v0, v, v'. march H.
Qed.
Lemma vtimezone_without_keeps n : keeps timezone_own (vtimezone_without n).
Proof.
  split.
  - intros v0 w v H. unfold vtimezone_without in *. destruct v0, v, w. march H.
  - intros v0 v v' H. split.
    + unfold vtimezone_without in H. fetch H. apply timezone_own_same; assumption.
    + unfold vtimezone_without in *. destruct v0, v, v'. march H.
Qed.
Lemma vcalendar_last_keeps l : keeps calendar_own (vcalendar_last l).
Proof.
  split.
  - intros v0 w v H. unfold vcalendar_last in *. destruct v0, v, w. march H.
  - intros v0 v v' H. split.
    + unfold vcalendar_last in H. fetch H. apply calendar_own_same; assumption.
    + unfold vcalendar_last in *. destruct v0, v, v'. march H.
Qed.
Lemma vcalendar_first_keeps l : keeps calendar_own (vcalendar_first l).
Proof.
  split.
  - intros v0 w v H. unfold vcalendar_first in *. destruct v0, v, w. march H.
  - intros v0 v v' H. split.
    + unfold vcalendar_first in H. fetch H. apply calendar_own_same; assumption.
    + unfold vcalendar_first in *. destruct v0, v, v'. march H.
Qed.
Lemma vcalendar_without_keeps n : keeps calendar_own (vcalendar_without n).
Proof.
  split.
  - intros v0 w v H. unfold vcalendar_without in *. destruct v0, v, w. march H.
  - intros v0 v v' H. split.
    + unfold vcalendar_without in H. fetch H. apply calendar_own_same; assumption.
    + unfold vcalendar_without in *. destruct v0, v, v'. march H.
Qed.
Theorem C95_event : forall s v, vevent_of_str s = Ok v -> ~ In QUOTE s ->
  editable (lit "VEVENT") (fun s v => vevent_of_str s = Ok v) (fun ls v' => exists w, vevent_read ls w /\ v' = event_own w v) vevent_last vevent_first vevent_without vevent_required s v.
Proof.
  intros s v H Q. apply C15_event_grammar in H as [r H]. destruct (event_frame s v r Q H) as (head & outs & fin & ls & Hs & Uh & Uf & P & Qf & R & K).
  eapply (container_editable vevent_read event_own _ _ _ _ vevent_last_iff vevent_first_iff vevent_without_iff vevent_last_keeps vevent_first_keeps vevent_without_keeps); eauto; try (intros [] b []; reflexivity).
  intros outs' ls' P' v'. rewrite C15_event_grammar. split; [intros [r' X]; apply (K _ _ P') in X; tauto|]. intros X. exists r. apply (K _ _ P'). auto.
Qed.
Theorem C95_timezone : forall s v, vtimezone_of_str s = Ok v -> ~ In QUOTE s ->
  editable (lit "VTIMEZONE") (fun s v => vtimezone_of_str s = Ok v) (fun ls v' => exists w, vtimezone_read ls w /\ v' = timezone_own w v) vtimezone_last vtimezone_first vtimezone_without vtimezone_required s v.
Proof.
  intros s v H Q. apply C15_timezone_grammar in H as [r H]. destruct (timezone_frame s v r Q H) as (head & outs & fin & ls & Hs & Uh & Uf & P & Qf & R & K).
  eapply (container_editable vtimezone_read timezone_own _ _ _ _ vtimezone_last_iff vtimezone_first_iff vtimezone_without_iff vtimezone_last_keeps vtimezone_first_keeps vtimezone_without_keeps); eauto; try (intros [] b []; reflexivity).
  intros outs' ls' P' v'. rewrite C15_timezone_grammar. split; [intros [r' X]; apply (K _ _ P') in X; tauto|]. intros X. exists r. apply (K _ _ P'). auto.
Qed.
Theorem C95_calendar : forall s v, vcalendar_of_str s = Ok v -> ~ In QUOTE s ->
  editable (lit "VCALENDAR") (fun s v => vcalendar_of_str s = Ok v) (fun ls v' => exists w, vcalendar_read ls w /\ v' = calendar_own w v)
    vcalendar_last vcalendar_first vcalendar_without vcalendar_required s v.
Proof.
  intros s v H Q. destruct (calendar_frame s v Q H) as (head & outs & fin & ls & Hs & Uh & Uf & P & Qf & R & K).
  eapply (container_editable vcalendar_read calendar_own _ _ _ _ vcalendar_last_iff vcalendar_first_iff vcalendar_without_iff vcalendar_last_keeps vcalendar_first_keeps vcalendar_without_keeps); eauto.
Qed.
(** *** Alarms: a line after the others never changes the kind *)
Lemma first_line_last n ls l k : first_line n ls k -> first_line n (ls ++ [l]) k.
Proof. intros (a & b & -> & A & B). exists a, (b ++ [l]). rewrite <- app_assoc. auto. Qed.
Lemma first_line_cons n ls l k : cl_key l <> n -> first_line n ls k -> first_line n (l :: ls) k.
Proof. intros N (a & b & -> & A & B). exists (l :: a), b. split; [reflexivity|]. split; [exact A|constructor; auto]. Qed.
Lemma first_line_kept n m ls k : m <> n -> first_line n ls k -> first_line n (kept_lines m ls) k.
Proof.
  intros N (a & b & -> & A & B). exists (kept_lines m a), (kept_lines m b). unfold kept_lines. rewrite filter_app. cbn [filter].
  destruct (key_dec (cl_key k) m) as [[Q _]|[_ ->]]; [congruence|]. cbn [negb]. split; [reflexivity|]. split; [exact A|]. unfold absent in *. rewrite Forall_forall in *. intros x I. apply filter_In in I as [I _]. auto.
Qed.
Lemma first_line_det n ls k k' : first_line n ls k -> first_line n ls k' -> k = k'.
Proof.
  intros (a & b & -> & A & B) (a' & b' & H & A' & B'). revert a' H B'. induction a as [|x a IH]; intros [|y a'] H B'; cbn in H; injection H as H1 H2; subst.
  - reflexivity.
  - inv B'. congruence.
  - inv B. congruence.
  - inv B. inv B'. eauto.
Qed.
Lemma kinds : lit "AUDIO" <> lit "DISPLAY" /\ lit "AUDIO" <> lit "EMAIL" /\ lit "DISPLAY" <> lit "EMAIL".
Proof. repeat split; intros X; discriminate X. Qed.
Lemma valarm_edit ls ls' a a' (R : valarm -> valarm -> Prop) : valarm_read ls a -> (forall k, first_line (lit "ACTION") ls k -> first_line (lit "ACTION") ls' k) ->
  match a with
  | AAudio x => audio_read ls x -> forall y, audio_read ls' y <-> R (AAudio x) (AAudio y)
  | ADisplay x => display_read ls x -> forall y, display_read ls' y <-> R (ADisplay x) (ADisplay y)
  | AEmail x => email_read ls x -> forall y, email_read ls' y <-> R (AEmail x) (AEmail y)
  end ->
  (forall x y, ~ R (AAudio x) (ADisplay y)) -> (forall x y, ~ R (AAudio x) (AEmail y)) -> (forall x y, ~ R (ADisplay x) (AAudio y)) ->
  (forall x y, ~ R (ADisplay x) (AEmail y)) -> (forall x y, ~ R (AEmail x) (AAudio y)) -> (forall x y, ~ R (AEmail x) (ADisplay y)) ->
  valarm_read ls' a' <-> R a a'.
Proof.
  intros (k & F & H) G M N1 N2 N3 N4 N5 N6. pose proof (G k F) as F'. destruct kinds as (K1 & K2 & K3). unfold valarm_read. split.
  - intros (k' & F'' & H'). rewrite <- (first_line_det _ _ _ _ F' F'') in H'. destruct a, a', H as [V H], H' as [V' H']; try (exfalso; congruence); now apply M.
  - intros X. exists k. split; [exact F'|]. destruct a, a'; try (exfalso; now apply (N1 _ _ X) || now apply (N2 _ _ X) || now apply (N3 _ _ X) || now apply (N4 _ _ X) || now apply (N5 _ _ X) || now apply (N6 _ _ X)); destruct H as [V H]; (split; [exact V|now apply M]).
Qed.
Theorem C95_alarm : forall s v, valarm_of_str s = Ok v -> ~ In QUOTE s ->
  exists head outs fin ls,
    s = head ++ concat outs ++ fin /\ unfold_lines head = lit "BEGIN:" ++ lit "VALARM" ++ CRLF /\ begins (lit "END:" ++ lit "VALARM") (unfold_lines fin) /\ Forall2 line_exact outs ls /\
    (forall outs' ls', Forall2 line_exact outs' ls' -> forall v', valarm_of_str (head ++ concat outs' ++ fin) = Ok v' <-> valarm_read ls' v') /\
    (forall o l, line_exact o l -> forall v', valarm_of_str (head ++ concat outs ++ o ++ fin) = Ok v' <-> valarm_last l v v') /\
    (forall o l, line_exact o l -> cl_key l <> lit "ACTION" -> forall v', valarm_of_str (head ++ o ++ concat outs ++ fin) = Ok v' <-> valarm_first l v v') /\
    (forall n, ~ In n [lit "ACTION"; lit "TRIGGER"; lit "DESCRIPTION"; lit "SUMMARY"] -> forall v', valarm_of_str (head ++ concat (kept n outs ls) ++ fin) = Ok v' <-> valarm_without n v v').
Proof.
  intros s v H Q. apply C15_alarm_grammar in H as [r H]. destruct (simple_frame _ _ s v r Q H) as (head & outs & fin & ls & Hs & Uh & Uf & P & Qf & R & K).
  assert (G : forall outs' ls', Forall2 line_exact outs' ls' -> forall v', valarm_of_str (head ++ concat outs' ++ fin) = Ok v' <-> valarm_read ls' v').
  { intros outs' ls' P' v'. rewrite C15_alarm_grammar. split; [intros [r' X]; apply (K _ _ P') in X; tauto|]. intros X. exists r. apply (K _ _ P'). auto. }
  exists head, outs, fin, ls. split; [exact Hs|]. split; [exact Uh|]. split; [exact Uf|]. split; [exact P|]. split; [exact G|]. split; [|split].
  - intros o l Ho v'. replace (head ++ concat outs ++ o ++ fin) with (head ++ concat (outs ++ [o]) ++ fin) by (rewrite concat_app; cbn [concat]; now rewrite app_nil_r, <- app_assoc).
    rewrite (G (outs ++ [o]) (ls ++ [l])) by (apply Forall2_app; auto). apply (valarm_edit ls); auto; [intros k; apply first_line_last|].
    destruct v; intros X y; cbn [valarm_last]; [now apply audio_last_iff|now apply display_last_iff|now apply email_last_iff].
  - intros o l Ho N v'. replace (head ++ o ++ concat outs ++ fin) with (head ++ concat (o :: outs) ++ fin) by (cbn [concat]; now rewrite <- app_assoc).
    rewrite (G (o :: outs) (l :: ls)) by auto. apply (valarm_edit ls); auto; [intros k; now apply first_line_cons|].
    destruct v; intros X y; cbn [valarm_first]; [now apply audio_first_iff|now apply display_first_iff|now apply email_first_iff].
  - intros n N v'. rewrite (G _ _ (F2_kept n _ _ P)). apply (valarm_edit ls); auto; [intros k; apply first_line_kept; intros ->; apply N; now left|].
    destruct v; intros X y; cbn [valarm_without]; [apply audio_without_iff|apply display_without_iff|apply email_without_iff]; auto; unfold audio_required, display_required, email_required; cbn [In] in *; tauto.
Qed.
(** *** The same of an exact text, and of a component in a calendar file *)
Theorem C95_event_exact : forall s v, child_exact s (CEvent v) ->
  editable (lit "VEVENT") (fun s v => child_exact s (CEvent v)) (fun ls v' => exists w, vevent_read ls w /\ v' = event_own w v) vevent_last vevent_first vevent_without vevent_required s v.
Proof.
  intros s v [H Q]. destruct (event_frame s v [] Q H) as (head & outs & fin & ls & Hs & Uh & Uf & P & Qf & R & K).
  eapply (container_editable vevent_read event_own _ _ _ _ vevent_last_iff vevent_first_iff vevent_without_iff vevent_last_keeps vevent_first_keeps vevent_without_keeps); eauto; try (intros [] b []; reflexivity).
  intros outs' ls' P' v'. pose proof (put_in_quote _ _ _ _ Qf P'). unfold child_exact. cbn [child_text]. rewrite (K _ _ P'). tauto.
Qed.
Theorem C95_todo_exact : forall s v, child_exact s (CTodo v) ->
  editable (lit "VTODO") (fun s v => child_exact s (CTodo v)) vtodo_read vtodo_last vtodo_first vtodo_without vtodo_required s v.
Proof. intros s v. apply simple_exact; [apply vtodo_last_iff|apply vtodo_first_iff|apply vtodo_without_iff]. Qed.
(** A line written into the [i]th event of a calendar file, after its other lines, before them, or its lines of a name taken away. *)
Theorem C95_event_in_calendar : forall s v i e, vcalendar_of_str s = Ok v -> ~ In QUOTE s -> nth_error (ca_events v) i = Some e ->
  let with_event e' := set_ca_events v (firstn i (ca_events v) ++ e' :: skipn (S i) (ca_events v)) in
  exists before head outs fin after ls,
    s = before ++ head ++ concat outs ++ fin ++ after /\ unfold_lines head = lit "BEGIN:VEVENT" ++ CRLF /\ Forall2 line_exact outs ls /\
    (forall o l e', line_exact o l -> vevent_last l e e' -> vcalendar_of_str (before ++ head ++ concat outs ++ o ++ fin ++ after) = Ok (with_event e')) /\
    (forall o l e', line_exact o l -> vevent_first l e e' -> vcalendar_of_str (before ++ head ++ o ++ concat outs ++ fin ++ after) = Ok (with_event e')) /\
    (forall n e', ~ In n vevent_required -> vevent_without n e e' -> vcalendar_of_str (before ++ head ++ concat (kept n outs ls) ++ fin ++ after) = Ok (with_event e')).
Proof.
  intros s v i e H Q N with_event. destruct (C92_one_event _ _ _ _ H Q N) as (before & o & after & -> & Ho & _ & G).
  destruct (C95_event_exact o e Ho) as (head & outs & fin & ls & -> & Uh & Uf & P & _ & GL & GF & GW).
  exists before, head, outs, fin, after, ls. split; [now rewrite <- !app_assoc|]. split; [exact Uh|]. split; [exact P|]. split; [|split].
  - intros o l e' Hl L. apply (GL o l Hl) in L. apply G in L. now rewrite <- !app_assoc in L.
  - intros o l e' Hl L. apply (GF o l Hl) in L. apply G in L. now rewrite <- !app_assoc in L.
  - intros n e' Hn L. apply (GW n Hn) in L. apply G in L. now rewrite <- !app_assoc in L.
Qed.
(** ** What is a line by itself: NAME:VALUE and an end of line *)
Theorem C95_plain_line : forall k v e, key_text k -> k <> lit "BEGIN" -> k <> lit "END" -> no_eol v -> ~ In QUOTE v -> eol e -> line_exact (k ++ [COLON] ++ v ++ e) (mk_cl k [] v).
Proof.
  intros k v e Hk NB NE Hv Q He. pose proof (key_no k COLON Hk ltac:(auto)) as NC. pose proof (key_no_cr k Hk) as KR. pose proof (key_no_LF k Hk) as KL. destruct Hv as [V1 V2].
  assert (U : unfold_lines (k ++ [COLON] ++ v ++ e) = k ++ [COLON] ++ v ++ e).
  { pose proof (unfold_eol (k ++ [COLON] ++ v) e []) as X. rewrite app_nil_r in X. change (unfold_lines []) with (@nil char) in X. rewrite app_nil_r, <- !app_assoc in X. apply X; auto; [|split; intros [z Z]; discriminate].
    split; rewrite !in_app_iff; cbn [In]; unfold COLON, CR, LF in *; intuition discriminate. }
  assert (B : forall n, ~ In COLON n -> n <> k -> ~ begins (n ++ [COLON]) (k ++ [COLON] ++ v ++ e)).
  { intros n Nn NN [z Z]. rewrite <- app_assoc in Z. apply NN. clear - Z NC Nn. revert k Z NC. induction n as [|c n IH]; intros [|d k] Z NC; auto; cbn [app] in Z; injection Z as Z1 Z2.
    - exfalso. apply NC. left. exact Z1.
    - exfalso. apply Nn. left. symmetry. exact Z1.
    - subst d. f_equal. apply IH; [intros X; apply Nn; now right|exact Z2|intros X; apply NC; now right]. }
  split; [rewrite U|split; [constructor|]].
  - split; [apply (B (lit "BEGIN")); [vm_compute; intuition discriminate|congruence]|]. split; [apply (B (lit "END")); [vm_compute; intuition discriminate|congruence]|].
    exists k, (COLON :: v ++ e ++ []), [], v, e. split; [now rewrite app_nil_r|]. split; [exact Hk|]. split; [constructor|]. split; [split; auto|]. split; [exact He|]. repeat split.
  - rewrite !in_app_iff. intros [X|[[X|[]]|[X|X]]]; [|discriminate|auto|destruct He as [->| ->]; cbn [In] in X; unfold QUOTE, LF, CR in X; intuition discriminate].
    unfold key_text in Hk. rewrite Forall_forall in Hk. apply Hk in X. unfold key_char, QUOTE in X. lia.
Qed.
End Env.
