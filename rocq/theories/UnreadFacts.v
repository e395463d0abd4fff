(** * Reading raw lines: a CR in a value stops the reader. *)
From Verif Require Import Base Env Chrono Nom Types Ser Parser Derive BaseFacts NomFacts SpecLine LineFacts SpecText SerFacts PropText PropLine
  SpecCal SpecDur PropVocab PropRule PropPeriod PropList Components SpecComp DeriveFacts SpecFields PropComp SpecFile PropFile SpecRound RoundFacts FrameFacts BackFacts FieldFacts ChildFacts CalFacts AlarmFacts SpecExact ExactFacts.

Definition nice (c : content_line) : Prop := name_ok (cl_key c) /\ good_params (cl_params c) /\ ~ In LF (cl_value c).
Definition clean (c : content_line) : Prop := ~ In CR (cl_value c).
Lemma params_start m rest : exists c x, raw_params m ++ COLON :: rest = c :: x /\ ~ key_char c.
Proof. destruct m as [|kv m]; eexists _, _; (split; [reflexivity|]); unfold key_char, COLON; lia. Qed.
Lemma key_split k k' s s' c c' x x' : key_text k -> key_text k' -> s = c :: x -> s' = c' :: x' -> ~ key_char c -> ~ key_char c' ->
  k ++ s = k' ++ s' -> k = k' /\ s = s'.
Proof.
  intros K K' -> -> N N' Eq. pose proof (p_key_app k c x K N) as P. rewrite Eq, (p_key_app k' c' x' K' N') in P. inv P. auto.
Qed.
Lemma eol_split v e r value rest : no_eol v -> eol e -> ~ In LF value -> v ++ e ++ r = value ++ [CR; LF] ++ rest -> ~ In CR value /\ v = value /\ r = rest.
Proof.
  intros [Nc Nl] He. revert value. induction v as [|c v IH]; intros value Hl Eq.
  - cbn [app] in Eq. destruct value as [|d value].
    + destruct He as [-> | ->]; cbn [app] in Eq; [inversion Eq; discriminate|]. inversion Eq. auto.
    + exfalso. destruct He as [-> | ->]; cbn [app] in Eq.
      * injection Eq as <- _. apply Hl. cbn; auto.
      * injection Eq as <- Eq. destruct value as [|d value]; cbn [app] in Eq; injection Eq as Eq _; [discriminate|]. apply Hl. rewrite <- Eq. cbn; auto.
  - destruct value as [|d value].
    + exfalso. cbn [app] in Eq. injection Eq as -> _. apply Nc. cbn; auto.
    + cbn [app] in Eq. injection Eq as <- Eq. destruct (IH (fun G => Nc (or_intror G)) (fun G => Nl (or_intror G)) value (fun G => Hl (or_intror G)) Eq) as (A & -> & ->).
      auto.
Qed.
Lemma raw_is_line c c' rest r : nice c -> is_line (raw_line c ++ rest) c' r -> clean c /\ r = rest.
Proof.
  intros ((K & _ & _) & G & L) (_ & _ & k & t & l & v & e & Eq & Kk & P & N & He & _).
  assert (P' : params_read (raw_params (cl_params c) ++ COLON :: cl_value c ++ [CR; LF] ++ rest) (cl_params c) (cl_value c ++ [CR; LF] ++ rest)).
  { replace (raw_params (cl_params c)) with (concat (map (fun kv => [59] ++ fst kv ++ [61] ++ escape (snd kv)) (cl_params c))).
    - apply params_read_written. apply G.
    - unfold raw_params. f_equal. apply map_ext. intros. now rewrite escaped_escape. }
  unfold raw_line in Eq. rewrite <- !app_assoc in Eq. change ([58] ++ cl_value c ++ [CR; LF] ++ rest) with (COLON :: cl_value c ++ [CR; LF] ++ rest) in Eq.
  destruct (params_start (cl_params c) (cl_value c ++ [CR; LF] ++ rest)) as (h & x & Hx & Nh).
  assert (exists h' x', t = h' :: x' /\ ~ key_char h') as (h' & x' & Hx' & Nh').
  { inversion P; subst; eexists _, _; (split; [reflexivity|]); unfold key_char, COLON, SEMI; lia. }
  destruct (key_split _ _ _ _ _ _ _ _ K Kk Hx Hx' Nh Nh' Eq) as [_ Et].
  rewrite <- Et in P. apply params_read_run in P. apply params_read_run in P'.
  destruct (many_run_det _ _ _ _ _ _ P P') as [_ Ev]. injection Ev as Ev.
  destruct (eol_split _ _ _ _ _ N He L Ev) as (A & _ & B). auto.
Qed.
Lemma raw_head c rest : name_ok (cl_key c) -> ~ delimiter (raw_line c ++ rest).
Proof.
  intros (K & _ & Rv). pose proof (line_not_begins (cl_key c) (params_attr (cl_params c)) (cl_value c) rest K Rv) as [A B].
  assert (Eq : logical_line (cl_key c) (params_attr (cl_params c)) (cl_value c) = raw_line c) by (destruct c; apply raw_logical).
  rewrite Eq in A, B. intros [X|X]; auto.
Qed.
Lemma raw_read ls : forall rest ls' r, Forall nice ls -> delimiter rest -> delimiter r -> is_lines (raw_lines ls ++ rest) ls' r -> Forall clean ls /\ r = rest.
Proof.
  induction ls as [|c ls IH]; intros rest ls' r N D D' H.
  - cbn [raw_lines map concat app] in H. split; [constructor|]. inversion H as [|s c r1 ls1 r2 L _]; subst; auto. exfalso. destruct L as (A & B & _). destruct D; auto.
  - unfold raw_lines in *. cbn [map concat] in H. rewrite <- app_assoc in H. inversion N as [|? ? N1 N2]; subst. inversion H as [|s c1 r1 ls1 r2 L R]; subst.
    + exfalso. revert D'. apply raw_head. apply N1.
    + apply raw_is_line in L as [C ->]; auto. destruct (IH _ _ _ N2 D D' R) as [F ->]. auto.
Qed.
Lemma text_read ls rest ls' r : Forall nice ls -> delimiter rest -> delimiter r -> lines_text (raw_lines ls ++ rest) ls' r -> Forall clean ls /\ r = rest.
Proof. intros N D D' [H _]. eapply raw_read; eauto. Qed.
Lemma framed_app name ls rest : framed name (raw_lines ls) ++ rest = lit "BEGIN:" ++ name ++ [CR; LF] ++ raw_lines ls ++ lit "END:" ++ name ++ [CR; LF] ++ rest.
Proof. unfold framed. now rewrite <- !app_assoc. Qed.
Lemma delim_begin n r : delimiter (lit "BEGIN:" ++ n ++ r).
Proof. left. apply begins_app. Qed.
Section Env.
Context {E : Env}.
Lemma simple_read {A} name read ls rest (v : A) r : Forall nice ls -> simple_text name read (framed name (raw_lines ls) ++ rest) v r -> Forall clean ls /\ r = rest.
Proof.
  intros N (t & ls' & Eq & L & _). rewrite framed_app in Eq. repeat apply app_inv_head in Eq. subst t.
  destruct (text_read _ _ _ _ N (delim_end _ _) (delim_end _ _) L) as [C Er]. split; auto. now repeat apply app_inv_head in Er.
Qed.
Lemma event_read ls rest v r : Forall nice ls -> event_text (framed (lit "VEVENT") (raw_lines ls) ++ rest) v r -> Forall clean ls /\ r = rest.
Proof.
  intros N (t & ls' & t2 & v0 & Eq & L & S & _). rewrite framed_app in Eq.
  change (lit "BEGIN:VEVENT" ++ [CR; LF] ++ t) with (lit "BEGIN:" ++ lit "VEVENT" ++ [CR; LF] ++ t) in Eq. repeat apply app_inv_head in Eq. subst t.
  assert (D2 : delimiter t2) by (eapply seq_head; [exact S|intros ? ? ?; apply simple_head|apply (begins_app (lit "END:"))]).
  destruct (text_read _ _ _ _ N (delim_end _ _) D2 L) as [C Er]. subst t2. split; auto.
  apply seq_end in S as [_ S]; [|intros ? ? ?; apply simple_head|apply begins_app].
  change (lit "END:VEVENT" ++ [CR; LF] ++ r) with (lit "END:" ++ lit "VEVENT" ++ [CR; LF] ++ r) in S. now repeat apply app_inv_head in S.
Qed.
(** A list of children, each of which can be read only when it is [fst]. *)
Section Kids.
  Context {A : Type} (one : str -> A -> str -> Prop).
  Hypothesis one_begin : forall s a r, one s a r -> begins (lit "BEGIN:") s.
  Definition kid (good : Prop) (text : str) : Prop :=
    (forall rest, begins (lit "BEGIN:") (text ++ rest)) /\ forall rest a r, one (text ++ rest) a r -> good /\ r = rest.
  Lemma kids_read (ps : list (Prop * str)) rest l r : Forall (fun p => kid (fst p) (snd p)) ps -> begins (lit "END:") r ->
    seq_text one (concat (map snd ps) ++ rest) l r -> Forall (fun p => fst p) ps /\ exists l', seq_text one rest l' r.
  Proof.
    intros H Hr. revert l. induction H as [|[g t] ps [B K] H IH]; intros l S; cbn [map concat fst snd app] in *.
    - split; [constructor|eauto].
    - rewrite <- app_assoc in S. inversion S as [s0|s0 a r1 l0 r2 X Y]; subst.
      + exfalso. eapply (heads (lit "BEGIN:") (lit "END:")); [reflexivity|apply B|exact Hr].
      + apply K in X as [G ->]. destruct (IH _ Y) as [F L]. auto.
  Qed.
  Lemma tail_read ls rest l r : Forall (fun c => name_ok (cl_key c)) ls -> begins (lit "END:") r -> seq_text one (raw_lines ls ++ rest) l r -> ls = [].
  Proof.
    intros N Hr S. destruct ls as [|c ls]; auto. exfalso. unfold raw_lines in S. cbn [map concat] in S. rewrite <- app_assoc in S. apply Forall_inv in N.
    apply (raw_head c (concat (map raw_line ls) ++ rest) N). inversion S; subst; [right; exact Hr|]. left. eauto.
  Qed.
End Kids.
(** A frame with lines, children and lines. *)
Lemma frame_kids {A} (one : str -> A -> str -> Prop) own (ps : list (Prop * str)) ext tail l t2 ls' r :
  (forall s a r, one s a r -> begins (lit "BEGIN:") s) -> Forall nice own -> Forall nice ext -> Forall (fun p => kid one (fst p) (snd p)) ps ->
  begins (lit "END:") tail -> begins (lit "END:") r ->
  lines_text (raw_lines own ++ concat (map snd ps) ++ raw_lines ext ++ tail) ls' t2 -> seq_text one t2 l r ->
  Forall clean (own ++ ext) /\ Forall (fun p => fst p) ps /\ r = tail.
Proof.
  intros H1 No Ne Hp Ht Hr L S. assert (D2 : delimiter t2) by (eapply seq_head; eauto).
  assert (Nk : Forall (fun c => name_ok (cl_key c)) ext) by (eapply Forall_impl; [|exact Ne]; intros c Hc; apply Hc).
  destruct ps as [|[g t] ps].
  - cbn [map concat app] in L. rewrite app_assoc, <- raw_app in L. destruct (text_read _ _ _ _ (proj2 (Forall_app _ _ _) (conj No Ne)) (or_intror Ht) D2 L) as [C ->].
    split; auto. split; [constructor|]. apply (seq_end one H1) in S as [_ S]; auto.
  - assert (D : delimiter (concat (map snd ((g, t) :: ps)) ++ raw_lines ext ++ tail)).
    { left. cbn [map concat snd]. rewrite <- app_assoc. apply Forall_inv in Hp. apply Hp. }
    destruct (text_read _ _ _ _ No D D2 L) as [C ->].
    destruct (kids_read one _ _ _ _ Hp Hr S) as [F [l' S']]. pose proof (tail_read one H1 _ _ _ _ Nk Hr S') as ->.
    rewrite app_nil_r. split; auto. split; auto. cbn [raw_lines map concat app] in S'. apply (seq_end one H1) in S' as [_ S']; auto.
Qed.
(** ** Rejection *)
Lemma component_unread {A} name (f : list content_line -> outcome A) ls out : Forall nice ls -> ~ Forall clean ls -> unfold_lines out = framed name (raw_lines ls) ->
  from_str (p_component name f) out = Err EParser.
Proof.
  intros N C U. unfold from_str. rewrite U. unfold p_component.
  rewrite (map_res_PErr _ _ (framed name (raw_lines ls))); [reflexivity|]. unfold delimited, pbind.
  rewrite <- (app_nil_r (framed _ _)), framed_app.
  destruct (tag (lit "BEGIN:" ++ name ++ CRLF) _) as [r x| |] eqn:T; [|reflexivity|now apply calm_tag in T].
  apply tag_POk in T as [T _]. unfold CRLF in T. rewrite <- !app_assoc in T. repeat apply app_inv_head in T. subst r.
  destruct (p_content_lines _) as [r ls'| |] eqn:P; [|reflexivity|now apply calm_lines in P].
  destruct (tag (lit "END:" ++ name ++ CRLF) r) as [r1 y| |] eqn:Q; [|reflexivity|now apply calm_tag in Q].
  exfalso. apply tag_POk in Q as [-> _]. apply lines_parse_only in P. apply C. rewrite <- !app_assoc in P. eapply text_read; [exact N|apply (delim_end name ([CR; LF] ++ []))|apply delim_end|exact P].
Qed.
Lemma event_unread ls out : Forall nice ls -> ~ Forall clean ls -> unfold_lines out = framed (lit "VEVENT") (raw_lines ls) -> vevent_of_str out = Err EParser.
Proof.
  intros N C U. unfold vevent_of_str, from_str. rewrite U. unfold p_vevent.
  rewrite (map_res_PErr _ _ (framed (lit "VEVENT") (raw_lines ls))); [reflexivity|]. unfold delimited.
  rewrite <- (app_nil_r (framed _ _)), framed_app. unfold pbind at 1.
  destruct (tag (lit "BEGIN:VEVENT" ++ CRLF) _) as [r x| |] eqn:T; [|reflexivity|now apply calm_tag in T].
  apply tag_POk in T as [T _]. unfold CRLF in T. change ((lit "BEGIN:VEVENT" ++ [CR; LF]) ++ r) with (lit "BEGIN:" ++ lit "VEVENT" ++ [CR; LF] ++ r) in T. repeat apply app_inv_head in T. subst r.
  unfold pbind at 1. unfold pbind at 1.
  destruct (p_content_lines _) as [r ls'| |] eqn:P; [|reflexivity|now apply calm_lines in P].
  apply lines_parse_only in P. assert (D : ~ delimiter r).
  { intros D. apply C. eapply text_read; [exact N|apply (delim_end (lit "VEVENT") ([CR; LF] ++ []))|exact D|exact P]. }
  unfold pbind at 1. assert (M : many0 p_valarm r = POk r []).
  { apply many0_POk; [apply tails_component|]. constructor. apply component_PErr. intros [z B]. apply D. left. exists (lit "VALARM" ++ CRLF ++ z). rewrite B. now rewrite <- !app_assoc. }
  rewrite M. cbn [pret]. unfold pbind. destruct (tag (lit "END:VEVENT" ++ CRLF) r) as [r1 y| |] eqn:Q; [|reflexivity|now apply calm_tag in Q].
  exfalso. apply tag_POk in Q as [-> _]. apply D. right. exists (lit "VEVENT" ++ CRLF ++ r1). now rewrite <- !app_assoc.
Qed.
End Env.
