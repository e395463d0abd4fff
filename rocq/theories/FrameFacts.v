(** * Components as blocks of text: BEGIN line, content lines, children, END line. *)
From Verif Require Import Base Env Chrono Nom Types Ser Parser Derive BaseFacts NomFacts SpecLine LineFacts SpecText SerFacts PropText PropLine
  SpecCal SpecDur PropVocab PropRule PropPeriod PropList Components SpecComp DeriveFacts SpecFields PropComp SpecFile PropFile SpecRound RoundFacts.

Lemma is_lines_app s a m b r : is_lines s a m -> is_lines m b r -> is_lines s (a ++ b) r.
Proof. induction 1; cbn [app]; auto. intros H'. econstructor; eauto. Qed.
Lemma lines_text_app s a m b r : lines_text s a m -> lines_text m b r -> lines_text s (a ++ b) r.
Proof. intros [A B] [C D]. split; [eapply is_lines_app; eauto|apply Forall_app; auto]. Qed.
Lemma lines_text_nil s : lines_text s [] s.
Proof. split; constructor. Qed.
(** A line that unfolding does not touch. *)
Definition upper_text (s : str) : Prop := Forall (fun c => 65 <= c <= 90) s.
Lemma flat_line s rest : Forall (fun c => c <> CR /\ c <> LF /\ c <> SP) s -> not_continuation rest ->
  unfold_lines (s ++ [CR; LF] ++ rest) = s ++ [CR; LF] ++ unfold_lines rest.
Proof.
  intros H Hr. rewrite app_assoc, unfold_then; [now rewrite <- app_assoc| | |exact Hr].
  - intros (a & b & E). assert (G : In SP (s ++ [CR; LF])) by (rewrite E; unfold FOLD; rewrite !in_app_iff; cbn [In]; auto 10).
    apply in_app_iff in G as [G|G]; [|cbn in G; unfold SP, CR, LF in G; intuition discriminate].
    rewrite Forall_forall in H. now apply H in G.
  - exists (s ++ [CR]). now rewrite <- app_assoc.
Qed.
Lemma plain_name s n : upper_text n -> forallb (fun c => negb ((c =? CR) || (c =? LF) || (c =? SP))) s = true ->
  Forall (fun c => c <> CR /\ c <> LF /\ c <> SP) (s ++ n).
Proof.
  intros Hn Hs. apply Forall_app. split.
  - apply Forall_forall. intros c Hc. rewrite forallb_forall in Hs. specialize (Hs c Hc). rewrite negb_true_iff, !orb_false_iff, !Z.eqb_neq in Hs. tauto.
  - eapply Forall_impl; [|exact Hn]. cbn. unfold CR, LF, SP. lia.
Qed.
Lemma begin_line n rest : upper_text n -> not_continuation rest ->
  unfold_lines (lit "BEGIN:" ++ n ++ [CR; LF] ++ rest) = lit "BEGIN:" ++ n ++ [CR; LF] ++ unfold_lines rest.
Proof. intros Hn Hr. rewrite (app_assoc (lit "BEGIN:") n), flat_line; [now rewrite <- app_assoc|now apply plain_name|exact Hr]. Qed.
Lemma end_line n rest : upper_text n -> not_continuation rest ->
  unfold_lines (lit "END:" ++ n ++ [CR; LF] ++ rest) = lit "END:" ++ n ++ [CR; LF] ++ unfold_lines rest.
Proof. intros Hn Hr. rewrite (app_assoc (lit "END:") n), flat_line; [now rewrite <- app_assoc|now apply plain_name|exact Hr]. Qed.
Lemma nc_end n rest : not_continuation (lit "END:" ++ n ++ rest).
Proof. intros r E. discriminate. Qed.
Lemma nc_begin n rest : not_continuation (lit "BEGIN:" ++ n ++ rest).
Proof. intros r E. discriminate. Qed.
Lemma nc_nil : not_continuation [].
Proof. intros r E. discriminate. Qed.
Lemma reads_lines out ls rest : reads_as out ls -> not_continuation rest ->
  not_continuation (out ++ rest) /\ lines_text (unfold_lines (out ++ rest)) ls (unfold_lines rest).
Proof. intros H Hr. destruct (H rest Hr) as [A B]. split; auto. rewrite <- (app_nil_r ls). apply B, lines_text_nil. Qed.

(** [out] is the block [name] of the lines [ls]. *)
Definition block (name : str) (ls : list content_line) (out : str) : Prop :=
  forall rest, not_continuation rest -> not_continuation (out ++ rest) /\
    exists t, unfold_lines (out ++ rest) = lit "BEGIN:" ++ name ++ [CR; LF] ++ t /\
      lines_text t ls (lit "END:" ++ name ++ [CR; LF] ++ unfold_lines rest).
Lemma block_of name ls out : upper_text name -> reads_as out ls -> block name ls (lit "BEGIN:" ++ name ++ CRLF ++ out ++ lit "END:" ++ name ++ CRLF).
Proof.
  intros Hn H rest Hr. rewrite <- !app_assoc. split; [apply nc_begin|]. unfold CRLF.
  destruct (reads_lines out ls (lit "END:" ++ name ++ [CR; LF] ++ rest) H (nc_end _ _)) as [A B].
  exists (unfold_lines (out ++ lit "END:" ++ name ++ [CR; LF] ++ rest)). split; [now apply begin_line|].
  rewrite end_line in B by auto. exact B.
Qed.
Lemma block_parse {A} name (f : list content_line -> outcome A) ls out rest : block name ls out -> not_continuation rest ->
  p_component name f (unfold_lines (out ++ rest)) = match f ls with Ok v => POk (unfold_lines rest) v | Err _ => PErr | Panic => PPanic end.
Proof.
  intros H Hr. destruct (H rest Hr) as (_ & t & Eq & L). unfold p_component, pmap_res, pbind.
  assert (P : delimited (tag (lit "BEGIN:" ++ name ++ CRLF)) p_content_lines (tag (lit "END:" ++ name ++ CRLF)) (unfold_lines (out ++ rest)) = POk (unfold_lines rest) ls).
  { apply delim_POk. exists t. unfold CRLF. rewrite <- !app_assoc. split; auto. apply lines_parse; auto. right. apply begins_app. }
  rewrite P. destruct (f ls); reflexivity.
Qed.
Lemma block_from_str {A} name (f : list content_line -> outcome A) ls out : block name ls out ->
  from_str (p_component name f) out = match f ls with Ok v => Ok v | Err _ => Err EParser | Panic => Panic end.
Proof.
  intros H. unfold from_str. rewrite <- (app_nil_r out), (block_parse name f ls) by auto using nc_nil. destruct (f ls); reflexivity.
Qed.
Lemma block_from_str_iff {A} name (f : list content_line -> outcome A) (read : list content_line -> A -> Prop) ls out : block name ls out ->
  (forall ls v, f ls = Ok v <-> read ls v) -> forall w, from_str (p_component name f) out = Ok w <-> read ls w.
Proof. intros H Hf w. rewrite (block_from_str name f ls) by auto. rewrite <- Hf. destruct (f ls); split; intros X; inv X; auto. Qed.

(** ** One component without children *)
Lemma name_ok_lit n : forallb is_alphanumeric n = true -> n <> [] -> str_eqb n (lit "BEGIN") = false -> str_eqb n (lit "END") = false -> name_ok n.
Proof.
  intros H Hn A B. split; [now apply key_text_lit|]. split; auto. apply str_eqb_neq in A, B. intros [-> | ->]; congruence.
Qed.
Definition names_ok (s : schema) : bool :=
  forallb (fun nf => forallb is_alphanumeric (fst nf) && negb (str_eqb (fst nf) []) && negb (str_eqb (fst nf) (lit "BEGIN")) && negb (str_eqb (fst nf) (lit "END"))) s.
Lemma names_ok_iff s : names_ok s = true -> Forall (fun nf => name_ok (fst nf)) s.
Proof.
  unfold names_ok. rewrite forallb_forall. intros H. apply Forall_forall. intros nf Hi. specialize (H nf Hi).
  rewrite !andb_true_iff, !negb_true_iff in H. destruct H as (((A & B) & C) & D). apply name_ok_lit; auto. now apply str_eqb_neq.
Qed.
Lemma name_ok_x : name_ok (lit "X-PROP").
Proof. apply name_ok_lit; [reflexivity|discriminate|reflexivity|reflexivity]. Qed.
Lemma name_ok_i : name_ok (lit "IANA-PROP").
Proof. apply name_ok_lit; [reflexivity|discriminate|reflexivity|reflexivity]. Qed.
Lemma item_reads_as {T} (S : serialize T) n v ls out : name_ok n -> item S n v ls -> ser_field S n v = Ok out -> reads_as out ls.
Proof. intros (A & B & C) (value & m & X1 & X2 & X3 & X4 & X5 & ->) H. eapply item_reads; eauto. Qed.
Lemma comp_block name s (c : comp s) body out : upper_text name -> Forall (fun nf => name_ok (fst nf)) s ->
  fields_lines s (c_fields c) body -> tidy_ext (c_xprop c) -> tidy_ext (c_iana c) -> comp_ical name c = Ok out ->
  block name (body ++ ext_line (lit "X-PROP") (c_xprop c) ++ ext_line (lit "IANA-PROP") (c_iana c)) out.
Proof.
  intros Hn Hs HL Hx Hi H. unfold comp_ical in H.
  destruct (ser_fields s (c_fields c)) as [b|e|] eqn:B; cbn [obind] in H; try discriminate.
  destruct (ser_field (ser_map ser_cl) (lit "X-PROP") (c_xprop c)) as [x|e|] eqn:X; cbn [obind] in H; try discriminate.
  destruct (ser_field (ser_map ser_cl) (lit "IANA-PROP") (c_iana c)) as [i|e|] eqn:I; cbn [obind] in H; try discriminate.
  injection H as <-.
  assert (R : reads_as (b ++ x ++ i) (body ++ ext_line (lit "X-PROP") (c_xprop c) ++ ext_line (lit "IANA-PROP") (c_iana c))).
  { apply reads_app; [eapply fields_lines_reads; eauto|]. apply reads_app.
    - eapply item_reads_as; [apply name_ok_x|apply item_ext, Hx|exact X].
    - eapply item_reads_as; [apply name_ok_i|apply item_ext, Hi|exact I]. }
  pose proof (block_of name _ _ Hn R) as G. rewrite <- !app_assoc in G. exact G.
Qed.
Lemma comp_written name s (c : comp s) body : Forall (fun nf => name_ok (fst nf)) s ->
  fields_lines s (c_fields c) body -> tidy_ext (c_xprop c) -> tidy_ext (c_iana c) ->
  Forall ascii_line (body ++ ext_line (lit "X-PROP") (c_xprop c) ++ ext_line (lit "IANA-PROP") (c_iana c)) -> exists out, comp_ical name c = Ok out.
Proof.
  intros Hs HL Hx Hi H. rewrite !Forall_app in H. destruct H as (A & B & C). unfold comp_ical.
  destruct (fields_lines_written s _ body Hs HL A) as [b ->]. cbn [obind].
  destruct (item_written (ser_map ser_cl) (lit "X-PROP") (c_xprop c) _ name_ok_x (item_ext _ _ Hx) B) as [x ->]. cbn [obind].
  destruct (item_written (ser_map ser_cl) (lit "IANA-PROP") (c_iana c) _ name_ok_i (item_ext _ _ Hi) C) as [i ->]. cbn [obind]. eauto.
Qed.
(** A field at a time. *)
Lemma fields_cons n f r vs a b ls : ls = a ++ b -> f_lines n f (fst vs) a -> fields_lines r (snd vs) b -> fields_lines ((n, f) :: r) vs ls.
Proof. intros -> A B. exists a, b. auto. Qed.
Lemma fields_nil vs : fields_lines [] vs [].
Proof. reflexivity. Qed.
Lemma fl_opt {T} n (S : serialize T) p one o : (forall x, o = Some x -> item S n x (one n x)) -> f_lines n (FOpt S p) o (opt_lines one n o).
Proof. destruct o; cbn; auto. Qed.
Lemma fl_none {T} n (S : serialize T) : f_lines n (FIgn S) [] [].
Proof. reflexivity. Qed.
