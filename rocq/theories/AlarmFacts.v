(** * The text of an alarm. *)
From Verif Require Import Base Env Chrono Nom Types Ser Parser Derive BaseFacts NomFacts SpecLine LineFacts SpecText SerFacts PropText PropLine
  SpecCal SpecDur PropVocab PropRule PropPeriod PropList Components SpecComp DeriveFacts SpecFields PropComp SpecFile PropFile SpecRound RoundFacts FrameFacts BackFacts FieldFacts ChildFacts.

(** Whole lines: nothing, or a text that ends with a line feed. *)
Definition whole (s : str) : Prop := s = [] \/ exists s0, s = s0 ++ [LF].
Lemma whole_app a b : whole a -> whole b -> whole (a ++ b).
Proof. intros Ha [->|[b0 ->]]; [now rewrite app_nil_r|]. right. exists (a ++ b0). now rewrite app_assoc. Qed.
Lemma folded_last parts l c : concat parts = l ++ [c] -> ~ In [] parts -> exists s, folded parts = s ++ [c].
Proof.
  revert l; induction parts as [|p parts IH]; intros l E Hn; [cbn in E; now destruct l|].
  destruct parts as [|q parts].
  - cbn in *. rewrite app_nil_r in E. exists l. exact E.
  - assert (Hq : exists x y, concat (q :: parts) = x ++ [y]).
    { destruct q as [|y q]; [exfalso; apply Hn; cbn; auto|].
      assert (N : concat ((y :: q) :: parts) <> []) by discriminate. destruct (exists_last N) as (x & z & Ez). eauto. }
    destruct Hq as (x & y & Eq). cbn [concat] in E, Eq. rewrite Eq in E. rewrite app_assoc in E. apply app_inj_tail in E as [_ <-].
    destruct (IH x) as [s Es]; [exact Eq|intros H; apply Hn; right; exact H|].
    exists (p ++ FOLD ++ s). change (folded (p :: q :: parts)) with (p ++ FOLD ++ folded (q :: parts)). rewrite Es. now rewrite <- !app_assoc.
Qed.
Section Env.
Context {E : Env}.
Lemma field_whole {T} (S : serialize T) n v out : s_component S = None -> ser_field S n v = Ok out -> whole out.
Proof.
  intros Hc H. destruct (s_ical S v) as [value|e|] eqn:V; [|unfold ser_field in H; rewrite V in H; discriminate..].
  destruct value as [|c value]; [rewrite (C01_empty_value T S n v Hc V) in H; inv H; now left|].
  destruct (C01_unfold_undoes_fold T S n v _ out Hc V ltac:(discriminate) H) as [(parts & -> & Ec & Hp) _].
  right. eapply folded_last; [|exact Hp]. rewrite Ec. unfold logical_line. rewrite !app_assoc.
  match goal with |- (?x ++ [CR; LF]) = _ => change [CR; LF] with ([CR] ++ [LF]); rewrite (app_assoc x) end. reflexivity.
Qed.
(** No field is a component. *)
Definition flat_field (nf : str * field) : Prop :=
  match snd nf with FReq Sr _ | FOpt Sr _ | FVec Sr _ | FApp Sr _ | FIgn Sr => s_component Sr = None end.
Lemma vec_whole {T} (S : serialize T) n v out : s_component S = None -> vec_field S n v = Ok out -> whole out.
Proof. intros Hc H. destruct v as [|x [|y l]]; cbn [vec_field] in H; eapply field_whole; try exact H; auto. Qed.
Lemma fields_whole s vs out : Forall flat_field s -> ser_fields s vs = Ok out -> whole out.
Proof.
  revert out; induction s as [|[n f] r IH]; intros out Hs H; cbn [ser_fields] in H; [inv H; now left|].
  destruct vs as [v vs]. cbn [fst snd] in *. inversion Hs as [|? ? Hf Hr]; subst. cbn [flat_field snd] in Hf.
  destruct (f_ser n f v) as [x| |] eqn:X; cbn in H; try discriminate. destruct (ser_fields r vs) as [y| |] eqn:Y; cbn in H; try discriminate. inv H.
  apply whole_app; [|eapply IH; eauto]. unfold flat_field in Hf. destruct f; cbn [f_ser snd] in *; try (eapply vec_whole; eauto; fail); eapply field_whole; try exact X; auto.
Qed.
Lemma comp_whole name s (c : comp s) out : Forall flat_field s -> comp_ical name c = Ok out ->
  exists body, out = lit "BEGIN:" ++ name ++ CRLF ++ body ++ lit "END:" ++ name ++ CRLF /\ whole body.
Proof.
  intros Hs H. apply comp_parts in H as (b & x & i & B & X & I & ->). exists (b ++ x ++ i). rewrite <- !app_assoc. split; auto.
  apply whole_app; [eapply fields_whole; eauto|]. apply whole_app; eapply field_whole; eauto; reflexivity.
Qed.
Lemma split_on_app c x y : split_on c (x ++ c :: y) = split_on c x ++ split_on c y.
Proof.
  induction x as [|a x IH]; cbn [app split_on].
  - now rewrite Z.eqb_refl.
  - destruct (a =? c) eqn:Q; [now rewrite IH|]. rewrite IH. destruct (split_on c x) as [|l l0] eqn:X; [now apply split_on_nonnil in X|]. reflexivity.
Qed.
Lemma split_on_no c x : ~ In c x -> split_on c x = [x].
Proof. intros H. rewrite <- (split_on_join c [x]); [reflexivity|discriminate|constructor; auto]. Qed.
Lemma upper_no_lf name : upper_text name -> forall p, ~ In LF p -> ~ In LF (p ++ name).
Proof. intros Hn p Hp X. apply in_app_iff in X as [X|X]; auto. unfold upper_text in Hn. rewrite Forall_forall in Hn. specialize (Hn _ X). unfold LF in Hn. lia. Qed.
Lemma reframe_frame name body : upper_text name -> whole body ->
  reframe (lit "BEGIN:" ++ name ++ CRLF ++ body ++ lit "END:" ++ name ++ CRLF) = lit "BEGIN:VALARM" ++ CRLF ++ body ++ lit "END:VALARM" ++ CRLF.
Proof.
  intros Hn Hb.
  assert (N1 : ~ In LF (lit "BEGIN:" ++ name ++ [CR])).
  { rewrite app_assoc. intros X. apply in_app_iff in X as [X|X]; [|cbn in X; unfold CR, LF in X; intuition discriminate].
    revert X. apply upper_no_lf; auto. cbn. unfold LF. intuition discriminate. }
  assert (N2 : ~ In LF (lit "END:" ++ name ++ [CR])).
  { rewrite app_assoc. intros X. apply in_app_iff in X as [X|X]; [|cbn in X; unfold CR, LF in X; intuition discriminate].
    revert X. apply upper_no_lf; auto. cbn. unfold LF. intuition discriminate. }
  assert (Q : split_on LF (lit "BEGIN:" ++ name ++ CRLF ++ body ++ lit "END:" ++ name ++ CRLF) =
    (lit "BEGIN:" ++ name ++ [CR]) :: (match body with [] => [] | _ => split_on LF (pop body) end) ++ [lit "END:" ++ name ++ [CR]; []]).
  { assert (T : forall p, ~ In LF (p ++ name ++ [CR]) -> forall r, split_on LF (p ++ name ++ CRLF ++ r) = (p ++ name ++ [CR]) :: split_on LF r).
    { intros p Hp r. replace (p ++ name ++ CRLF ++ r) with ((p ++ name ++ [CR]) ++ LF :: r) by (unfold CRLF; now rewrite <- !app_assoc).
      rewrite split_on_app, split_on_no by auto. reflexivity. }
    rewrite T by auto. f_equal. specialize (T (lit "END:") N2 []). rewrite app_nil_r in T.
    destruct Hb as [->|[b0 ->]]; [exact T|].
    replace ((b0 ++ [LF]) ++ lit "END:" ++ name ++ CRLF) with (b0 ++ LF :: (lit "END:" ++ name ++ CRLF)) by now rewrite <- app_assoc.
    rewrite split_on_app, T, pop_app. destruct (b0 ++ [LF]) eqn:X; [now destruct b0|]. reflexivity. }
  unfold reframe. rewrite Q. cbv zeta beta iota.
  set (m := match body with [] => [] | _ => split_on LF (pop body) end) in *.
  replace ((lit "BEGIN:VALARM" ++ [CR]) :: m ++ [lit "END:" ++ name ++ [CR]; []]) with ((((lit "BEGIN:VALARM" ++ [CR]) :: m) ++ [lit "END:" ++ name ++ [CR]]) ++ [[]])
    by (rewrite <- app_assoc; reflexivity).
  rewrite !pop_app. cbn [app]. subst m. destruct Hb as [->|[b0 ->]].
  - cbn [app join]. unfold CRLF. now rewrite <- !app_assoc.
  - rewrite pop_app. destruct (b0 ++ [LF]) eqn:X; [now destruct b0|]. rewrite <- X. clear X.
    assert (J : forall a l z, l <> [] -> join [LF] (a :: l ++ [z]) = a ++ [LF] ++ join [LF] l ++ [LF] ++ z).
    { clear. intros a l z. revert a; induction l as [|b l IH]; intros a H; [congruence|]. destruct l as [|d l].
      - cbn [join app]. now rewrite <- ?app_assoc.
      - change ((b :: d :: l) ++ [z]) with (b :: (d :: l) ++ [z]). change (join [LF] (a :: b :: (d :: l) ++ [z])) with (a ++ [LF] ++ join [LF] (b :: (d :: l) ++ [z])).
        rewrite IH by discriminate. change (join [LF] (b :: d :: l)) with (b ++ [LF] ++ join [LF] (d :: l)). now rewrite <- ?app_assoc. }
    rewrite J by apply split_on_nonnil. rewrite join_split_on. unfold CRLF. now rewrite <- !app_assoc.
Qed.
Lemma comp_reads name s (c : comp s) body out : Forall (fun nf => name_ok (fst nf)) s ->
  fields_lines s (c_fields c) body -> tidy_ext (c_xprop c) -> tidy_ext (c_iana c) -> comp_ical name c = Ok out ->
  exists b, out = lit "BEGIN:" ++ name ++ CRLF ++ b ++ lit "END:" ++ name ++ CRLF /\
    reads_as b (body ++ ext_line (lit "X-PROP") (c_xprop c) ++ ext_line (lit "IANA-PROP") (c_iana c)).
Proof.
  intros Hs HL Hx Hi H. apply comp_parts in H as (b & x & i & B & X & I & ->). exists (b ++ x ++ i). rewrite <- !app_assoc. split; auto.
  apply reads_app; [eapply fields_lines_reads; eauto|]. apply reads_app.
  - eapply item_reads_as; [apply name_ok_x|apply item_ext, Hx|exact X].
  - eapply item_reads_as; [apply name_ok_i|apply item_ext, Hi|exact I].
Qed.
Lemma audio_flat : Forall flat_field audio_schema. Proof. repeat constructor. Qed.
Lemma display_flat : Forall flat_field display_schema. Proof. repeat constructor. Qed.
Lemma email_flat : Forall flat_field email_schema. Proof. repeat constructor. Qed.
(** The kind of an alarm and the text of its content. *)
Definition alarm_name (a : valarm) : str := match a with AAudio _ => lit "AUDIO" | ADisplay _ => lit "DISPLAY" | AEmail _ => lit "EMAIL" end.
Definition alarm_content (a : valarm) : outcome str :=
  match a with AAudio x => s_ical ser_audio x | ADisplay x => s_ical ser_display_alarm x | AEmail x => s_ical ser_email x end.
Lemma alarm_frame a out : s_ical ser_valarm a = Ok out -> exists body,
  alarm_content a = Ok (lit "BEGIN:" ++ alarm_name a ++ CRLF ++ body ++ lit "END:" ++ alarm_name a ++ CRLF) /\ whole body /\
  out = lit "BEGIN:" ++ lit "VALARM" ++ CRLF ++ body ++ lit "END:" ++ lit "VALARM" ++ CRLF.
Proof.
  intros H. cbn [s_ical ser_valarm] in H. unfold valarm_ical in H. change (match a with AAudio x => _ | ADisplay y => _ | AEmail z => _ end) with (alarm_content a) in H.
  destruct (alarm_content a) as [c|e|] eqn:C; cbn [obind] in H; try discriminate. injection H as <-.
  assert (X : exists body, c = lit "BEGIN:" ++ alarm_name a ++ CRLF ++ body ++ lit "END:" ++ alarm_name a ++ CRLF /\ whole body).
  { destruct a; cbn [alarm_content alarm_name] in *; (eapply comp_whole; [|exact C]); [apply audio_flat|apply display_flat|apply email_flat]. }
  destruct X as (body & -> & W). exists body. split; auto. split; auto. rewrite reframe_frame; auto. destruct a; [apply audio_upper|apply display_upper|apply email_upper].
Qed.
Lemma alarm_block a out : valarm_tidy a -> s_ical ser_valarm a = Ok out -> block (lit "VALARM") (valarm_written a) out.
Proof.
  intros T H. apply alarm_frame in H as (body & C & W & ->). apply block_of; [apply upper_lit; reflexivity|].
  assert (X : exists b, lit "BEGIN:" ++ alarm_name a ++ CRLF ++ body ++ lit "END:" ++ alarm_name a ++ CRLF = lit "BEGIN:" ++ alarm_name a ++ CRLF ++ b ++ lit "END:" ++ alarm_name a ++ CRLF /\ reads_as b (valarm_written a)).
  { destruct a as [x|x|x]; cbn [alarm_content alarm_name valarm_tidy valarm_written] in *.
    - rewrite <- audio_body_eq. refine (comp_reads (lit "AUDIO") audio_schema (audio_to x) _ _ audio_names (audio_fields x T) _ _ C); unfold audio_tidy in T; cbn [c_xprop c_iana audio_to]; tauto.
    - rewrite <- display_body_eq. refine (comp_reads (lit "DISPLAY") display_schema (display_to x) _ _ display_names (display_fields x T) _ _ C); unfold display_tidy in T; cbn [c_xprop c_iana display_to]; tauto.
    - rewrite <- email_body_eq. refine (comp_reads (lit "EMAIL") email_schema (email_to x) _ _ email_names (email_fields x T) _ _ C); unfold email_tidy in T; cbn [c_xprop c_iana email_to]; tauto. }
  destruct X as (b & Eb & Hb). repeat apply app_inv_head in Eb. apply app_inv_tail in Eb. now subst.
Qed.
Lemma alarm_out a : valarm_tidy a -> Forall ascii_line (valarm_written a) -> exists out, s_ical ser_valarm a = Ok out.
Proof.
  intros T H. assert (X : exists c, alarm_content a = Ok c).
  { destruct a; cbn [alarm_content valarm_tidy valarm_written] in *; [now apply audio_out|now apply display_out|now apply email_out]. }
  destruct X as [c C]. exists (reframe c). cbn [s_ical ser_valarm]. unfold valarm_ical. change (match a with AAudio x => _ | ADisplay y => _ | AEmail z => _ end) with (alarm_content a). now rewrite C.
Qed.
End Env.
