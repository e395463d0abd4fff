(** * C92: a file taken apart and put together again *)
From Verif Require Import Base Env Chrono Types Ser Parser Derive Components BaseFacts SerFacts ChildFacts CrowdFacts SpecText SpecLine SpecComp PropComp SpecFile PropFile SpecInput PropInput SpecAssemble PropAssemble SpecAppend PropAppend SpecPieces.
From Coq Require Import Permutation.
Section Env.
Context {E : Env}.
(** ** A cut of the unfolded text is a cut of the text *)
Lemma cut_back s a b : unfold_lines s = a ++ b -> exists a' b', s = a' ++ b' /\ unfold_lines a' = a /\ unfold_lines b' = b.
Proof.
  remember (length s) as n eqn:L. revert s a L. induction n as [n IH] using lt_wf_ind. intros s a L H.
  destruct a as [|x a]; [exists [], s; auto|]. destruct s as [|c r]; [discriminate|].
  destruct (starts_with FOLD (c :: r)) eqn:B.
  - apply starts_with_iff in B as (r' & B). rewrite B in *. rewrite unfold_skip in H.
    destruct (IH (length r') ltac:(subst n; rewrite app_length; cbn; lia) r' (x :: a) eq_refl H) as (a' & b' & -> & A1 & A2).
    exists (FOLD ++ a'), b'. rewrite unfold_skip. rewrite <- app_assoc. auto.
  - assert (N : forall t, c :: r <> FOLD ++ t) by (intros t Q; assert (starts_with FOLD (c :: r) = true) by (apply starts_with_iff; eauto); congruence).
    rewrite (unfold_step _ _ N) in H. cbn [app] in H. injection H as <- H.
    destruct (IH (length r) ltac:(subst n; cbn; lia) r a eq_refl H) as (a' & b' & -> & <- & <-). exists (c :: a'), b'. split; [reflexivity|]. split; auto.
    apply unfold_step. intros t Q. apply (N (t ++ b')). change (c :: a' ++ b') with ((c :: a') ++ b'). rewrite Q. now rewrite <- app_assoc.
Qed.
Lemma starts_fresh c o z : unfold_lines o = c :: z -> c <> SP -> c <> LF -> fresh o.
Proof.
  intros H N1 N2. split; intros [y ->]; [change ([SP] ++ y) with (SP :: y) in H|change ([LF] ++ y) with (LF :: y) in H]; rewrite unfold_step in H by (intros s Q; discriminate); congruence.
Qed.
Lemma no_quote_app a b : ~ In QUOTE (a ++ b) -> ~ In QUOTE a /\ ~ In QUOTE b.
Proof. rewrite in_app_iff. tauto. Qed.
(** ** Items one after the other are pieces of the text *)
Lemma pieces {A} (one : str -> A -> str -> Prop) l : local one -> forall s r, ~ In QUOTE s -> seq_text one (unfold_lines s) l r ->
  exists outs fin, s = concat outs ++ fin /\ unfold_lines fin = r /\ Forall2 (fun o a => one (unfold_lines o) a [] /\ ~ In QUOTE o) outs l.
Proof.
  intros HL. induction l as [|a l IH]; intros s r Q H; inversion H as [|? ? r0 ? ? H1 H2]; subst.
  - exists [], s. auto.
  - destruct (HL _ _ [] _ H1) as (x & X & G). cbn [app] in X, G. apply cut_back in X as (o & s' & -> & U & <-).
    apply no_quote_app in Q as [Q1 Q2]. destruct (IH s' r Q2 H2) as (outs & fin & -> & F & P). exists (o :: outs), fin. split; [cbn [concat]; now rewrite app_assoc|]. split; auto.
    constructor; auto. split; auto. rewrite U. specialize (G [] (fun X => X)). now rewrite app_nil_r in G.
Qed.
Lemma container_pieces {A} (one : str -> A -> str -> Prop) (b : str) s t ls t2 l r : local one ->
  (forall u, ~ In QUOTE u -> forall s a r, one s a r -> one (s ++ u) a (r ++ u)) -> (forall s a r, one s a r -> begins (lit "BEGIN:") s) ->
  ~ In QUOTE s -> unfold_lines s = b ++ t -> lines_text t ls t2 -> seq_text one t2 l (lit "END:" ++ r) ->
  exists head outs fin, s = head ++ concat outs ++ fin /\ Forall2 (fun o a => one (unfold_lines o) a [] /\ ~ In QUOTE o) outs l /\
    forall outs' l', Forall2 (fun o a => one (unfold_lines o) a [] /\ ~ In QUOTE o) outs' l' ->
      exists t' t2', unfold_lines (head ++ concat outs' ++ fin) = b ++ t' /\ lines_text t' ls t2' /\ seq_text one t2' l' (lit "END:" ++ r).
Proof.
  intros HL HM HB Q U L Sq. destruct (lines_text_local _ _ [] _ L) as (h & -> & G). cbn [app] in *.
  rewrite app_assoc in U. apply cut_back in U as (head & s' & -> & U1 & <-). apply no_quote_app in Q as [Q1 Q2].
  destruct (pieces one l HL s' _ Q2 Sq) as (outs & fin & -> & Uf & P). apply no_quote_app in Q2 as [_ Q2]. exists head, outs, fin. split; auto. split; auto.
  intros outs' l' P'. assert (Ff : fresh fin) by (eapply (starts_fresh 69); [exact Uf|discriminate|discriminate]).
  destruct (more_text one outs' l' fin HM HB P' Ff Q2) as (Ft & Qt & S2). rewrite Uf in S2.
  exists (h ++ unfold_lines (concat outs' ++ fin)), (unfold_lines (concat outs' ++ fin)). split; [|split; [|exact S2]].
  - rewrite unfold_cut by now apply fresh_cut. rewrite U1. now rewrite <- app_assoc.
  - apply G. intros X. now apply unfold_in in X.
Qed.
Lemma calendar_more_nil v cs v0 ls : calendar_holds v ls cs -> calendar_holds v0 ls [] -> v = calendar_more v0 cs.
Proof.
  intros (A1 & A2 & A3 & A4 & A5 & A6 & w & R & B) (A1' & A2' & A3' & A4' & A5' & A6' & w' & R' & B'). unfold calendar_more.
  assert (w = w') as <- by (apply C11_vcalendar_read in R, R'; congruence).
  rewrite A1', A2', A3', A4', A5', A6'. destruct v, v0. cbn in *. destruct B as (-> & -> & -> & -> & -> & ->), B' as (-> & -> & -> & -> & -> & ->). now subst.
Qed.
Lemma calendar_more_holds v0 ls cs : calendar_holds v0 ls [] -> calendar_holds (calendar_more v0 cs) ls cs.
Proof.
  intros (A1 & A2 & A3 & A4 & A5 & A6 & w & R & B). unfold calendar_more, calendar_holds. rewrite A1, A2, A3, A4, A5, A6.
  cbn [ca_alarms ca_events ca_freebusy ca_journals ca_timezones ca_todo ca_prodid ca_version ca_calscale ca_method ca_x_prop ca_iana_prop alarms_of events_of freebusy_of journals_of timezones_of todos_of flat_map app].
  repeat (split; [reflexivity|]). exists w. auto.
Qed.
(** A calendar file is a frame with the texts of its components in it; the frame takes any components. *)
Theorem C92_calendar : forall s v, vcalendar_of_str s = Ok v -> ~ In QUOTE s ->
  exists head outs fin cs v0, s = head ++ concat outs ++ fin /\ Forall2 child_exact outs cs /\ calendar_childless v0 /\ v = calendar_more v0 cs /\
    forall outs' cs', Forall2 child_exact outs' cs' -> vcalendar_of_str (head ++ concat outs' ++ fin) = Ok (calendar_more v0 cs').
Proof.
  intros s v H Q. apply C15_calendar_grammar in H as (ls & cs & r & (t & t2 & Ht & L & Sq) & Hh).
  destruct (container_pieces child_text (lit "BEGIN:VCALENDAR" ++ [CR; LF]) s t ls t2 cs (lit "VCALENDAR" ++ r)) as (head & outs & fin & Hs & P & G); auto.
  - apply child_text_local.
  - intros u Hu ? ? ?. now apply child_text_more.
  - intros ? c ? X. apply child_head in X as [z ->]. destruct c; cbn [head_of]; (eexists; cbn [lit app]; reflexivity).
  - pose proof Hh as (A1 & A2 & A3 & A4 & A5 & A6 & w & R & B).
    set (v0 := mk_vcalendar (ca_prodid w) (ca_version w) (ca_calscale w) (ca_method w) [] [] [] [] [] [] (ca_x_prop w) (ca_iana_prop w)).
    assert (H0 : calendar_holds v0 ls []) by (repeat (split; [reflexivity|]); exists w; split; [exact R|repeat split]).
    exists head, outs, fin, cs, v0. split; [exact Hs|]. split; [exact P|]. split; [repeat split|]. split; [now apply (calendar_more_nil v cs v0 ls)|].
    intros outs' cs' P'. destruct (G outs' cs' P') as (t' & t2' & U & L' & S'). apply C15_calendar_grammar. exists ls, cs', r. split; [|now apply calendar_more_holds].
    exists t', t2'. rewrite U. split; [now rewrite <- app_assoc|]. split; [exact L'|exact S'].
Qed.
Theorem C92_event : forall s v, vevent_of_str s = Ok v -> ~ In QUOTE s ->
  exists head outs fin, s = head ++ concat outs ++ fin /\ Forall2 alarm_exact outs (ev_alarms v) /\
    forall outs' l, Forall2 alarm_exact outs' l -> vevent_of_str (head ++ concat outs' ++ fin) = Ok (set_ev_alarms v l).
Proof.
  intros s v H Q. apply C15_event_grammar in H as (r & t & ls & t2 & v0 & Ht & L & Sq & R & V).
  destruct (container_pieces alarm_text (lit "BEGIN:VEVENT" ++ [CR; LF]) s t ls t2 (ev_alarms v) (lit "VEVENT" ++ [CR; LF] ++ r)) as (head & outs & fin & Hs & P & G); auto.
  - apply simple_text_local.
  - intros u Hu. now apply simple_text_more.
  - intros ? ? ?. apply simple_head.
  - exists head, outs, fin. split; [exact Hs|]. split; [exact P|]. intros outs' l P'. destruct (G outs' l P') as (t' & t2' & U & L' & S').
    apply C15_event_grammar. exists r, t', ls, t2', v0. rewrite U. split; [now rewrite <- app_assoc|]. split; [exact L'|]. split; [destruct v; exact S'|]. split; [exact R|].
    rewrite V. clear. destruct v0; reflexivity.
Qed.
Theorem C92_timezone : forall s v, vtimezone_of_str s = Ok v -> ~ In QUOTE s ->
  exists head outs fin cs, s = head ++ concat outs ++ fin /\ Forall2 part_exact outs cs /\ tz_standard v = standards_of cs /\ tz_daylight v = daylights_of cs /\
    forall outs' cs', Forall2 part_exact outs' cs' ->
      vtimezone_of_str (head ++ concat outs' ++ fin) = Ok (set_tz_daylight (set_tz_standard v (standards_of cs')) (daylights_of cs')).
Proof.
  intros s v H Q. apply C15_timezone_grammar in H as (r & t & ls & t2 & cs & v0 & Ht & L & Sq & R & V & W1 & W2).
  destruct (container_pieces tz_part_text (lit "BEGIN:VTIMEZONE" ++ [CR; LF]) s t ls t2 cs (lit "VTIMEZONE" ++ [CR; LF] ++ r)) as (head & outs & fin & Hs & P & G); auto.
  - apply tz_part_local.
  - intros u Hu ? [] ? ?; now apply simple_text_more.
  - apply tz_part_head.
  - exists head, outs, fin, cs. split; [exact Hs|]. split; [exact P|]. split; [exact W1|]. split; [exact W2|]. intros outs' cs' P'.
    destruct (G outs' cs' P') as (t' & t2' & U & L' & S'). apply C15_timezone_grammar. exists r, t', ls, t2', cs', v0. rewrite U. split; [now rewrite <- app_assoc|]. split; [exact L'|]. split; [exact S'|]. split; [exact R|].
    split; [|destruct v; split; reflexivity]. rewrite V. clear. destruct v0; reflexivity.
Qed.
(** ** What is an exact text *)
Theorem C92_exact : forall o c, (child_exact o c -> child_loads o c) /\ (whole_child o c -> child_exact o c).
Proof. intros o c. split; [intros [H _]; apply child_loads_iff; eauto|apply whole_child_text]. Qed.
(** ** Two files in one *)
Theorem C92_merge : forall s1 v1 s2 v2, vcalendar_of_str s1 = Ok v1 -> vcalendar_of_str s2 = Ok v2 -> ~ In QUOTE s1 -> ~ In QUOTE s2 ->
  exists head body fin head2 body2 fin2, s1 = head ++ body ++ fin /\ s2 = head2 ++ body2 ++ fin2 /\
    vcalendar_of_str (head ++ body ++ body2 ++ fin) = Ok (mk_vcalendar (ca_prodid v1) (ca_version v1) (ca_calscale v1) (ca_method v1)
      (ca_alarms v1 ++ ca_alarms v2) (ca_events v1 ++ ca_events v2) (ca_freebusy v1 ++ ca_freebusy v2) (ca_journals v1 ++ ca_journals v2)
      (ca_todo v1 ++ ca_todo v2) (ca_timezones v1 ++ ca_timezones v2) (ca_x_prop v1) (ca_iana_prop v1)).
Proof.
  intros s1 v1 s2 v2 H1 H2 Q1 Q2. destruct (C92_calendar _ _ H1 Q1) as (h1 & o1 & f1 & c1 & w1 & -> & P1 & _ & -> & G1).
  destruct (C92_calendar _ _ H2 Q2) as (h2 & o2 & f2 & c2 & w2 & -> & P2 & (N1 & N2 & N3 & N4 & N5 & N6) & -> & _).
  exists h1, (concat o1), f1, h2, (concat o2), f2. split; [reflexivity|]. split; [reflexivity|].
  assert (P : Forall2 child_exact (o1 ++ o2) (c1 ++ c2)) by now apply Forall2_app. apply G1 in P. rewrite concat_app, <- app_assoc in P. rewrite P. f_equal.
  unfold calendar_more. cbn [ca_alarms ca_events ca_freebusy ca_journals ca_timezones ca_todo ca_prodid ca_version ca_calscale ca_method ca_x_prop ca_iana_prop].
  rewrite N1, N2, N3, N4, N5, N6. unfold alarms_of, events_of, freebusy_of, journals_of, timezones_of, todos_of. rewrite !flat_map_app. cbn [app]. now rewrite <- !app_assoc.
Qed.
(** ** One event taken out, or replaced *)
Lemma nth_event cs : forall i e, nth_error (events_of cs) i = Some e -> exists a b, cs = a ++ CEvent e :: b /\ length (events_of a) = i.
Proof.
  induction cs as [|c cs IH]; intros i e H; [destruct i; discriminate|].
  assert (D : (exists x, c = CEvent x) \/ events_of (c :: cs) = events_of cs /\ forall l, events_of (c :: l) = events_of l) by (destruct c; eauto).
  destruct D as [[x ->]|[D1 D2]].
  - destruct i as [|i]; cbn in H; [injection H as ->; exists [], cs; auto|]. destruct (IH _ _ H) as (a & b & -> & <-). exists (CEvent x :: a), b. auto.
  - rewrite D1 in H. destruct (IH _ _ H) as (a & b & -> & <-). exists (c :: a), b. rewrite D2. auto.
Qed.
Lemma events_app a b : events_of (a ++ b) = events_of a ++ events_of b. Proof. apply flat_map_app. Qed.
Theorem C92_one_event : forall s v i e, vcalendar_of_str s = Ok v -> ~ In QUOTE s -> nth_error (ca_events v) i = Some e ->
  exists before o after, s = before ++ o ++ after /\ child_exact o (CEvent e) /\
    vcalendar_of_str (before ++ after) = Ok (set_ca_events v (firstn i (ca_events v) ++ skipn (S i) (ca_events v))) /\
    forall o' e', child_exact o' (CEvent e') ->
      vcalendar_of_str (before ++ o' ++ after) = Ok (set_ca_events v (firstn i (ca_events v) ++ e' :: skipn (S i) (ca_events v))).
Proof.
  intros s v i e H Q N. destruct (C92_calendar _ _ H Q) as (h & os & f & cs & w & -> & P & (N1 & N2 & N3 & N4 & N5 & N6) & -> & G).
  unfold calendar_more in N. cbn [ca_events] in N. rewrite N2 in N. cbn [app] in N. apply nth_event in N as (a & b & -> & <-).
  apply Forall2_app_inv_r in P as (oa & ob' & Pa & Pb & ->). inversion Pb as [|o ? ob ? Po Pb' ]; subst.
  exists (h ++ concat oa), o, (concat ob ++ f). split; [rewrite concat_app; cbn [concat]; now rewrite <- !app_assoc|]. split; [exact Po|].
  assert (F1 : firstn (length (events_of a)) (events_of (a ++ CEvent e :: b)) = events_of a) by (rewrite events_app, firstn_app, Nat.sub_diag, firstn_all; cbn [firstn]; apply app_nil_r).
  assert (F2 : skipn (S (length (events_of a))) (events_of (a ++ CEvent e :: b)) = events_of b).
  { rewrite events_app. change (events_of (CEvent e :: b)) with ([e] ++ events_of b). rewrite app_assoc. replace (S (length (events_of a))) with (length (events_of a ++ [e])) by (rewrite app_length; cbn; lia).
    rewrite skipn_app, Nat.sub_diag, skipn_all. reflexivity. }
  unfold set_ca_events, calendar_more.
  cbn [ca_alarms ca_events ca_freebusy ca_journals ca_timezones ca_todo ca_prodid ca_version ca_calscale ca_method ca_x_prop ca_iana_prop].
  rewrite N2. cbn [app]. rewrite F1, F2. split.
  - assert (P : Forall2 child_exact (oa ++ ob) (a ++ b)) by now apply Forall2_app. apply G in P. rewrite concat_app, <- app_assoc in P. rewrite <- app_assoc. rewrite P. f_equal. unfold calendar_more. rewrite N2.
    unfold alarms_of, events_of, freebusy_of, journals_of, timezones_of, todos_of. rewrite !flat_map_app. reflexivity.
  - intros o' e' Po'. assert (P : Forall2 child_exact (oa ++ o' :: ob) (a ++ CEvent e' :: b)) by (apply Forall2_app; auto). apply G in P.
    rewrite concat_app in P. cbn [concat] in P. rewrite <- !app_assoc in P. rewrite <- app_assoc. rewrite P. f_equal. unfold calendar_more. rewrite N2.
    unfold alarms_of, events_of, freebusy_of, journals_of, timezones_of, todos_of. rewrite !flat_map_app. reflexivity.
Qed.
End Env.
