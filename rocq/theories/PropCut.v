(** * C97: a file cut short *)
From Verif Require Import Base Env Chrono Types Ser Parser Derive Components BaseFacts SerFacts ChildFacts SpecText SpecLine SpecComp SpecFields PropComp SpecFile PropFile SpecFatal PropFatal SpecInput PropInput SpecAssemble PropAssemble SpecAppend PropAppend SpecPieces PropPieces.
(** ** Where a text is cut, its unfolded text is cut, but for the CRLF of a fold *)
Definition eol_part (w : str) : Prop := w = [] \/ w = [CR] \/ w = [CR; LF].
Lemma ends_dec (p e : str) : (exists x, p = x ++ e) \/ (forall x, p <> x ++ e).
Proof.
  destruct (starts_with (rev e) (rev p)) eqn:B.
  - left. apply starts_with_iff in B as (r & B). exists (rev r). apply (f_equal (@rev _)) in B. rewrite rev_involutive, rev_app_distr, rev_involutive in B. exact B.
  - right. intros x ->. rewrite rev_app_distr in B. assert (starts_with (rev e) (rev e ++ rev x) = true) by (apply starts_with_iff; eauto). congruence.
Qed.
Lemma cut_text p q : exists t1 w z, unfold_lines p = t1 ++ w /\ unfold_lines (p ++ q) = t1 ++ z /\ eol_part w /\ (forall c, In c z -> In c q).
Proof.
  assert (D : inside_fold p q \/ ~ inside_fold p q).
  { destruct (ends_dec p [CR]) as [[x X]|N1].
    - destruct (starts_with [LF; SP] q) eqn:B; [apply starts_with_iff in B as (y & ->); left; left; eauto|]. right. intros [(a & y & _ & ->)|(a & y & A & _)].
      + assert (starts_with [LF; SP] ([LF; SP] ++ y) = true) by (apply starts_with_iff; eauto). congruence.
      + rewrite X in A. change (a ++ [CR; LF]) with (a ++ [CR] ++ [LF]) in A. rewrite app_assoc in A. apply app_inj_tail in A as [_ A]. discriminate.
    - destruct (ends_dec p [CR; LF]) as [[x X]|N2].
      + destruct (starts_with [SP] q) eqn:B; [apply starts_with_iff in B as (y & ->); left; right; eauto|]. right. intros [(a & y & A & _)|(a & y & _ & ->)]; [now apply N1 in A|].
        assert (starts_with [SP] ([SP] ++ y) = true) by (apply starts_with_iff; eauto). congruence.
      + right. intros [(a & y & A & _)|(a & y & A & _)]; [now apply N1 in A|now apply N2 in A]. }
  destruct D as [[(x & y & -> & ->)|(x & y & -> & ->)]|D].
  - exists (unfold_lines x), [CR], (unfold_lines y). split; [rewrite unfold_cut by (apply fresh_cut; split; intros [a A]; discriminate); reflexivity|]. split; [|split; [right; now left|]].
    + rewrite <- app_assoc. change ([CR] ++ [LF; SP] ++ y) with (FOLD ++ y). apply unfold_marker.
    + intros c H. apply unfold_in in H. right. right. exact H.
  - exists (unfold_lines x), [CR; LF], (unfold_lines y). split; [rewrite unfold_cut by (apply fresh_cut; split; intros [a A]; discriminate); reflexivity|]. split; [|split; [right; now right|]].
    + rewrite <- app_assoc. change ([CR; LF] ++ [SP] ++ y) with (FOLD ++ y). apply unfold_marker.
    + intros c H. apply unfold_in in H. right. exact H.
  - exists (unfold_lines p), [], (unfold_lines q). split; [now rewrite app_nil_r|]. split; [now apply unfold_cut|]. split; [now left|]. intros c. apply unfold_in.
Qed.
Lemma eol_in w c : eol_part w -> In c w -> c = CR \/ c = LF.
Proof. intros [-> |[-> | ->]]; cbn [In]; intuition. Qed.
(** What follows a letter ends with the same end of line. *)
Lemma eol_after t1 w x c r : eol_part w -> c <> CR -> c <> LF -> t1 ++ w = (x ++ [c]) ++ r -> exists y, r = y ++ w /\ t1 = (x ++ [c]) ++ y.
Proof.
  intros Hw N1 N2 H. apply split_two in H as [(l & A & B)|(l & A & B)]; [eauto|]. destruct l as [|b l]; [exists []; cbn [app] in *; rewrite !app_nil_r in *; auto|].
  destruct (@exists_last _ (b :: l) ltac:(discriminate)) as (l' & d & L). rewrite L in *. rewrite app_assoc in A. apply app_inj_tail in A as [_ ->].
  exfalso. destruct (eol_in w d Hw); [rewrite B, !in_app_iff; cbn [In]; auto|congruence|congruence].
Qed.
Definition lettered (N : str) : Prop := exists n c, N = n ++ [c] /\ c <> CR /\ c <> LF.
Lemma begins_before p a w : ~ In CR p -> ~ In LF p -> eol_part w -> begins p (a ++ w) -> begins p a.
Proof.
  intros N1 N2 Hw [r H]. apply split_two in H as [(l & A & B)|(l & A & B)]; [exists l; exact A|].
  destruct l as [|b l]; [exists []; rewrite app_nil_r in *; congruence|]. exfalso.
  assert (C : b = CR \/ b = LF) by (apply (eol_in w); auto; rewrite B; now left). assert (In b p) by (rewrite A, in_app_iff; cbn [In]; auto). destruct C; congruence.
Qed.
(** ** Lines and children between BEGIN and END *)
Definition held {A} (one : str -> A -> str -> Prop) (N s : str) (ls : list content_line) (cs : list A) (rest : str) : Prop :=
  exists t t2, s = lit "BEGIN:" ++ N ++ [CR; LF] ++ t /\ lines_text t ls t2 /\ seq_text one t2 cs (lit "END:" ++ N ++ rest).
Definition only {A} (one : str -> A -> str -> Prop) : Prop := forall s a r a' r', one s a r -> one s a' r' -> a = a' /\ r = r'.
Definition headed {A} (one : str -> A -> str -> Prop) : Prop := forall s a r, one s a r -> begins (lit "BEGIN:") s.
(** [C] is the text of a thing that cannot be read, whatever comes after it. *)
Definition dead {A} (C : str -> Prop) (one : str -> A -> str -> Prop) : Prop :=
  forall t1 w z a r, eol_part w -> ~ In QUOTE z -> C (t1 ++ w) -> ~ one (t1 ++ z) a r.
Section Held.
Context {A : Type} (one : str -> A -> str -> Prop) (HL : local one) (HO : only one) (HB : headed one).
Lemma begin_not_end s : begins (lit "BEGIN:") s -> ~ begins (lit "END:") s.
Proof. apply heads. reflexivity. Qed.
Lemma seq_det N s l r l' r' : seq_text one s l (lit "END:" ++ N ++ r) -> seq_text one s l' (lit "END:" ++ N ++ r') -> l = l' /\ r = r'.
Proof.
  intros H. remember (lit "END:" ++ N ++ r) as e eqn:Q. revert l'. induction H as [s|s a r0 l rest H HS IH]; intros l' H'; inversion H' as [|? a' r1 l1 ? H1 H2]; subst.
  - split; auto. apply app_inv_head in H1. now apply app_inv_head in H1.
  - exfalso. apply HB in H1. apply (begin_not_end _ H1). apply begins_app.
  - exfalso. apply HB in H. apply (begin_not_end _ H). apply begins_app.
  - destruct (HO _ _ _ _ _ H H1) as [-> ->]. destruct (IH eq_refl _ H2) as [-> ->]. auto.
Qed.
Lemma seq_cmp s l r l' e : seq_text one s l r -> begins (lit "BEGIN:") r -> seq_text one s l' e -> begins (lit "END:") e -> exists a r', one r a r'.
Proof.
  intros H B H' B'. revert l' H'. induction H as [s|s a r0 l rest H HS IH]; intros l' H'; inversion H' as [|? a' r1 l1 ? H1 H2]; subst; eauto.
  - exfalso. exact (begin_not_end _ B B').
  - exfalso. apply HB in H. exact (begin_not_end _ H B').
  - destruct (HO _ _ _ _ _ H H1) as [-> ->]. eauto.
Qed.
Lemma seq_delim s l N r : seq_text one s l (lit "END:" ++ N ++ r) -> PropFile.delimiter s.
Proof. intros H. inversion H; subst; [right; apply begins_app|left; eapply HB; eauto]. Qed.
Lemma held_det N s ls cs r ls' cs' r' : held one N s ls cs r -> held one N s ls' cs' r' -> ls = ls' /\ cs = cs' /\ r = r'.
Proof.
  intros (t & t2 & -> & L & Q) (t' & t2' & X & L' & Q'). repeat apply app_inv_head in X. subst t'.
  destruct (lines_text_det _ _ _ _ _ (seq_delim _ _ _ _ Q) (seq_delim _ _ _ _ Q') L L') as [-> ->]. destruct (seq_det _ _ _ _ _ _ Q Q'). auto.
Qed.
Lemma held_cut N t1 w z ls cs rest : lettered N -> eol_part w -> ~ In QUOTE z -> held one N (t1 ++ w) ls cs rest -> exists y, rest = y ++ w /\ held one N (t1 ++ z) ls cs (y ++ z).
Proof.
  intros (n & c & -> & N1 & N2) Hw Hz (t & t2 & X0 & L & Q). rewrite app_assoc in Q.
  destruct (body_local one _ _ _ cs (lit "END:" ++ n ++ [c]) [] rest HL L) as (x & Tx & _); [exact Q|]. pose proof X0 as X. rewrite Tx in X.
  assert (Y : t1 ++ w = ((lit "BEGIN:" ++ (n ++ [c]) ++ [CR; LF] ++ x ++ lit "END:" ++ n) ++ [c]) ++ rest) by (rewrite X; repeat rewrite <- app_assoc; reflexivity).
  destruct (eol_after _ _ _ _ _ Hw N1 N2 Y) as (y & -> & _). exists y. split; auto. clear X Y.
  destruct (body_local one _ _ _ cs (lit "END:" ++ n ++ [c]) y w HL L) as (x' & X' & G); [exact Q|].
  assert (T : t1 = lit "BEGIN:" ++ (n ++ [c]) ++ [CR; LF] ++ x' ++ (lit "END:" ++ n ++ [c]) ++ y).
  { apply (app_inv_tail w). rewrite X0, X'. repeat rewrite <- app_assoc. reflexivity. }
  destruct (G z Hz) as (t2' & L' & Q'). exists (x' ++ (lit "END:" ++ n ++ [c]) ++ y ++ z), t2'. split; [rewrite T; repeat rewrite <- app_assoc; reflexivity|]. split; [exact L'|].
  repeat rewrite <- app_assoc in *. exact Q'.
Qed.
(** The same text read as the same thing, or not at all. *)
Lemma held_same N t1 w z ls cs r ls' cs' r' : lettered N -> eol_part w -> ~ In QUOTE z -> held one N (t1 ++ w) ls cs r -> held one N (t1 ++ z) ls' cs' r' -> ls = ls' /\ cs = cs'.
Proof. intros HN Hw Hz H H'. destruct (held_cut _ _ _ _ _ _ _ HN Hw Hz H) as (y & _ & G). destruct (held_det _ _ _ _ _ _ _ _ G H') as (? & ? & _). auto. Qed.
Lemma held_dead (C : str -> Prop) N t1 w z t ls t2 cs t3 ls' cs' r' : dead C one -> (forall s, C s -> begins (lit "BEGIN:") s) -> eol_part w -> ~ In QUOTE z ->
  t1 ++ w = lit "BEGIN:" ++ N ++ [CR; LF] ++ t -> lines_text t ls t2 -> seq_text one t2 cs t3 -> C t3 -> ~ held one N (t1 ++ z) ls' cs' r'.
Proof.
  intros HD HC Hw Hz X L Q C3 (t' & t2' & X' & L' & Q').
  destruct (HC _ C3) as [b B]. assert (exists y, t3 = y ++ w) as (y & Y).
  { destruct (seq_text_local one HL _ _ [] _ Q) as (x2 & X2 & _). destruct (lines_text_local _ _ [] _ L) as (x1 & X1 & _). cbn [app] in *.
    assert (Z : t1 ++ w = ((lit "BEGIN:" ++ N ++ [CR; LF] ++ x1 ++ x2 ++ lit "BEGIN") ++ [58]) ++ b) by (rewrite X, X1, X2, B; repeat rewrite <- app_assoc; reflexivity).
    destruct (eol_after t1 w _ 58 b Hw ltac:(discriminate) ltac:(discriminate) Z) as (y & -> & _). exists (lit "BEGIN:" ++ y). rewrite B. now rewrite <- app_assoc. }
  rewrite Y in Q. destruct (seq_text_local one HL _ _ _ _ Q) as (x2 & X2 & G2). rewrite X2, app_assoc in L. destruct (lines_text_local _ _ _ _ L) as (x1 & X1 & G1). specialize (G2 z Hz). specialize (G1 z Hz).
  assert (T1 : t1 = lit "BEGIN:" ++ N ++ [CR; LF] ++ x1 ++ (x2 ++ y)) by (apply (app_inv_tail w); rewrite X, X1; repeat rewrite <- app_assoc; reflexivity).
  assert (t' = x1 ++ (x2 ++ y) ++ z) as ->. { rewrite T1 in X'. repeat rewrite <- app_assoc in X'. repeat apply app_inv_head in X'. rewrite <- X'. now rewrite <- !app_assoc. }
  assert (By : begins (lit "BEGIN:") (y ++ z)).
  { assert (begins (lit "BEGIN:") y) as [q ->]. { apply (begins_before _ _ w); auto; [intros Z; vm_compute in Z; intuition discriminate..|]. rewrite <- Y. exists b. exact B. } rewrite <- app_assoc. apply begins_app. }
  assert (D : PropFile.delimiter ((x2 ++ y) ++ z)).
  { rewrite <- app_assoc. left. clear - G2 By HB. remember (x2 ++ y ++ z) as g. destruct G2 as [s0|s0 a r0 l0 r1 O1 O2]; [exact By|exact (HB _ _ _ O1)]. }
  destruct (lines_text_det _ _ _ _ _ D (seq_delim _ _ _ _ Q') G1 L') as [-> <-]. rewrite <- app_assoc in Q'.
  destruct (seq_cmp _ _ _ _ _ G2 By Q' (begins_app (lit "END:") _)) as (a & r & O). eapply (HD y w z); eauto. now rewrite <- Y.
Qed.
End Held.
Section Env.
Context {E : Env}.
(** ** One reader *)
Definition same_if_cut {A} (T : str -> A -> str -> Prop) : Prop :=
  forall t1 w z v r v' r', eol_part w -> ~ In QUOTE z -> T (t1 ++ w) v r -> T (t1 ++ z) v' r' -> v = v'.
Lemma cut_read {A} (read : str -> outcome A) (T : str -> A -> str -> Prop) (C : str -> Prop) :
  (forall s v, read s = Ok v <-> exists r, T (unfold_lines s) v r) -> (forall s, read s = Panic <-> C (unfold_lines s)) -> same_if_cut T -> dead C T ->
  forall p q v, read (p ++ q) = Ok v -> ~ In QUOTE q -> read p = Ok v \/ exists e, read p = Err e.
Proof.
  intros HT HC HS HD p q v R Q. destruct (cut_text p q) as (t1 & w & z & Up & Us & Hw & Hz). assert (Qz : ~ In QUOTE z) by auto.
  apply HT in R as [r R]. rewrite Us in R. destruct (read p) as [v'|e|] eqn:X; [left|eauto|exfalso].
  - apply HT in X as [r' X]. rewrite Up in X. f_equal. exact (HS _ _ _ _ _ _ _ Hw Qz X R).
  - apply HC in X. rewrite Up in X. exact (HD _ _ _ _ _ Hw Qz X R).
Qed.
(** *** Components without children *)
Definition nothing (s : str) (a : unit) (r : str) : Prop := False.
Lemma nothing_local : local nothing. Proof. intros s a y z []. Qed.
Lemma nothing_only : only nothing. Proof. intros s a r a' r' []. Qed.
Lemma nothing_headed : headed nothing. Proof. intros s a r []. Qed.
Lemma simple_held {A} N (read : list content_line -> A -> Prop) s v r : simple_text N read s v r <-> exists ls, held nothing N s ls [] ([CR; LF] ++ r) /\ read ls v.
Proof.
  split.
  - intros (t & ls & -> & L & R). exists ls. split; auto. exists t, (lit "END:" ++ N ++ [CR; LF] ++ r). repeat split; auto; [exact (proj1 L)|exact (proj2 L)|constructor].
  - intros (ls & (t & t2 & -> & L & Q) & R). inversion Q; subst. exists t, ls. auto.
Qed.
Lemma crash_held N (lc : list content_line -> Prop) s : simple_crash N lc s <-> exists ls r, held nothing N s ls [] ([CR; LF] ++ r) /\ lc ls.
Proof.
  split.
  - intros (t & ls & r & -> & L & R). exists ls, r. split; auto. exists t, (lit "END:" ++ N ++ [CR; LF] ++ r). repeat split; auto; [exact (proj1 L)|exact (proj2 L)|constructor].
  - intros (ls & r & (t & t2 & -> & L & Q) & R). inversion Q; subst. exists t, ls, r. auto.
Qed.
Section Simple.
Context {A : Type} (N : str) (f : list content_line -> outcome A) (read : list content_line -> A -> Prop) (lc : list content_line -> Prop).
Hypothesis (HN : lettered N) (Hf : forall ls v, f ls = Ok v <-> read ls v) (Hc : forall ls, f ls = Panic <-> lc ls).
Lemma simple_same : same_if_cut (simple_text N read).
Proof.
  intros t1 w z v r v' r' Hw Hz H H'. apply simple_held in H as (ls & H & R). apply simple_held in H' as (ls' & H' & R').
  destruct (held_same nothing nothing_local nothing_only nothing_headed _ _ _ _ _ _ _ _ _ _ HN Hw Hz H H') as [<- _]. apply Hf in R, R'. congruence.
Qed.
Lemma simple_dead : dead (simple_crash N lc) (simple_text N read).
Proof.
  intros t1 w z v' r' Hw Hz H H'. apply crash_held in H as (ls & r & H & R). apply simple_held in H' as (ls' & H' & R').
  destruct (held_same nothing nothing_local nothing_only nothing_headed _ _ _ _ _ _ _ _ _ _ HN Hw Hz H H') as [<- _]. apply Hf in R'. apply Hc in R. congruence.
Qed.
Lemma simple_only : only (simple_text N read).
Proof.
  intros s v r v' r' H H'. apply simple_held in H as (ls & H & R). apply simple_held in H' as (ls' & H' & R').
  destruct (held_det nothing nothing_only nothing_headed _ _ _ _ _ _ _ _ H H') as (<- & _ & Q). apply app_inv_head in Q. apply Hf in R, R'. split; congruence.
Qed.
Lemma simple_headed : headed (simple_text N read).
Proof. intros s v r (t & ls & -> & _). apply begins_app. Qed.
End Simple.
Lemma crash_headed N lc s : simple_crash N lc s -> begins (lit "BEGIN:") s.
Proof. intros (t & ls & r & -> & _). apply begins_app. Qed.
Ltac letters := match goal with |- lettered ?N => exists (removelast N), (last N 0); split; [reflexivity|split; discriminate] end.
Lemma letters_event : lettered (lit "VEVENT"). Proof. letters. Qed.
Lemma letters_timezone : lettered (lit "VTIMEZONE"). Proof. letters. Qed.
(** *** Events *)
Lemma alarm_only : only alarm_text. Proof. apply (simple_only _ valarm_of_lines); apply valarm_read_iff. Qed.
Lemma alarm_headed : headed alarm_text. Proof. apply simple_headed. Qed.
Lemma alarm_dead : dead alarm_crashes alarm_text.
Proof. apply (simple_dead _ valarm_of_lines); [letters|apply valarm_read_iff|apply C16_alarm_lines]. Qed.
Lemma event_held s v r : event_text s v r <-> exists ls v0, held alarm_text (lit "VEVENT") s ls (ev_alarms v) ([CR; LF] ++ r) /\ vevent_read ls v0 /\ v = set_ev_alarms v0 (ev_alarms v).
Proof.
  split.
  - intros (t & ls & t2 & v0 & -> & L & Q & R & V). exists ls, v0. split; auto. exists t, t2. auto.
  - intros (ls & v0 & (t & t2 & -> & L & Q) & R & V). exists t, ls, t2, v0. auto.
Qed.
Lemma event_same : same_if_cut event_text.
Proof.
  intros t1 w z v r v' r' Hw Hz H H'. apply event_held in H as (ls & v0 & H & R & V). apply event_held in H' as (ls' & v0' & H' & R' & V').
  destruct (held_same alarm_text (simple_text_local _ _) alarm_only alarm_headed _ _ _ _ _ _ _ _ _ _ letters_event Hw Hz H H') as [<- Al]. apply C11_vevent_read in R, R'. rewrite V, V', Al. congruence.
Qed.
Lemma event_dead : dead event_crashes event_text.
Proof.
  intros t1 w z v' r' Hw Hz (t & ls & t2 & cs & t3 & X & L & Q & [C|[[r ->] C]]) H'; apply event_held in H' as (ls' & v0' & H' & R' & V').
  - eapply (held_dead alarm_text (simple_text_local _ _) alarm_only alarm_headed alarm_crashes); eauto using alarm_dead. intros s. apply crash_headed.
  - assert (H : held alarm_text (lit "VEVENT") (t1 ++ w) ls cs ([CR; LF] ++ r)) by (exists t, t2; auto).
    destruct (held_same alarm_text (simple_text_local _ _) alarm_only alarm_headed _ _ _ _ _ _ _ _ _ _ letters_event Hw Hz H H') as [<- _]. apply C11_vevent_read in R'. apply C16_event_lines in C. congruence.
Qed.
(** *** Timezones *)
Lemma part_only : only tz_part_text. Proof. intros s a r a' r' H H'. apply tz_part_POk in H, H'. split; congruence. Qed.
Lemma part_headed : headed tz_part_text. Proof. intros s a r H. eapply tz_part_head; eauto. Qed.
Lemma part_other s : begins (lit "BEGIN:STANDARD") s -> begins (lit "BEGIN:DAYLIGHT") s -> False.
Proof. intros A B. exact (heads (lit "BEGIN:STANDARD") (lit "BEGIN:DAYLIGHT") s eq_refl A B). Qed.
Lemma head_cut N b t1 w z : eol_part w -> ~ In CR N -> ~ In LF N -> t1 ++ w = lit "BEGIN:" ++ N ++ b -> begins (lit "BEGIN:" ++ N) (t1 ++ z).
Proof.
  intros Hw N1 N2 X. assert (begins (lit "BEGIN:" ++ N) t1) as [q ->].
  { apply (begins_before _ _ w); auto; [intros Z; apply in_app_iff in Z as [Z|Z]; [vm_compute in Z; intuition discriminate|auto]..|]. exists b. rewrite X. now rewrite <- !app_assoc. }
  rewrite <- app_assoc. apply begins_app.
Qed.
Lemma crash_cut N lc t1 w z : eol_part w -> ~ In CR N -> ~ In LF N -> simple_crash N lc (t1 ++ w) -> begins (lit "BEGIN:" ++ N) (t1 ++ z).
Proof. intros Hw N1 N2 (t & ls & r & X & _). eapply head_cut; eauto. Qed.
Lemma part_dead : dead tz_part_crashes tz_part_text.
Proof.
  assert (DS : dead (simple_crash (lit "STANDARD") standard_crash) (simple_text (lit "STANDARD") standard_read)) by (apply (simple_dead _ standard_of_lines); [letters|apply C11_standard_read|apply C16_standard_lines]).
  assert (DD : dead (simple_crash (lit "DAYLIGHT") daylight_crash) (simple_text (lit "DAYLIGHT") daylight_read)) by (apply (simple_dead _ daylight_of_lines); [letters|apply C11_daylight_read|apply C16_daylight_lines]).
  intros t1 w z [a|a] r Hw Hz [C|C] H; cbn [tz_part_text] in H.
  - exact (DS _ _ _ _ _ Hw Hz C H).
  - apply crash_cut with (z := z) in C; auto; [|intros Z; vm_compute in Z; intuition discriminate..]. destruct H as (t & ls & H & _). apply (part_other (t1 ++ z)); [exists ([CR; LF] ++ t); rewrite H; reflexivity|exact C].
  - apply crash_cut with (z := z) in C; auto; [|intros Z; vm_compute in Z; intuition discriminate..]. destruct H as (t & ls & H & _). apply (part_other (t1 ++ z)); [exact C|exists ([CR; LF] ++ t); rewrite H; reflexivity].
  - exact (DD _ _ _ _ _ Hw Hz C H).
Qed.
Lemma timezone_held s v r : timezone_text s v r <-> exists ls cs v0, held tz_part_text (lit "VTIMEZONE") s ls cs ([CR; LF] ++ r) /\
  vtimezone_read ls v0 /\ v = set_tz_daylight (set_tz_standard v0 (tz_standard v)) (tz_daylight v) /\
    tz_standard v = flat_map (fun c => match c with TStandard x => [x] | _ => [] end) cs /\
    tz_daylight v = flat_map (fun c => match c with TDaylight x => [x] | _ => [] end) cs.
Proof.
  split.
  - intros (t & ls & t2 & cs & v0 & -> & L & Q & R). exists ls, cs, v0. split; auto. exists t, t2. auto.
  - intros (ls & cs & v0 & (t & t2 & -> & L & Q) & R). exists t, ls, t2, cs, v0. auto.
Qed.
Lemma timezone_same : same_if_cut timezone_text.
Proof.
  intros t1 w z v r v' r' Hw Hz H H'. apply timezone_held in H as (ls & cs & v0 & H & R & V & V1 & V2). apply timezone_held in H' as (ls' & cs' & v0' & H' & R' & V' & V1' & V2').
  destruct (held_same tz_part_text tz_part_local part_only part_headed _ _ _ _ _ _ _ _ _ _ letters_timezone Hw Hz H H') as [<- <-]. apply C11_vtimezone_read in R, R'. rewrite V, V'. congruence.
Qed.
Lemma timezone_dead : dead timezone_crashes timezone_text.
Proof.
  intros t1 w z v' r' Hw Hz (t & ls & t2 & cs & t3 & X & L & Q & C) H'; apply timezone_held in H' as (ls' & cs' & v0' & H' & _).
  eapply (held_dead tz_part_text tz_part_local part_only part_headed tz_part_crashes); eauto using part_dead. intros s [D|D]; eapply crash_headed; eauto.
Qed.
(** *** Calendars *)
Lemma child_only : only child_text. Proof. intros s a r a' r' H H'. apply child_POk in H, H'. split; congruence. Qed.
Lemma child_headed : headed child_text. Proof. intros s a r H. eapply child_begin; eauto. Qed.
Lemma nested_cut {A} N (one : str -> A -> str -> Prop) last t1 w z : eol_part w -> ~ In CR N -> ~ In LF N -> nested_crash N one last (t1 ++ w) -> begins (lit "BEGIN:" ++ N) (t1 ++ z).
Proof. intros Hw N1 N2 (t & ls & t2 & cs & t3 & X & _). eapply head_cut; eauto. Qed.
Lemma child_named s c r : child_text s c r -> begins (lit "BEGIN:" ++ name_of c) s.
Proof.
  intros H. apply child_head in H as [t ->]. exists ([CR; LF] ++ t). destruct c; reflexivity.
Qed.
Lemma child_dead : dead child_crashes child_text.
Proof.
  intros t1 w z c r Hw Hz C H. pose proof (child_named _ _ _ H) as B.
  assert (X : forall N, begins (lit "BEGIN:" ++ N) (t1 ++ z) -> distinct_heads (lit "BEGIN:" ++ N) (lit "BEGIN:" ++ name_of c) = true -> False) by (intros N B' D; exact (heads _ _ _ D B' B)).
  assert (Q : forall N, existsb (Z.eqb CR) N = false -> ~ In CR N) by (intros N F I; assert (existsb (Z.eqb CR) N = true) by (apply existsb_exists; exists CR; split; [exact I|apply Z.eqb_refl]); congruence).
  assert (Q' : forall N, existsb (Z.eqb LF) N = false -> ~ In LF N) by (intros N F I; assert (existsb (Z.eqb LF) N = true) by (apply existsb_exists; exists LF; split; [exact I|apply Z.eqb_refl]); congruence).
  destruct C as [C|[C|[C|[C|[C|C]]]]].
  - destruct c; try (exfalso; apply (X (lit "VALARM")); [apply (crash_cut (lit "VALARM") _ _ _ z Hw (Q (lit "VALARM") eq_refl) (Q' (lit "VALARM") eq_refl) C)|reflexivity]). exact (alarm_dead _ _ _ _ _ Hw Hz C H).
  - destruct c; try (apply (X (lit "VEVENT")); [apply (nested_cut (lit "VEVENT") _ _ _ _ z Hw (Q (lit "VEVENT") eq_refl) (Q' (lit "VEVENT") eq_refl) C)|reflexivity]). exact (event_dead _ _ _ _ _ Hw Hz C H).
  - destruct c; try (apply (X (lit "VFREEBUSY")); [apply (crash_cut (lit "VFREEBUSY") _ _ _ z Hw (Q (lit "VFREEBUSY") eq_refl) (Q' (lit "VFREEBUSY") eq_refl) C)|reflexivity]).
    refine (simple_dead _ vfreebusy_of_lines _ _ _ _ _ _ _ _ _ _ Hw Hz C H); [letters|apply C11_vfreebusy_read|apply C16_freebusy_lines].
  - destruct c; try (apply (X (lit "VJOURNAL")); [apply (crash_cut (lit "VJOURNAL") _ _ _ z Hw (Q (lit "VJOURNAL") eq_refl) (Q' (lit "VJOURNAL") eq_refl) C)|reflexivity]).
    refine (simple_dead _ vjournal_of_lines _ _ _ _ _ _ _ _ _ _ Hw Hz C H); [letters|apply C11_vjournal_read|apply C16_journal_lines].
  - destruct c; try (apply (X (lit "VTIMEZONE")); [apply (nested_cut (lit "VTIMEZONE") _ _ _ _ z Hw (Q (lit "VTIMEZONE") eq_refl) (Q' (lit "VTIMEZONE") eq_refl) C)|reflexivity]). exact (timezone_dead _ _ _ _ _ Hw Hz C H).
  - destruct c; try (apply (X (lit "VTODO")); [apply (crash_cut (lit "VTODO") _ _ _ z Hw (Q (lit "VTODO") eq_refl) (Q' (lit "VTODO") eq_refl) C)|reflexivity]).
    refine (simple_dead _ vtodo_of_lines _ _ _ _ _ _ _ _ _ _ Hw Hz C H); [letters|apply C11_vtodo_read|apply C16_todo_lines].
Qed.
Lemma letters_calendar : lettered (lit "VCALENDAR"). Proof. letters. Qed.
Definition calendar_as (s : str) (v : vcalendar) (r : str) : Prop := exists ls cs, calendar_text s ls cs r /\ calendar_holds v ls cs.
Lemma calendar_same : same_if_cut calendar_as.
Proof.
  intros t1 w z v r v' r' Hw Hz (ls & cs & H & V) (ls' & cs' & H' & V').
  destruct (held_same child_text child_text_local child_only child_headed (lit "VCALENDAR") t1 w z ls cs r ls' cs' r' letters_calendar Hw Hz H H') as [<- <-].
  destruct V as (A1 & A2 & A3 & A4 & A5 & A6 & v0 & R & A7), V' as (B1 & B2 & B3 & B4 & B5 & B6 & v0' & R' & B7). apply C11_vcalendar_read in R, R'. assert (v0 = v0') as <- by congruence.
  destruct v, v'. cbn in *. decompose [and] A7. decompose [and] B7. congruence.
Qed.
Lemma calendar_dead : dead calendar_crashes calendar_as.
Proof.
  intros t1 w z v' r' Hw Hz (t & ls & t2 & cs & t3 & X & L & Q & C) (ls' & cs' & H' & _).
  eapply (held_dead child_text child_text_local child_only child_headed child_crashes (lit "VCALENDAR")); eauto using child_dead, child_crash_head. exact H'.
Qed.
(** A text that can be read, cut short anywhere, is read as the same value or refused: never as another
    value, and never with a panic. *)
Theorem C97_cut : every_reader (fun A read => forall p q v, read (p ++ q) = Ok v -> ~ In QUOTE q -> read p = Ok v \/ exists e, read p = Err e).
Proof.
  split; [|repeat split].
  - apply (cut_read _ calendar_as calendar_crashes); [|apply C16_calendar_exact|apply calendar_same|apply calendar_dead].
    intros s v. rewrite C15_calendar_grammar. split; [intros (a & b & c & H); exists c, a, b; exact H|intros (c & a & b & H); exists a, b, c; exact H].
  - apply (cut_read _ event_text event_crashes); [apply C15_event_grammar|apply C16_event_exact|apply event_same|apply event_dead].
  - apply (cut_read _ _ _ C15_todo_grammar C16_todo_exact); [eapply simple_same|eapply simple_dead]; try letters; first [apply C11_vtodo_read|apply C16_todo_lines].
  - apply (cut_read _ _ _ C15_journal_grammar C16_journal_exact); [eapply simple_same|eapply simple_dead]; try letters; first [apply C11_vjournal_read|apply C16_journal_lines].
  - apply (cut_read _ _ _ C15_freebusy_grammar C16_freebusy_text_exact); [eapply simple_same|eapply simple_dead]; try letters; first [apply C11_vfreebusy_read|apply C16_freebusy_lines].
  - apply (cut_read _ timezone_text timezone_crashes); [apply C15_timezone_grammar|apply C16_timezone_exact|apply timezone_same|apply timezone_dead].
  - apply (cut_read _ _ _ C15_standard_grammar C16_standard_exact); [eapply simple_same|eapply simple_dead]; try letters; first [apply C11_standard_read|apply C16_standard_lines].
  - apply (cut_read _ _ _ C15_daylight_grammar C16_daylight_exact); [eapply simple_same|eapply simple_dead]; try letters; first [apply C11_daylight_read|apply C16_daylight_lines].
  - apply (cut_read _ _ _ C15_alarm_grammar C16_alarm_exact); [eapply simple_same|eapply simple_dead]; try letters; first [apply valarm_read_iff|apply C16_alarm_lines].
Qed.

(** ** Cut before its END line is over *)
Lemma unfold_no_space t : ~ In SP t -> unfold_lines t = t.
Proof.
  intros H. apply unfold_id. intros (a & b & ->). apply H. rewrite !in_app_iff. right. left. cbn [FOLD In]. auto.
Qed.
Lemma in_cut m c p q : c <> CR -> c <> LF -> contains (m ++ [c]) (unfold_lines p) -> contains (m ++ [c]) (unfold_lines (p ++ q)).
Proof.
  intros N1 N2 (a & b & X). destruct (cut_text p q) as (t1 & w & z & Up & Us & Hw & _). rewrite Up, app_assoc, (app_assoc a m) in X.
  destruct (eol_after _ _ _ _ _ Hw N1 N2 X) as (y & _ & T). exists a, (y ++ z). rewrite Us, T. now rewrite <- !app_assoc.
Qed.
Lemma cut_off N e d p s p' q x r : lettered N -> ~ In SP (end_mark N) -> e ++ d = [CR; LF] -> border_free (lit "END:" ++ N ++ e) -> ~ contains (lit "END:" ++ N ++ e) d ->
  closing N p s -> s = p' ++ q -> unfold_lines p' = x ++ (lit "END:" ++ N ++ e) ++ r -> d = r ++ q.
Proof.
  intros (n & c & -> & N1 & N2) Hs Hd F Nd (Hp & Nc) Hq U. rewrite Hp in Hq. apply split_two in Hq as [(l & -> & _)|(l & -> & Q)].
  - exfalso. apply Nc. rewrite app_assoc. apply in_cut; auto. exists x, (e ++ r). rewrite U. now rewrite <- !app_assoc.
  - change (lit "END:" ++ (n ++ [c]) ++ CRLF) with (end_mark (n ++ [c])) in Q.
    assert (Hl : ~ In SP l) by (intros X; apply Hs; rewrite Q; apply in_app_iff; auto).
    rewrite unfold_cut in U.
    + rewrite (unfold_no_space l Hl) in U. apply (f_equal (fun t => t ++ q)) in U. rewrite <- app_assoc, <- Q in U. unfold end_mark in U. rewrite <- Hd in U.
      replace (lit "END:" ++ (n ++ [c]) ++ e ++ d) with ((lit "END:" ++ (n ++ [c]) ++ e) ++ d) in U by now rewrite <- !app_assoc.
      replace ((x ++ (lit "END:" ++ (n ++ [c]) ++ e) ++ r) ++ q) with (x ++ (lit "END:" ++ (n ++ [c]) ++ e) ++ r ++ q) in U by now rewrite <- !app_assoc.
      assert (unfold_lines p = x) as <-. { eapply (only_place (lit "END:" ++ (n ++ [c]) ++ e) _ d); [exact F|exact U| |exact Nd]. intros C. apply Nc. rewrite app_assoc in C. now apply contains_tail in C. }
      apply app_inv_head in U. now apply app_inv_head in U.
    + apply fresh_cut. split; intros [y ->]; [apply Hl; now left|discriminate].
Qed.
Lemma incomplete {A} (read : str -> outcome A) N p s p' q : lettered N -> ~ In SP (end_mark N) -> border_free (end_mark N) ->
  (forall t v, read t = Ok v -> exists x r, unfold_lines t = x ++ end_mark N ++ r) -> closing N p s -> s = p' ++ q -> q <> [] -> forall v, read p' <> Ok v.
Proof.
  intros L Hs F R C Q Nq v H. apply R in H as (x & r & H). apply Nq.
  assert (D : @nil Z = r ++ q) by (eapply (cut_off N [CR; LF] []); eauto using contains_nil; apply contains_nil; discriminate).
  symmetry in D. now apply app_eq_nil in D.
Qed.
Lemma simple_ended {A} name (read : list content_line -> A -> Prop) (f : str -> outcome A) :
  (forall s v, f s = Ok v <-> exists r, simple_text name read (unfold_lines s) v r) -> forall t v, f t = Ok v -> exists x r, unfold_lines t = x ++ end_mark name ++ r.
Proof. intros H t v R. apply H in R as [r R]. apply simple_closes in R as [x R]. eauto. Qed.
Lemma calendar_ended s v : vcalendar_of_str s = Ok v -> exists x r, unfold_lines s = x ++ lit "END:VCALENDAR" ++ r.
Proof.
  intros H. apply C15_calendar_grammar in H as (ls & cs & r & (t & t2 & Ht & L & Q) & _).
  destruct (body_local child_text _ _ _ _ (lit "END:VCALENDAR") [] r child_text_local L Q) as (x & -> & _). exists (lit "BEGIN:VCALENDAR" ++ [CR; LF] ++ x), r. rewrite Ht. rewrite <- !app_assoc. reflexivity.
Qed.
(** The name in the END line of each kind. *)
Definition every_named (P : forall A, (str -> outcome A) -> str -> Prop) : Prop :=
  P _ vevent_of_str (lit "VEVENT") /\ P _ vtodo_of_str (lit "VTODO") /\ P _ vjournal_of_str (lit "VJOURNAL") /\ P _ vfreebusy_of_str (lit "VFREEBUSY") /\
  P _ vtimezone_of_str (lit "VTIMEZONE") /\ P _ standard_of_str (lit "STANDARD") /\ P _ daylight_of_str (lit "DAYLIGHT") /\ P _ valarm_of_str (lit "VALARM").
(** A text whose END line stands at its end, and nowhere before it, is not read when anything is cut
    off it; for a calendar, when more than the end of the END line is. *)
Theorem C97_incomplete :
  every_named (fun A read N => forall p s p' q, closing N p s -> s = p' ++ q -> q <> [] -> forall v, read p' <> Ok v) /\
  (forall p s p' q, closing (lit "VCALENDAR") p s -> s = p' ++ q -> (2 < length q)%nat -> forall v, vcalendar_of_str p' <> Ok v).
Proof.
  split.
  - unfold every_named. repeat (match goal with |- _ /\ _ => split end); intros p s p' q; eapply incomplete;
      try letters; try (intros X; vm_compute in X; intuition discriminate); try (apply no_border_free; reflexivity).
    + intros t v R. apply C15_event_grammar in R as [r R]. apply event_closes in R as [x R]. eauto.
    + eapply simple_ended, C15_todo_grammar.
    + eapply simple_ended, C15_journal_grammar.
    + eapply simple_ended, C15_freebusy_grammar.
    + intros t v R. apply C15_timezone_grammar in R as [r R]. apply timezone_closes in R as [x R]. eauto.
    + eapply simple_ended, C15_standard_grammar.
    + eapply simple_ended, C15_daylight_grammar.
    + eapply simple_ended, C15_alarm_grammar.
  - intros p s p' q C Q Lq v H. apply calendar_ended in H as (x & r & H).
    assert (D : [CR; LF] = r ++ q).
    { eapply (cut_off (lit "VCALENDAR") [] [CR; LF]); try exact C; try exact Q; try exact H; try reflexivity; try letters; try (intros X; vm_compute in X; intuition discriminate).
      - apply no_border_free. reflexivity.
      - intros (a & b & X). destruct a as [|? [|? [|? ?]]]; discriminate. }
    apply (f_equal (@length Z)) in D. rewrite app_length in D. cbn [length] in D. lia.
Qed.
(** So a readable text of this form, cut, is refused. *)
Corollary C97_refused :
  every_named (fun A read N => forall p s v p' q, read s = Ok v -> closing N p s -> s = p' ++ q -> q <> [] -> ~ In QUOTE q -> exists e, read p' = Err e) /\
  (forall p s v p' q, vcalendar_of_str s = Ok v -> closing (lit "VCALENDAR") p s -> s = p' ++ q -> (2 < length q)%nat -> ~ In QUOTE q -> exists e, vcalendar_of_str p' = Err e) /\
  (forall p s v p' q, vcalendar_of_str s = Ok v -> closing (lit "VCALENDAR") p s -> s = p' ++ q -> (length q <= 2)%nat -> vcalendar_of_str p' = Ok v).
Proof.
  destruct C97_incomplete as [I1 I2]. pose proof C97_cut as [C0 C]. split; [|split].
  - unfold every_named in *. 
    assert (G : forall A (read : str -> outcome A) N, (forall p q v, read (p ++ q) = Ok v -> ~ In QUOTE q -> read p = Ok v \/ exists e, read p = Err e) ->
      (forall p s p' q, closing N p s -> s = p' ++ q -> q <> [] -> forall v, read p' <> Ok v) ->
      forall p s v p' q, read s = Ok v -> closing N p s -> s = p' ++ q -> q <> [] -> ~ In QUOTE q -> exists e, read p' = Err e).
    { intros A read N Cu Ic p s v p' q R Cl Q Nq Nu. rewrite Q in R. destruct (Cu _ _ _ R Nu) as [X|X]; auto. exfalso. exact (Ic _ _ _ _ Cl Q Nq _ X). }
    repeat (match goal with |- _ /\ _ => split end); apply G; tauto.
  - intros p s v p' q R Cl Q Lq Nu. rewrite Q in R. destruct (C0 _ _ _ R Nu) as [X|X]; auto. exfalso. exact (I2 _ _ _ _ Cl Q Lq _ X).
  - intros p s v p' q R Cl Q Lq. apply C15_calendar_grammar in R as (ls & cs & r & (t & t2 & Ht & L & Sq) & Hh). set (m := lit "END:VCALENDAR") in *.
    change (m ++ r) with ([] ++ [] ++ m ++ r) in Sq. destruct (body_local child_text _ _ _ _ [] [] _ child_text_local L Sq) as (x & -> & G). cbn [app] in G, Ht.
    assert (U : unfold_lines s = (lit "BEGIN:VCALENDAR" ++ [CR; LF] ++ x) ++ (lit "END:" ++ lit "VCALENDAR" ++ []) ++ r) by (rewrite Ht; unfold m; rewrite <- !app_assoc; reflexivity).
    assert (D : lit "BEGIN:VCALENDAR" ++ [CR; LF] ++ x = unfold_lines p /\ r = [CR; LF]).
    { eapply (closing_place (lit "VCALENDAR") [] [CR; LF]); try exact Cl; try exact U; try reflexivity.
      - apply no_border_free. reflexivity.
      - intros (a & b & X). destruct a as [|? [|? [|? ?]]]; discriminate. }
    destruct D as [D ->]. destruct Cl as [Cl _].
    assert (P : exists e, p' = p ++ m ++ e /\ [CR; LF] = e ++ q).
    { rewrite Cl in Q. change (lit "END:" ++ lit "VCALENDAR" ++ CRLF) with (m ++ [CR; LF]) in Q. rewrite app_assoc in Q. apply split_two in Q as [(l & X & Y)|(l & X & Y)].
      - exists []. destruct l as [|? l]; [|apply (f_equal (@length Z)) in Y; rewrite app_length in Y; cbn [length] in Y; lia].
        rewrite app_nil_r in X. rewrite app_nil_r. split; [now symmetry|symmetry; exact Y].
      - exists l. rewrite X, <- app_assoc. auto. }
    destruct P as (e & -> & Y). destruct (G (m ++ e)) as (t2' & L' & S').
    + intros X. apply in_app_iff in X as [X|X]; [vm_compute in X; intuition discriminate|]. assert (In QUOTE [CR; LF]) by (rewrite Y; apply in_app_iff; auto). vm_compute in H. intuition discriminate.
    + apply C15_calendar_grammar. exists ls, cs, e. split; [|exact Hh]. exists (x ++ m ++ e), t2'. split; [|split; [exact L'|exact S']].
      assert (Hs : ~ In SP (m ++ e)) by (intros X; apply in_app_iff in X as [X|X]; [vm_compute in X; intuition discriminate|]; assert (Z : In SP [CR; LF]) by (rewrite Y; apply in_app_iff; auto); vm_compute in Z; intuition discriminate).
      rewrite unfold_cut by (apply fresh_cut; split; intros [y Z]; discriminate). rewrite (unfold_no_space _ Hs), <- D. now rewrite <- !app_assoc.
Qed.
End Env.
