(** * C91: components written into a file by hand. *)
From Verif Require Import Base Env Nom Types Ser Parser Derive Components BaseFacts NomFacts SpecText SpecLine SpecComp SpecFields SpecFile SpecInput SerFacts LineFacts PropText PropLine PropComp PropFile PropDate PropInput
  ChildFacts SpecAssemble PropAssemble SpecAppend.
(** ** What follows can be replaced by a text without double quotes *)
Definition local {A} (one : str -> A -> str -> Prop) : Prop :=
  forall s a y z, one s a (y ++ z) -> exists x, s = x ++ y ++ z /\ forall r, ~ In QUOTE r -> one (x ++ y ++ r) a (y ++ r).
Lemma is_line_local : local is_line.
Proof.
  intros s c y z (Hb & He & k & t & l & v & e & -> & Hk & Hp & Hv & Hee & <- & <- & Hm).
  replace (cl_value c ++ e ++ y ++ z) with ((cl_value c ++ e ++ y) ++ z) in Hp by now rewrite <- !app_assoc.
  apply params_tail in Hp as (p & -> & Hc & Ht). exists (cl_key c ++ p ++ cl_value c ++ e). split; [assoc|]. intros r Hr.
  assert (B : forall n, ~ In COLON n -> ~ begins (n ++ [COLON]) (cl_key c ++ p ++ (cl_value c ++ e ++ y) ++ z) -> ~ begins (n ++ [COLON]) ((cl_key c ++ p ++ cl_value c ++ e) ++ y ++ r)).
  { intros n Hn G X. apply G. apply colon_in_begins in X as [u Y]; auto; [|rewrite !in_app_iff; auto]. exists (u ++ y ++ z).
    replace (cl_key c ++ p ++ (cl_value c ++ e ++ y) ++ z) with ((cl_key c ++ p ++ cl_value c ++ e) ++ y ++ z) by assoc. rewrite Y. assoc. }
  split; [apply (B (lit "BEGIN")); auto; cbn; unfold COLON; intuition discriminate|]. split; [apply (B (lit "END")); auto; cbn; unfold COLON; intuition discriminate|].
  exists (cl_key c), (p ++ (cl_value c ++ e ++ y) ++ r), l, (cl_value c), e. split; [assoc|]. split; auto. split; [|auto 10].
  specialize (Ht r Hr). replace (cl_value c ++ e ++ y ++ r) with ((cl_value c ++ e ++ y) ++ r) by assoc. exact Ht.
Qed.
Lemma lines_text_local : local lines_text.
Proof.
  intros s ls y z [H F]. enough (G : exists x, s = x ++ y ++ z /\ forall r, ~ In QUOTE r -> is_lines (x ++ y ++ r) ls (y ++ r)).
  { destruct G as (x & A & B). exists x. split; auto. intros r Hr. split; auto. }
  clear F. remember (y ++ z) as t eqn:T. induction H as [s|s c r ls rest H HL IH].
  - subst. exists []. split; [reflexivity|]. intros. constructor.
  - destruct (IH T) as (x & -> & IH'). clear IH. subst rest. rewrite app_assoc in H. apply is_line_local in H as (x0 & -> & H). exists (x0 ++ x). split; [assoc|]. intros r Hr.
    econstructor; [|apply IH', Hr]. specialize (H r Hr). replace ((x0 ++ x) ++ y ++ r) with (x0 ++ (x ++ y) ++ r) by assoc. now replace (x ++ y ++ r) with ((x ++ y) ++ r) by assoc.
Qed.
Lemma seq_text_local {A} (one : str -> A -> str -> Prop) : local one -> local (seq_text one).
Proof.
  intros L s l y z H. remember (y ++ z) as t eqn:T. induction H as [s|s a r l rest H HL IH].
  - subst. exists []. split; [reflexivity|]. intros. constructor.
  - destruct (IH T) as (x & -> & IH'). clear IH. subst rest. rewrite app_assoc in H. apply L in H as (x0 & -> & H). exists (x0 ++ x). split; [assoc|]. intros r Hr.
    econstructor; [|apply IH', Hr]. specialize (H r Hr). replace ((x0 ++ x) ++ y ++ r) with (x0 ++ (x ++ y) ++ r) by assoc. now replace (x ++ y ++ r) with ((x ++ y) ++ r) by assoc.
Qed.
Section Env.
Context {E : Env}.
Lemma simple_text_local {A} name (read : list content_line -> A -> Prop) : local (simple_text name read).
Proof.
  intros s v y z (t & ls & -> & L & R).
  replace (lit "END:" ++ name ++ [CR; LF] ++ y ++ z) with ((lit "END:" ++ name ++ [CR; LF] ++ y) ++ z) in L by assoc. apply lines_text_local in L as (x & -> & L).
  exists (lit "BEGIN:" ++ name ++ [CR; LF] ++ x ++ lit "END:" ++ name ++ [CR; LF]). split; [assoc|]. intros r Hr.
  exists (x ++ (lit "END:" ++ name ++ [CR; LF] ++ y) ++ r), ls. split; [assoc|]. split; [|exact R]. specialize (L r Hr).
  now replace (lit "END:" ++ name ++ [CR; LF] ++ y ++ r) with ((lit "END:" ++ name ++ [CR; LF] ++ y) ++ r) by assoc.
Qed.
(** Lines, then items, then the END line. *)
Lemma body_local {A} (one : str -> A -> str -> Prop) t ls t2 l (w y z : str) : local one -> lines_text t ls t2 -> seq_text one t2 l (w ++ y ++ z) ->
  exists x, t = x ++ w ++ y ++ z /\ forall r, ~ In QUOTE r -> exists t2', lines_text (x ++ w ++ y ++ r) ls t2' /\ seq_text one t2' l (w ++ y ++ r).
Proof.
  intros H1 L H. rewrite app_assoc in H. apply (seq_text_local one H1) in H as (x & -> & H). rewrite app_assoc in L. apply lines_text_local in L as (x0 & -> & L).
  exists (x0 ++ x). split; [assoc|]. intros r Hr. specialize (H r Hr). specialize (L r Hr). exists (x ++ (w ++ y) ++ r). split.
  - replace ((x0 ++ x) ++ w ++ y ++ r) with (x0 ++ (x ++ w ++ y) ++ r) by assoc. now replace (x ++ (w ++ y) ++ r) with ((x ++ w ++ y) ++ r) by assoc.
  - now replace (w ++ y ++ r) with ((w ++ y) ++ r) by assoc.
Qed.
Lemma event_text_local : local event_text.
Proof.
  intros s v y z (t & ls & t2 & v0 & -> & L & Sq & R & V).
  replace (lit "END:VEVENT" ++ [CR; LF] ++ y ++ z) with ((lit "END:VEVENT" ++ [CR; LF]) ++ y ++ z) in Sq by assoc.
  destruct (body_local alarm_text _ _ _ _ _ _ _ (simple_text_local _ _) L Sq) as (x & -> & G).
  exists (lit "BEGIN:VEVENT" ++ [CR; LF] ++ x ++ lit "END:VEVENT" ++ [CR; LF]). split; [assoc|]. intros r Hr. destruct (G r Hr) as (t2' & L' & S').
  exists (x ++ (lit "END:VEVENT" ++ [CR; LF]) ++ y ++ r), ls, t2', v0. split; [assoc|]. auto.
Qed.
Lemma tz_part_local : local tz_part_text.
Proof. intros s [a|a] y z H; cbn [tz_part_text] in *; now apply simple_text_local in H. Qed.
Lemma timezone_text_local : local timezone_text.
Proof.
  intros s v y z (t & ls & t2 & cs & v0 & -> & L & Sq & R & V).
  replace (lit "END:VTIMEZONE" ++ [CR; LF] ++ y ++ z) with ((lit "END:VTIMEZONE" ++ [CR; LF]) ++ y ++ z) in Sq by assoc.
  destruct (body_local tz_part_text _ _ _ _ _ _ _ tz_part_local L Sq) as (x & -> & G).
  exists (lit "BEGIN:VTIMEZONE" ++ [CR; LF] ++ x ++ lit "END:VTIMEZONE" ++ [CR; LF]). split; [assoc|]. intros r Hr. destruct (G r Hr) as (t2' & L' & S').
  exists (x ++ (lit "END:VTIMEZONE" ++ [CR; LF]) ++ y ++ r), ls, t2', cs, v0. split; [assoc|]. auto.
Qed.
Lemma child_text_local : local child_text.
Proof. intros s [] y z H; cbn [child_text] in *; first [now apply simple_text_local in H|now apply event_text_local in H|now apply timezone_text_local in H]. Qed.
(** ** The END line is found where it is *)
(** No end of [p] is a start of it, but itself. *)
Definition border_free (p : str) : Prop := forall a b c, p = a ++ b -> p = b ++ c -> b = [] \/ a = [].
Definition no_border (p : str) : bool := forallb (fun k => negb (str_eqb (skipn k p) (firstn (length p - k) p))) (seq 1 (length p - 1)).
Lemma no_border_free p : no_border p = true -> border_free p.
Proof.
  unfold no_border. intros H a b c Ha Hb. rewrite forallb_forall in H. destruct a as [|a0 a]; [now right|]. destruct b as [|b0 b]; [now left|]. exfalso.
  assert (L : length p = (length (a0 :: a) + length (b0 :: b))%nat) by (rewrite Ha, app_length; reflexivity).
  specialize (H (length (a0 :: a))). cbn beta in H. assert (I : In (length (a0 :: a)) (seq 1 (length p - 1))) by (apply in_seq; cbn [length] in *; lia).
  specialize (H I). apply Bool.negb_true_iff in H. rewrite Ha in H at 1. rewrite skipn_app, skipn_all, Nat.sub_diag in H. cbn [skipn app] in H.
  replace (length p - length (a0 :: a))%nat with (length (b0 :: b)) in H by lia. rewrite Hb in H. rewrite firstn_app, firstn_all, Nat.sub_diag in H. cbn [firstn] in H. rewrite app_nil_r in H.
  assert (X : str_eqb (b0 :: b) (b0 :: b) = true) by (now apply str_eqb_eq). congruence.
Qed.
Lemma split_two {X} (a b c d : list X) : a ++ b = c ++ d -> (exists l, a = c ++ l /\ d = l ++ b) \/ (exists l, c = a ++ l /\ b = l ++ d).
Proof.
  revert c; induction a as [|x a IH]; intros [|y c] H; cbn in H.
  - left. exists []. auto.
  - right. exists (y :: c). auto.
  - left. exists (x :: a). auto.
  - injection H as -> H. destruct (IH _ H) as [(l & -> & ->)|(l & -> & ->)]; [left|right]; exists l; auto.
Qed.
Lemma shift_free p l b y : border_free p -> p ++ y = l ++ p ++ b -> l = [] \/ contains p l.
Proof.
  intros F H. apply split_two in H as [(m & Hp & Hq)|(m & Hp & Hq)].
  - (* p = l ++ m, m ++ y = p ++ b *) symmetry in Hq. apply split_two in Hq as [(n & Hm & _)|(n & Hm & _)].
    + (* m = p ++ n *) left. apply (f_equal (@length _)) in Hp. apply (f_equal (@length _)) in Hm. rewrite app_length in *. destruct l; auto. cbn in *. lia.
    + (* p = m ++ n *) destruct (F l m n Hp Hm) as [->| ->]; [right; exists [], []; rewrite app_nil_r in *; now subst|now left].
  - right. exists [], m. now subst.
Qed.
Lemma only_place p a b x y : border_free p -> a ++ p ++ b = x ++ p ++ y -> ~ contains p a -> ~ contains p b -> a = x.
Proof.
  intros F H Ha Hb. apply split_two in H as [(l & -> & H)|(l & -> & H)].
  - destruct (shift_free _ _ _ _ F H) as [->|(u & v & ->)]; [now rewrite app_nil_r|]. exfalso. apply Ha. exists (x ++ u), v. now rewrite <- app_assoc.
  - pose proof (shift_free _ _ _ _ F H) as [->|(u & v & ->)]; [now rewrite app_nil_r|]. exfalso. apply Hb.
    (* l = u ++ p ++ v, p ++ b = l ++ p ++ y *)
    assert (Q : (length p <= length (u ++ p ++ v))%nat) by (rewrite !app_length; lia).
    apply split_two in H as [(m & Hp & Hq)|(m & Hp & Hq)]; [|now exists m, y].
    assert (m = []) as -> by (apply (f_equal (@length _)) in Hp; rewrite app_length in Hp; destruct m; auto; cbn [length] in Hp; lia).
    cbn [app] in Hq. subst b. exists [], y. reflexivity.
Qed.
Definition end_mark (name : str) : str := lit "END:" ++ name ++ [CR; LF].
Lemma contains_tail a b s : contains (a ++ b) s -> contains a s.
Proof. intros (x & y & ->). exists x, (b ++ y). now rewrite <- !app_assoc. Qed.
Lemma closing_place name e d p s x r : e ++ d = [CR; LF] -> border_free (lit "END:" ++ name ++ e) -> ~ contains (lit "END:" ++ name ++ e) d ->
  unfold_lines (end_mark name) = end_mark name -> closing name p s ->
  unfold_lines s = x ++ (lit "END:" ++ name ++ e) ++ r -> x = unfold_lines p /\ r = d.
Proof.
  intros Hd F Nd U [-> N] H.
  assert (Q : unfold_lines (p ++ lit "END:" ++ name ++ CRLF) = unfold_lines p ++ (lit "END:" ++ name ++ e) ++ d).
  { change (lit "END:" ++ name ++ CRLF) with (end_mark name). rewrite unfold_cut, U; [|apply fresh_cut; split; intros [z Z]; discriminate].
    unfold end_mark. rewrite <- Hd. assoc. }
  rewrite Q in H. assert (X : unfold_lines p = x).
  { eapply (only_place (lit "END:" ++ name ++ e) _ d); [exact F|exact H| |exact Nd].
    intros C. apply N. rewrite app_assoc in C. now apply contains_tail in C. }
  subst x. split; auto. apply app_inv_head in H. apply app_inv_head in H. now symmetry.
Qed.
Lemma contains_nil p : p <> [] -> ~ contains p [].
Proof. intros N (u & v & C). destruct u; [|discriminate]. destruct p; [congruence|discriminate]. Qed.
Lemma closing_place_line name p s x r : border_free (end_mark name) -> unfold_lines (end_mark name) = end_mark name -> closing name p s ->
  unfold_lines s = x ++ end_mark name ++ r -> x = unfold_lines p /\ r = [].
Proof. intros F U C H. eapply (closing_place name [CR; LF] []); eauto. apply contains_nil. discriminate. Qed.
Lemma simple_closes {A} name (read : list content_line -> A -> Prop) s v r : simple_text name read s v r -> exists x, s = x ++ end_mark name ++ r.
Proof.
  intros (t & ls & -> & L & _). destruct (lines_text_local _ _ [] _ L) as (x & -> & _). exists (lit "BEGIN:" ++ name ++ [CR; LF] ++ x). unfold end_mark. cbn [app]. assoc.
Qed.
Lemma event_closes s v r : event_text s v r -> exists x, s = x ++ end_mark (lit "VEVENT") ++ r.
Proof.
  intros (t & ls & t2 & v0 & -> & L & Sq & _). destruct (body_local alarm_text _ _ _ _ (end_mark (lit "VEVENT")) [] r (simple_text_local _ _) L Sq) as (x & -> & _).
  exists (lit "BEGIN:VEVENT" ++ [CR; LF] ++ x). cbn [app]. assoc.
Qed.
Lemma timezone_closes s v r : timezone_text s v r -> exists x, s = x ++ end_mark (lit "VTIMEZONE") ++ r.
Proof.
  intros (t & ls & t2 & cs & v0 & -> & L & Sq & _). destruct (body_local tz_part_text _ _ _ _ (end_mark (lit "VTIMEZONE")) [] r tz_part_local L Sq) as (x & -> & _).
  exists (lit "BEGIN:VTIMEZONE" ++ [CR; LF] ++ x). cbn [app]. assoc.
Qed.
Lemma child_closes s c r : child_text s c r -> exists x, s = x ++ end_mark (name_of c) ++ r.
Proof. destruct c; cbn [child_text name_of]; first [apply simple_closes|apply event_closes|apply timezone_closes]. Qed.
Lemma part_closes s c r : tz_part_text s c r -> exists x, s = x ++ end_mark (part_name c) ++ r.
Proof. destruct c; cbn [tz_part_text part_name]; apply simple_closes. Qed.
Lemma child_mark c : border_free (end_mark (name_of c)) /\ unfold_lines (end_mark (name_of c)) = end_mark (name_of c).
Proof. destruct c; (split; [apply no_border_free; reflexivity|reflexivity]). Qed.
Lemma part_mark c : border_free (end_mark (part_name c)) /\ unfold_lines (end_mark (part_name c)) = end_mark (part_name c).
Proof. destruct c; (split; [apply no_border_free; reflexivity|reflexivity]). Qed.
Lemma whole_child_text o c : whole_child o c -> child_text (unfold_lines o) c [] /\ ~ In QUOTE o.
Proof.
  intros (L & (p & C) & Q). split; auto. apply child_loads_iff in L as [r L]. destruct (child_closes _ _ _ L) as (x & X). destruct (child_mark c) as [F U].
  destruct (closing_place_line _ _ _ _ _ F U C X) as (_ & ->). exact L.
Qed.
Lemma whole_part_text o c : whole_part o c -> tz_part_text (unfold_lines o) c [] /\ ~ In QUOTE o.
Proof.
  intros (L & (p & C) & Q). split; auto. apply part_loads_iff in L as [r L]. destruct (part_closes _ _ _ L) as (x & X). destruct (part_mark c) as [F U].
  destruct (closing_place_line _ _ _ _ _ F U C X) as (_ & ->). exact L.
Qed.
(** ** More items before the END line *)
Lemma begins_fresh o : begins (lit "BEGIN:") (unfold_lines o) -> fresh o.
Proof.
  intros [r H]. split; intros [z ->]; [change ([SP] ++ z) with (SP :: z) in H|change ([LF] ++ z) with (LF :: z) in H]; rewrite unfold_step in H by (intros s Q; discriminate); discriminate.
Qed.
Lemma more_text {A} (one : str -> A -> str -> Prop) outs l tail : (forall u, ~ In QUOTE u -> forall s a r, one s a r -> one (s ++ u) a (r ++ u)) ->
  (forall s a r, one s a r -> begins (lit "BEGIN:") s) -> Forall2 (fun o a => one (unfold_lines o) a [] /\ ~ In QUOTE o) outs l ->
  fresh tail -> ~ In QUOTE tail -> fresh (concat outs ++ tail) /\ ~ In QUOTE (concat outs ++ tail) /\
  seq_text one (unfold_lines (concat outs ++ tail)) l (unfold_lines tail).
Proof.
  intros M B F Ft Qt. induction F as [|o a outs l [H Q] F (IF & IQ & IH)]; cbn [concat app]; [split; auto; split; auto; constructor|].
  rewrite <- app_assoc. assert (Fo : fresh o) by (eapply begins_fresh, B; exact H).
  assert (N : o <> []) by (intros ->; apply B in H as [r H]; discriminate). split; [|split].
  - destruct o as [|c o]; [congruence|]. destruct Fo as [F1 F2]. split; intros [z Z]; cbn in Z; injection Z as -> _; [apply F1|apply F2]; now exists o.
  - rewrite in_app_iff. tauto.
  - rewrite unfold_cut by now apply fresh_cut. econstructor; [|exact IH]. apply (M (unfold_lines (concat outs ++ tail))) in H; [exact H|]. intros X. apply unfold_in in X. contradiction.
Qed.
Lemma end_fresh n : fresh (lit "END:" ++ n). Proof. split; intros [z Z]; discriminate. Qed.
Lemma seq_text_app {A} (one : str -> A -> str -> Prop) s l t l' r : seq_text one s l t -> seq_text one t l' r -> seq_text one s (l ++ l') r.
Proof. induction 1; auto. intros. cbn [app]. econstructor; eauto. Qed.
(** A container whose lines and items are followed by its END line. *)
Lemma container_more {A} (one : str -> A -> str -> Prop) name e d p s t ls t2 l outs l' r :
  local one -> (forall u, ~ In QUOTE u -> forall s a r, one s a r -> one (s ++ u) a (r ++ u)) -> (forall s a r, one s a r -> begins (lit "BEGIN:") s) ->
  e ++ d = [CR; LF] -> border_free (lit "END:" ++ name ++ e) -> ~ contains (lit "END:" ++ name ++ e) d ->
  unfold_lines (end_mark name) = end_mark name -> ~ In QUOTE (end_mark name) ->
  closing name p s -> unfold_lines s = lit "BEGIN:" ++ name ++ [CR; LF] ++ t -> lines_text t ls t2 -> seq_text one t2 l ((lit "END:" ++ name ++ e) ++ r) ->
  Forall2 (fun o a => one (unfold_lines o) a [] /\ ~ In QUOTE o) outs l' ->
  exists t' t2', unfold_lines (p ++ concat outs ++ lit "END:" ++ name ++ CRLF) = lit "BEGIN:" ++ name ++ [CR; LF] ++ t' /\ lines_text t' ls t2' /\ seq_text one t2' (l ++ l') (end_mark name).
Proof.
  intros HL HM HB Hd F Nd U Qn C Hs L Sq Fo. set (m := lit "END:" ++ name ++ e) in *.
  change (m ++ r) with ([] ++ [] ++ m ++ r) in Sq. destruct (body_local one _ _ _ _ [] [] _ HL L Sq) as (x & -> & G). cbn [app] in G, Hs.
  replace (lit "BEGIN:" ++ name ++ CR :: LF :: x ++ m ++ r) with ((lit "BEGIN:" ++ name ++ [CR; LF] ++ x) ++ m ++ r) in Hs by assoc.
  destruct (closing_place name e d p s _ r Hd F Nd U C Hs) as (Hp & ->).
  destruct (more_text one outs l' (end_mark name) HM HB Fo (end_fresh _) Qn) as (Ft & Qt & S2). rewrite U in S2.
  assert (Q2 : ~ In QUOTE (unfold_lines (concat outs ++ end_mark name))) by (intros X; now apply unfold_in in X).
  destruct (G _ Q2) as (t2' & L' & S1). exists (x ++ unfold_lines (concat outs ++ end_mark name)), t2'. split; [|split; [exact L'|]].
  - change (lit "END:" ++ name ++ CRLF) with (end_mark name). rewrite unfold_cut by now apply fresh_cut. rewrite <- Hp. assoc.
  - eapply seq_text_app; eauto.
Qed.
Lemma F2_mono {X Y} (R R' : X -> Y -> Prop) l m : (forall x y, R x y -> R' x y) -> Forall2 R l m -> Forall2 R' l m.
Proof. intros H. induction 1; constructor; auto. Qed.
Theorem C91_event : forall s p v outs l, vevent_of_str s = Ok v -> closing (lit "VEVENT") p s -> Forall2 whole_alarm outs l ->
  vevent_of_str (p ++ concat outs ++ lit "END:" ++ lit "VEVENT" ++ CRLF) = Ok (event_more v l).
Proof.
  intros s p v outs l H C F. apply C15_event_grammar in H as (r & t & ls & t2 & v0 & Ht & L & Sq & R & V).
  destruct (child_mark (CEvent v)) as [B U]. cbn [name_of] in B, U.
  destruct (container_more alarm_text (lit "VEVENT") [CR; LF] [] p s t ls t2 (ev_alarms v) outs l r) as (t' & t2' & Ht' & L' & S'); auto.
  - apply simple_text_local.
  - intros u Hu. now apply simple_text_more.
  - intros ? ? ?. apply simple_head.
  - apply contains_nil. discriminate.
  - intros X. vm_compute in X. intuition discriminate.
  - eapply F2_mono; [|exact F]. intros o a W. apply whole_child_text in W. exact W.
  - apply C15_event_grammar. exists [], t', ls, t2', v0. rewrite Ht'. split; [reflexivity|]. split; [exact L'|]. split; [exact S'|]. split; [exact R|]. rewrite V. clear. destruct v0; reflexivity.
Qed.
Theorem C91_timezone : forall s p v outs l, vtimezone_of_str s = Ok v -> closing (lit "VTIMEZONE") p s -> Forall2 whole_part outs l ->
  vtimezone_of_str (p ++ concat outs ++ lit "END:" ++ lit "VTIMEZONE" ++ CRLF) = Ok (timezone_more v l).
Proof.
  intros s p v outs l H C F. apply C15_timezone_grammar in H as (r & t & ls & t2 & cs & v0 & Ht & L & Sq & R & V & W1 & W2).
  destruct (child_mark (CTimezone v)) as [B U]. cbn [name_of] in B, U.
  destruct (container_more tz_part_text (lit "VTIMEZONE") [CR; LF] [] p s t ls t2 cs outs l r) as (t' & t2' & Ht' & L' & S'); auto.
  - apply tz_part_local.
  - intros u Hu ? [] ? ?; now apply simple_text_more.
  - apply tz_part_head.
  - apply contains_nil. discriminate.
  - intros X. vm_compute in X. intuition discriminate.
  - eapply F2_mono; [|exact F]. intros o a W. now apply whole_part_text.
  - apply C15_timezone_grammar. exists [], t', ls, t2', (cs ++ l), v0. rewrite Ht'. split; [reflexivity|]. split; [exact L'|]. split; [exact S'|]. split; [exact R|].
    unfold timezone_more. rewrite W1, W2. rewrite !flat_map_app. split; [|split; reflexivity]. rewrite V. clear. destruct v0; reflexivity.
Qed.
Theorem C91_calendar : forall s p v outs cs, vcalendar_of_str s = Ok v -> closing (lit "VCALENDAR") p s -> Forall2 whole_child outs cs ->
  vcalendar_of_str (p ++ concat outs ++ lit "END:" ++ lit "VCALENDAR" ++ CRLF) = Ok (calendar_more v cs).
Proof.
  intros s p v outs cs H C F. apply C15_calendar_grammar in H as (ls & cs0 & r & (t & t2 & Ht & L & Sq) & Hh).
  destruct (container_more child_text (lit "VCALENDAR") [] [CR; LF] p s t ls t2 cs0 outs cs r) as (t' & t2' & Ht' & L' & S'); auto.
  - apply child_text_local.
  - intros u Hu ? ? ?. now apply child_text_more.
  - intros ? c ? X. apply child_head in X as [z ->]. destruct c; cbn [head_of]; (eexists; cbn [lit app]; reflexivity).
  - apply no_border_free. reflexivity.
  - intros (a & b & X). destruct a as [|? [|? [|? ?]]]; discriminate.
  - intros X. vm_compute in X. intuition discriminate.
  - eapply F2_mono; [|exact F]. intros o a W. now apply whole_child_text.
  - apply C15_calendar_grammar. exists ls, (cs0 ++ cs), [CR; LF]. split; [exists t', t2'; split; [exact Ht'|split; [exact L'|exact S']]|].
    destruct Hh as (A1 & A2 & A3 & A4 & A5 & A6 & v0 & R & B). unfold calendar_more, calendar_holds.
    cbn [ca_alarms ca_events ca_freebusy ca_journals ca_timezones ca_todo ca_prodid ca_version ca_calscale ca_method ca_x_prop ca_iana_prop].
    unfold alarms_of, events_of, freebusy_of, journals_of, timezones_of, todos_of in *. rewrite !flat_map_app, A1, A2, A3, A4, A5, A6. repeat (split; [reflexivity|]). exists v0. tauto.
Qed.
End Env.
