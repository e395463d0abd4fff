(** * C54: components with alarms or with several children of a kind *)
From Verif Require Import Base Env Chrono Nom Types Ser Parser Derive BaseFacts NomFacts SpecLine LineFacts SpecText SerFacts PropText PropLine
  SpecCal SpecDur PropVocab PropRule PropPeriod PropList Components SpecComp DeriveFacts SpecFields PropComp SpecFile PropFile SpecRound RoundFacts FrameFacts BackFacts FieldFacts ChildFacts CalFacts AlarmFacts PropRound SpecLoss LossFacts PropLoss PropOrder SpecCrowd JunkFacts CrowdFacts.

Section Env.
Context {E : Env}.
(** ** The two notions of crowded *)
Lemma several_iff {A} (l : list A) : several l <-> (2 <=? length l)%nat = true.
Proof.
  rewrite Nat.leb_le. split; [intros (x & y & r & ->); cbn; lia|]. destruct l as [|x [|y r]]; cbn; try lia. intros _. unfold several. eauto.
Qed.
Lemma has_alarm_iff v : has_alarm v = true <-> event_crowded v.
Proof. unfold has_alarm, event_crowded. destruct (ev_alarms v); split; congruence. Qed.
Lemma tz_crowd_iff v : tz_crowd v = true <-> timezone_crowded v.
Proof. unfold tz_crowd, timezone_crowded. now rewrite orb_true_iff, <- !several_iff. Qed.
Lemma ca_crowd_iff v : ca_crowd v = true <-> calendar_crowded v.
Proof.
  unfold ca_crowd, calendar_crowded. rewrite !orb_true_iff, <- !several_iff, !existsb_exists. setoid_rewrite has_alarm_iff. setoid_rewrite tz_crowd_iff.
  assert (X : match ca_alarms v with [] => false | _ => true end = true <-> ca_alarms v <> []) by (destruct (ca_alarms v); split; congruence). rewrite X. tauto.
Qed.
Ltac far := let r := fresh in let H := fresh in intros [r H]; vm_compute in H; discriminate.

(** ** Never read back *)
Theorem C54_event_with_alarms : forall v out,
  event_tidy v -> event_crowded v -> s_ical ser_vevent v = Ok out -> forall w, vevent_of_str out <> Ok w.
Proof.
  intros v out T K H w P. apply C15_event_grammar in P as (rest & P). apply event_walk in P.
  pose proof (event_framed (lit "VEVENT") v out ltac:(far) T H) as F. rewrite (proj2 (has_alarm_iff v) K) in F.
  revert P. apply framed_never; [now apply lit_no_eol|exact F].
Qed.
Theorem C54_timezone_with_several : forall v out,
  timezone_tidy v -> timezone_crowded v -> s_ical ser_vtimezone v = Ok out -> forall w, vtimezone_of_str out <> Ok w.
Proof.
  intros v out T K H w P. apply C15_timezone_grammar in P as (rest & P). apply timezone_walk in P.
  pose proof (timezone_framed (lit "VTIMEZONE") v out ltac:(far) ltac:(far) T H) as F. rewrite (proj2 (tz_crowd_iff v) K) in F.
  revert P. apply framed_never; [now apply lit_no_eol|exact F].
Qed.
Theorem C54_calendar_with_several : forall v out,
  calendar_tidy v -> calendar_crowded v -> s_ical ser_vcalendar v = Ok out -> forall w, vcalendar_of_str out <> Ok w.
Proof.
  intros v out T K H w P. apply C15_calendar_grammar in P as (ls & cs & rest & P & _). apply calendar_walk in P.
  pose proof (calendar_framed (lit "VCALENDAR") v out ltac:(far) ltac:(far) ltac:(far) ltac:(far) ltac:(far) ltac:(far) ltac:(far) ltac:(far) T H) as F.
  rewrite (proj2 (ca_crowd_iff v) K) in F. revert P. apply framed_never; [now apply lit_no_eol|exact F].
Qed.

(** ** A timezone with extension properties after its parts, in a calendar *)
Lemma seq_dead {A} (one : str -> A -> str -> Prop) ps out rest : (forall s a r, one s a r -> begins (lit "BEGIN:") s) ->
  Forall (fun p => piece one (fst p) (snd p)) ps -> piece one (fun _ => False) out -> not_continuation rest ->
  not_continuation (concat (map snd ps) ++ out ++ rest) /\ begins (lit "BEGIN:") (unfold_lines (concat (map snd ps) ++ out ++ rest)) /\
  forall l r, seq_text one (unfold_lines (concat (map snd ps) ++ out ++ rest)) l r -> ~ begins (lit "END:") r.
Proof.
  intros H1 H Ho Hr. induction H as [|[C o] ps Hp H IH]; cbn [map concat fst snd].
  - cbn [app]. destruct (Ho _ Hr) as (N & B & P). split; auto. split; auto. intros l r S Er. inversion S as [s0|s0 a r1 l0 rest0 X Y]; subst.
    + eapply (heads (lit "BEGIN:") (lit "END:")); [reflexivity|exact B|exact Er].
    + apply P in X as [[] _].
  - destruct IH as (N & _ & Q). cbn [fst snd] in Hp. rewrite <- app_assoc. destruct (Hp _ N) as (N' & B & P). split; auto. split; auto.
    intros l r S Er. inversion S as [s0|s0 a r1 l0 rest0 X Y]; subst.
    + eapply (heads (lit "BEGIN:") (lit "END:")); [reflexivity|exact B|exact Er].
    + apply P in X as [_ ->]. now apply (Q _ _ Y).
Qed.
Lemma dead_timezone v out : timezone_tidy v -> ~ timezone_crowded v -> timezone_trailing v -> s_ical ser_vtimezone v = Ok out -> piece child_text (fun _ => False) out.
Proof.
  intros (T & F1 & F2) NC [K X] H rest Hr. cbn [s_ical ser_vtimezone ser_iso] in H. apply comp_parts in H as (b & x & i & B & Hx & Hi & ->).
  assert (L1 : (length (tz_standard v) <= 1)%nat). { destruct (Nat.leb_spec 2 (length (tz_standard v))); [|lia]. exfalso. apply NC. left. apply several_iff. now apply Nat.leb_le. }
  assert (L2 : (length (tz_daylight v) <= 1)%nat). { destruct (Nat.leb_spec 2 (length (tz_daylight v))); [|lia]. exfalso. apply NC. right. apply several_iff. now apply Nat.leb_le. }
  apply tz_ser in B as (h & s & d & B & Hs & Hd & ->). cbn [c_xprop c_iana vtimezone_to] in *.
  destruct (vec_child ser_standard (lit "STANDARD") _ _ _ eq_refl L1 Hs) as (os & Fs & ->).
  destruct (vec_child ser_daylight (lit "DAYLIGHT") _ _ _ eq_refl L2 Hd) as (od & Fd & ->).
  destruct (pieces_of tz_part_text is_standard _ _ _ Fs) as (p1 & A1 & A2 & A3).
  { intros y o Hy Ho. rewrite Forall_forall in F1. apply standard_part. apply standard_block; auto. }
  destruct (pieces_of tz_part_text is_daylight _ _ _ Fd) as (p2 & B1 & B2 & B3).
  { intros y o Hy Ho. rewrite Forall_forall in F2. apply daylight_part. apply daylight_block; auto. }
  pose proof (fields_lines_reads _ _ _ _ tz_line_names (tz_line_ok v T) B) as R1.
  unfold vtimezone_tidy in T. destruct T as (_ & _ & _ & T1 & T2).
  pose proof (reads_app _ _ _ _ (item_reads_as _ _ _ _ _ name_ok_x (item_ext _ _ T1) Hx) (item_reads_as _ _ _ _ _ name_ok_i (item_ext _ _ T2) Hi)) as R2.
  rewrite <- !app_assoc. split; [apply (nc_begin (lit "VTIMEZONE"))|].
  assert (U : begins (lit "BEGIN:VTIMEZONE" ++ [CR; LF]) (unfold_lines (lit "BEGIN:" ++ lit "VTIMEZONE" ++ CRLF ++ h ++ concat os ++ concat od ++ x ++ i ++ lit "END:" ++ lit "VTIMEZONE" ++ CRLF ++ rest))).
  { unfold CRLF at 1. destruct (reads_lines (x ++ i) _ (lit "END:" ++ lit "VTIMEZONE" ++ CRLF ++ rest) R2 (nc_end _ _)) as [Nc _].
    assert (FP : Forall (fun p => piece tz_part_text (fst p) (snd p)) (p1 ++ p2)) by (apply Forall_app; auto).
    assert (N : not_continuation (concat (map snd (p1 ++ p2)) ++ (x ++ i) ++ lit "END:" ++ lit "VTIMEZONE" ++ CRLF ++ rest)).
    { clear -FP Nc. induction FP as [|[C o] ps Hp H IH]; cbn [map concat fst snd]; [exact Nc|]. rewrite <- app_assoc. apply Hp, IH. }
    rewrite map_app, concat_app, A2, B2, <- ?app_assoc in N. destruct (reads_lines h _ _ R1 N) as [N2 _]. rewrite begin_line by (auto; apply vtimezone_upper). eexists. reflexivity. }
  split; [destruct U as [r ->]; eexists; reflexivity|]. intros c r. split; [|intros [[] _]]. intros P. destruct c; cbn [child_text] in P;
    try (exfalso; match goal with
      | P : event_text _ _ _ |- _ => destruct P as (tt0 & ls0 & tt2 & v0 & P & _)
      | P : _ |- _ => destruct P as (tt0 & ls0 & P & _) end; rewrite P in U; destruct U as [r0 U]; vm_compute in U; discriminate).
  destruct P as (tb & ls & t2 & cs & v0 & P & L & S & _). exfalso.
  refine (lines_after tz_part_text (lit "VTIMEZONE") _ h (p1 ++ p2) (x ++ i) _ rest tz_part_head vtimezone_upper R1 (proj2 (Forall_app _ _ _) (conj A3 B3)) _ R2 (some_ext _ _ X) tb ls t2 cs _ _ L S _).
  - intros Z. apply app_eq_nil in Z as [-> ->]. cbn [map] in *. destruct K as [K|K]; apply K; [destruct (tz_standard v)|destruct (tz_daylight v)]; auto; discriminate.
  - rewrite map_app, concat_app, A2, B2, <- ?app_assoc. exact P.
  - apply (begins_app (lit "END:")).
Qed.
Lemma not_several {A} (l : list A) : ~ several l -> (length l <= 1)%nat.
Proof. intros H. destruct (Nat.leb_spec 2 (length l)); [|lia]. exfalso. apply H. apply several_iff. now apply Nat.leb_le. Qed.
Lemma no_alarm v : event_tidy v -> ~ event_crowded v -> vevent_tidy v.
Proof.
  intros [T _] H. unfold event_crowded in H. assert (X : ev_alarms v = []) by (destruct (ev_alarms v); auto; exfalso; apply H; discriminate).
  replace (set_ev_alarms v []) with v in T; [exact T|]. rewrite <- X. clear. destruct v. reflexivity.
Qed.
Lemma calm_calendar v : calendar_tidy v -> ~ calendar_crowded v ->
  vcalendar_tidy v /\ one_each v /\ Forall vevent_tidy (ca_events v) /\ Forall vfreebusy_tidy (ca_freebusy v) /\
  Forall vjournal_tidy (ca_journals v) /\ Forall vtodo_tidy (ca_todo v) /\ Forall timezone_tidy (ca_timezones v) /\ Forall (fun z => ~ timezone_crowded z) (ca_timezones v).
Proof.
  intros (T & _ & F1 & F2 & F3 & F4 & F5) NC. unfold calendar_crowded in NC. split; auto. split; [|split; [|split; [auto|split; [auto|split; [auto|split; [auto|]]]]]].
  - split; [destruct (ca_alarms v); auto; exfalso; apply NC; left; discriminate|]. repeat split; apply not_several; tauto.
  - rewrite Forall_forall in *. intros e He. apply no_alarm; auto. intros K. apply NC. do 6 right. left. eauto.
  - rewrite Forall_forall. intros z Hz K. apply NC. do 7 right. eauto.
Qed.
Lemma calm_timezone v : timezone_tidy v -> ~ timezone_crowded v -> ~ timezone_trailing v -> vtimezone_fit v.
Proof.
  intros (T & F1 & F2) NC NT. split; auto. split; [split; apply not_several; intros K; apply NC; unfold timezone_crowded; tauto|]. split; auto. split; auto.
  unfold timezone_trailing, childless_tz in *. destruct (tz_standard v), (tz_daylight v), (tz_x_prop v), (tz_iana_prop v); auto; exfalso; apply NT; split;
    solve [left; discriminate|right; discriminate].
Qed.
Lemma trailing_dec v : timezone_trailing v \/ ~ timezone_trailing v.
Proof.
  unfold timezone_trailing. destruct (tz_standard v), (tz_daylight v), (tz_x_prop v), (tz_iana_prop v);
    first [left; split; solve [left; discriminate|right; discriminate]|right; intros [[|] [|]]; congruence].
Qed.
Theorem C55_calendar_of_timezone_with_extension : forall v out, calendar_tidy v -> ~ calendar_crowded v ->
  (exists z, In z (ca_timezones v) /\ timezone_trailing z) -> s_ical ser_vcalendar v = Ok out -> forall w, vcalendar_of_str out <> Ok w.
Proof.
  intros v out T0 NC (z & Iz & Tz) H w P. destruct (calm_calendar v T0 NC) as (T & (L0 & L1 & L2 & L3 & L4 & L5) & F1 & F2 & F3 & F4 & F5 & F6).
  cbn [s_ical ser_vcalendar ser_iso] in H. apply comp_parts in H as (b & x & i & B & Hx & Hi & ->).
  apply ca_ser in B as (h & xa & xe & xf & xj & xt & xz & B & Ha & He & Hf & Hj & Ht & Hz & ->). cbn [c_xprop c_iana vcalendar_to] in *.
  rewrite L0 in Ha. cbn [vec_field] in Ha. rewrite (C01_empty_value _ (ser_vec ser_valarm) (lit "ALARMS") []) in Ha by reflexivity. injection Ha as <-.
  destruct (vec_child ser_vevent (lit "VEVENT") _ _ _ eq_refl L1 He) as (oe & Ge & ->).
  destruct (pieces_of child_text is_vevent _ _ _ Ge) as (pe & Ae & Be & Ce).
  { intros y o Hy Ho. rewrite Forall_forall in F1. apply vevent_child; auto. }
  destruct (vec_child ser_vfreebusy (lit "VFREEBUSY") _ _ _ eq_refl L2 Hf) as (of & Gf & ->).
  destruct (pieces_of child_text is_vfreebusy _ _ _ Gf) as (pf & Af & Bf & Cf).
  { intros y o Hy Ho. rewrite Forall_forall in F2. apply vfreebusy_child; auto. }
  destruct (vec_child ser_vjournal (lit "VJOURNAL") _ _ _ eq_refl L3 Hj) as (oj & Gj & ->).
  destruct (pieces_of child_text is_vjournal _ _ _ Gj) as (pj & Aj & Bj & Cj).
  { intros y o Hy Ho. rewrite Forall_forall in F3. apply vjournal_child; auto. }
  destruct (vec_child ser_vtodo (lit "VTODO") _ _ _ eq_refl L4 Ht) as (ot & Gt & ->).
  destruct (pieces_of child_text is_vtodo _ _ _ Gt) as (pt & At & Bt & Ct).
  { intros y o Hy Ho. rewrite Forall_forall in F4. apply vtodo_child; auto. }
  destruct (vec_child ser_vtimezone (lit "VTIMEZONE") _ _ _ eq_refl L5 Hz) as (oz & Gz & ->).
  assert (D : piece child_text (fun _ => False) (concat oz)).
  { destruct (ca_timezones v) as [|z0 [|z1 l]]; cbn [length] in *; try lia; [destruct Iz|]. destruct Iz as [->|[]]. inversion Gz as [|? o ? ? Ho Gn]; subst. inversion Gn; subst.
    cbn [concat]. rewrite app_nil_r. apply Forall_inv in F5. apply Forall_inv in F6. now apply (dead_timezone z). }
  pose proof (fields_lines_reads _ _ _ _ ca_line_names (ca_line_ok v T) B) as R1.
  unfold vcalendar_tidy in T. destruct T as (_ & _ & _ & _ & T1 & T2).
  pose proof (reads_app _ _ _ _ (item_reads_as _ _ _ _ _ name_ok_x (item_ext _ _ T1) Hx) (item_reads_as _ _ _ _ _ name_ok_i (item_ext _ _ T2) Hi)) as R2.
  assert (FP : Forall (fun p => piece child_text (fst p) (snd p)) (pe ++ pf ++ pj ++ pt)) by (repeat (apply Forall_app; split); auto).
  apply C15_calendar_grammar in P as (ls & cs & rest & (t & t2 & U & L & S) & _).
  destruct (reads_lines (x ++ i) _ (lit "END:" ++ lit "VCALENDAR" ++ CRLF) R2 (nc_end _ _)) as [Nc _].
  destruct (seq_dead child_text _ _ _ child_begin FP D Nc) as (N & Bg & Q).
  destruct (reads_lines h _ _ R1 N) as [N2 Lh].
  rewrite !map_app, !concat_app, Be, Bf, Bj, Bt in *. rewrite <- ?app_assoc in *. cbn [app] in U.
  unfold CRLF in U at 1. rewrite begin_line in U by (auto; apply vcalendar_upper). apply (app_inv_head (lit "BEGIN:VCALENDAR" ++ [CR; LF])) in U. subst t.
  assert (D2 : delimiter t2). { eapply seq_head; [exact S|exact child_begin|]; apply (begins_app (lit "END:")). }
  destruct (lines_text_det _ _ _ _ _ D2 (or_introl Bg) L Lh) as [-> ->]. apply Q in S. apply S. apply (begins_app (lit "END:")).
Qed.

(** ** When a component is read back, and as what *)
Theorem C54_event_read_back_iff : forall v out w, event_tidy v -> s_ical ser_vevent v = Ok out ->
  vevent_of_str out = Ok w <-> ~ event_crowded v /\ vevent_read (vevent_written v) w.
Proof.
  intros v out w T H. destruct (has_alarm v) eqn:K.
  - apply has_alarm_iff in K. split; [|tauto]. intros P. now apply (C54_event_with_alarms v out T K H) in P.
  - assert (NK : ~ event_crowded v) by (rewrite <- has_alarm_iff, K; discriminate). rewrite (C53_vevent_read_back v out w (no_alarm v T NK) H). tauto.
Qed.
Theorem C54_timezone_read_back_iff : forall v out w, timezone_tidy v -> s_ical ser_vtimezone v = Ok out ->
  vtimezone_of_str out = Ok w <-> ~ timezone_crowded v /\ ~ timezone_trailing v /\ vtimezone_back v w.
Proof.
  intros v out w T H. destruct (tz_crowd v) eqn:K.
  - apply tz_crowd_iff in K. split; [|tauto]. intros P. now apply (C54_timezone_with_several v out T K H) in P.
  - assert (NK : ~ timezone_crowded v) by (rewrite <- tz_crowd_iff, K; discriminate). destruct (trailing_dec v) as [Tr|NT].
    + split; [|tauto]. intros P. exfalso. destruct T as (T & F1 & F2), Tr as [Tr X]. revert P. apply (C55_vtimezone_extension_after_child v out T); auto.
      split; apply not_several; intros Z; apply NK; unfold timezone_crowded; tauto.
    + rewrite (C53_vtimezone_read_back v out w (calm_timezone v T NK NT) H). tauto.
Qed.
Theorem C54_calendar_read_back_iff : forall v out w, calendar_tidy v -> s_ical ser_vcalendar v = Ok out ->
  vcalendar_of_str out = Ok w <->
  ~ calendar_crowded v /\ ~ calendar_trailing v /\ (forall z, In z (ca_timezones v) -> ~ timezone_trailing z) /\ vcalendar_back v w.
Proof.
  intros v out w T H. destruct (ca_crowd v) eqn:K.
  - apply ca_crowd_iff in K. split; [|tauto]. intros P. now apply (C54_calendar_with_several v out T K H) in P.
  - assert (NK : ~ calendar_crowded v) by (rewrite <- ca_crowd_iff, K; discriminate).
    destruct (calm_calendar v T NK) as (T1 & L & F1 & F2 & F3 & F4 & F5 & F6).
    destruct (Exists_dec timezone_trailing (ca_timezones v)) as [Ex|Nx].
    { intros z. destruct (tz_standard z) eqn:Q1, (tz_daylight z) eqn:Q2, (tz_x_prop z) eqn:Q3, (tz_iana_prop z) eqn:Q4;
      unfold timezone_trailing; rewrite Q1, Q2, Q3, Q4;
      first [left; split; solve [left; discriminate|right; discriminate]|right; intros [[|] [|]]; congruence]. }
    { rewrite Exists_exists in Ex. split.
      - intros P. now apply (C55_calendar_of_timezone_with_extension v out T NK Ex H) in P.
      - intros (_ & _ & X & _). destruct Ex as (z & I1 & I2). now apply X in I2. }
    rewrite Exists_exists in Nx. assert (NZ : forall z, In z (ca_timezones v) -> ~ timezone_trailing z) by (intros z I1 I2; apply Nx; eauto).
    assert (FZ : Forall vtimezone_fit (ca_timezones v)). { rewrite Forall_forall in *. intros z Iz. apply calm_timezone; auto. }
    assert (Cx : calendar_trailing v \/ (childless v \/ ca_x_prop v = [] /\ ca_iana_prop v = [])).
    { unfold calendar_trailing, childless. destruct (ca_x_prop v), (ca_iana_prop v); [right; right; auto|..];
      (destruct (ca_alarms v), (ca_events v), (ca_freebusy v), (ca_journals v), (ca_todo v), (ca_timezones v);
       first [right; left; repeat split; reflexivity|left; split; [intuition discriminate|intuition discriminate]]). }
    destruct Cx as [Cx|Cx].
    + split; [|tauto]. intros P. exfalso. revert P. destruct Cx as [C1 C2]. apply (C55_vcalendar_extension_after_child v out); auto. unfold childless. intuition congruence.
    + assert (NT : ~ calendar_trailing v). { unfold calendar_trailing, childless in *. intuition congruence. }
      rewrite (C53_vcalendar_read_back v out w); auto; [tauto|]. unfold vcalendar_fit. tauto.
Qed.

(** ** The property written in place of the children *)
Lemma octets_app a b : octets (a ++ b) = octets a + octets b.
Proof. unfold octets. induction a as [|c a IH]; cbn [app fold_right]; [lia|]. rewrite IH. lia. Qed.
Lemma octets_pos s : 0 <= octets s /\ (octets s = 0 -> s = []).
Proof. unfold octets. induction s as [|c s [IH _]]; cbn [fold_right]; [split; [lia|auto]|]. destruct (c <? 128), (c <? 2048), (c <? 65536); split; try lia. Qed.
Lemma fold_keeps p r out : octets p <= 75 -> fold_line (p ++ r) = Ok out -> begins p out.
Proof.
  intros Hp H. apply fold_line_spec in H as (l & -> & Ec & _ & _ & Hf & _). destruct l as [|x [|y l]].
  - cbn in Ec. symmetry in Ec. apply app_eq_nil in Ec as [-> _]. exists []. reflexivity.
  - cbn in Ec. rewrite app_nil_r in Ec. subst x. exists r. reflexivity.
  - cbn [concat] in Ec. assert (O : octets x = 75) by (apply (Hf [] x (y :: l)); [reflexivity|discriminate]).
    cbn [folded]. apply app_eq_app in Ec as (m & [[-> _]|[-> _]]).
    + exists (m ++ FOLD ++ folded (y :: l)). now rewrite <- app_assoc.
    + rewrite octets_app in Hp. destruct (octets_pos m) as [_ Z]. rewrite Z by (pose proof (octets_pos m); lia). rewrite app_nil_r. eexists. reflexivity.
Qed.
Lemma field_keeps {T} (S : serialize T) n p v value out : s_component S = None -> s_attr S v = None -> s_ical S v = Ok value -> value <> [] -> begins p value ->
  octets (n ++ 58 :: p) <= 75 -> ser_field S n v = Ok out -> begins (n ++ 58 :: p) out.
Proof.
  intros Hc Ha Hv Hn [r ->] Ho H. unfold ser_field in H. rewrite Hv in H. cbn [obind] in H. rewrite Hc, Ha in H. destruct (p ++ r) as [|c0 s0] eqn:Q; [congruence|]. rewrite <- Q in H. cbn [app] in H.
  apply (fold_keeps (n ++ 58 :: p) (r ++ CRLF)); auto. rewrite <- H. f_equal. rewrite <- !app_assoc. reflexivity.
Qed.
Lemma vec_keeps {T} (S : serialize T) n p l out : several l -> (forall x o, s_ical S x = Ok o -> begins p o) -> octets (n ++ 58 :: p) <= 75 ->
  vec_field S n l = Ok out -> begins (n ++ 58 :: p) out.
Proof.
  intros (x & y & r & ->) Hp Ho H. cbn [vec_field] in H.
  assert (V : exists v, vec_ical S (x :: y :: r) = Ok v) by (unfold ser_field in H; cbn [ser_vec s_ical] in H; destruct (vec_ical S (x :: y :: r)); [eauto|discriminate..]).
  destruct V as [value V]. pose proof V as V'. unfold vec_ical in V'. cbn [ocollect] in V'.
  destruct (s_ical S x) as [ox| |] eqn:O; cbn [obind] in V'; try discriminate. destruct (s_ical S y) as [oy| |]; cbn [obind] in V'; try discriminate.
  destruct (ocollect (s_ical S) r) as [os| |]; cbn [obind] in V'; try discriminate. rewrite join_pop in V'.
  change (join [44] (ox :: oy :: os)) with (ox ++ 44 :: join [44] (oy :: os)) in V'. injection V' as V'. destruct (Hp _ _ O) as [q ->].
  eapply (field_keeps (ser_vec S)); [reflexivity|reflexivity|exact V| | |exact Ho|exact H].
  - rewrite <- V'. destruct p, q; discriminate.
  - exists (q ++ 44 :: join [44] (oy :: os)). rewrite <- V'. now rewrite <- app_assoc.
Qed.
Lemma alarm_keeps n l out : l <> [] -> octets (n ++ 58 :: lit "BEGIN:VALARM") <= 75 -> vec_field ser_valarm n l = Ok out -> begins (n ++ 58 :: lit "BEGIN:VALARM") out.
Proof.
  assert (P : forall x o, s_ical ser_valarm x = Ok o -> begins (lit "BEGIN:VALARM") o).
  { intros x o Ho. apply alarm_frame in Ho as (body & _ & _ & ->). exists (CRLF ++ body ++ lit "END:VALARM" ++ CRLF). reflexivity. }
  intros Hl Ho H. destruct l as [|x [|y r]]; [congruence| |eapply vec_keeps; eauto; unfold several; eauto].
  cbn [vec_field] in H. destruct (s_ical ser_valarm x) as [o| |] eqn:O; [|unfold ser_field in H; rewrite O in H; discriminate..].
  eapply (field_keeps ser_valarm); [reflexivity|reflexivity|exact O| |eauto|exact Ho|exact H]. destruct (P _ _ O) as [q ->]. discriminate.
Qed.
Lemma comp_keeps {R} nm sc (to : R -> comp sc) x o : s_ical (ser_iso nm sc to) x = Ok o -> begins (lit "BEGIN:" ++ nm) o.
Proof. cbn [s_ical ser_iso]. intros H. apply comp_parts in H as (b & x1 & x2 & _ & _ & _ & ->). eexists. rewrite <- app_assoc. reflexivity. Qed.
Lemma contains_mid a p out b : begins p out -> contains p (a ++ out ++ b).
Proof. intros [r ->]. exists a, (r ++ b). now rewrite <- app_assoc. Qed.
Ltac short := vm_compute; discriminate.
Theorem C54_event_alarms_property : forall v out, ev_alarms v <> [] -> s_ical ser_vevent v = Ok out -> contains (lit "ALARMS:BEGIN:VALARM") out.
Proof.
  intros v out K H. cbn [s_ical ser_vevent ser_iso] in H. apply comp_parts in H as (b & x & i & B & _ & _ & ->). apply event_ser in B as (h & a & _ & Ha & ->).
  apply alarm_keeps in Ha; [|auto|short]. replace (lit "BEGIN:" ++ lit "VEVENT" ++ CRLF ++ (h ++ a) ++ x ++ i ++ lit "END:" ++ lit "VEVENT" ++ CRLF) with ((lit "BEGIN:" ++ lit "VEVENT" ++ CRLF ++ h) ++ a ++ x ++ i ++ lit "END:" ++ lit "VEVENT" ++ CRLF) by now rewrite <- !app_assoc.
  now apply contains_mid.
Qed.
Theorem C54_timezone_parts_property : forall v out, s_ical ser_vtimezone v = Ok out ->
  (several (tz_standard v) -> contains (lit "STANDARD:BEGIN:STANDARD") out) /\ (several (tz_daylight v) -> contains (lit "DAYLIGHT:BEGIN:DAYLIGHT") out).
Proof.
  intros v out H. cbn [s_ical ser_vtimezone ser_iso] in H. apply comp_parts in H as (b & x & i & B & _ & _ & ->). apply tz_ser in B as (h & s & d & _ & Hs & Hd & ->).
  set (z := x ++ i ++ lit "END:" ++ lit "VTIMEZONE" ++ CRLF). split; intros K.
  - apply (vec_keeps _ _ (lit "BEGIN:STANDARD")) in Hs; [|auto|intros y o; apply (comp_keeps (lit "STANDARD"))|short].
    replace (lit "BEGIN:" ++ lit "VTIMEZONE" ++ CRLF ++ (h ++ s ++ d) ++ z) with ((lit "BEGIN:" ++ lit "VTIMEZONE" ++ CRLF ++ h) ++ s ++ d ++ z) by now rewrite <- !app_assoc. now apply contains_mid.
  - apply (vec_keeps _ _ (lit "BEGIN:DAYLIGHT")) in Hd; [|auto|intros y o; apply (comp_keeps (lit "DAYLIGHT"))|short].
    replace (lit "BEGIN:" ++ lit "VTIMEZONE" ++ CRLF ++ (h ++ s ++ d) ++ z) with ((lit "BEGIN:" ++ lit "VTIMEZONE" ++ CRLF ++ h ++ s) ++ d ++ z) by now rewrite <- !app_assoc. now apply contains_mid.
Qed.
Theorem C54_calendar_children_property : forall v out, s_ical ser_vcalendar v = Ok out ->
  (ca_alarms v <> [] -> contains (lit "ALARMS:BEGIN:VALARM") out) /\ (several (ca_events v) -> contains (lit "EVENTS:BEGIN:VEVENT") out) /\
  (several (ca_freebusy v) -> contains (lit "FREEBUSY:BEGIN:VFREEBUSY") out) /\ (several (ca_journals v) -> contains (lit "JOURNALS:BEGIN:VJOURNAL") out) /\
  (several (ca_todo v) -> contains (lit "TODO:BEGIN:VTODO") out) /\ (several (ca_timezones v) -> contains (lit "TIMEZONES:BEGIN:VTIMEZONE") out).
Proof.
  intros v out H. cbn [s_ical ser_vcalendar ser_iso] in H. apply comp_parts in H as (b & x & i & B & _ & _ & ->).
  apply ca_ser in B as (h & xa & xe & xf & xj & xt & xz & _ & Ha & He & Hf & Hj & Ht & Hz & ->).
  set (z := x ++ i ++ lit "END:" ++ lit "VCALENDAR" ++ CRLF). set (y := lit "BEGIN:" ++ lit "VCALENDAR" ++ CRLF).
  replace (lit "BEGIN:" ++ lit "VCALENDAR" ++ CRLF ++ (h ++ xa ++ xe ++ xf ++ xj ++ xt ++ xz) ++ z) with (y ++ h ++ xa ++ xe ++ xf ++ xj ++ xt ++ xz ++ z) by (unfold y; now rewrite <- !app_assoc).
  assert (M : forall p a o b0 t, begins p o -> t = a ++ o ++ b0 -> contains p t) by (intros p a o b0 t Hb ->; now apply contains_mid).
  repeat split; intros K.
  - apply alarm_keeps in Ha; [|auto|short]. apply (M _ (y ++ h) xa (xe ++ xf ++ xj ++ xt ++ xz ++ z) _ Ha). now rewrite <- !app_assoc.
  - apply (vec_keeps _ _ (lit "BEGIN:VEVENT")) in He; [|auto|intros ? ?; apply (comp_keeps (lit "VEVENT"))|short]. apply (M _ (y ++ h ++ xa) xe (xf ++ xj ++ xt ++ xz ++ z) _ He). now rewrite <- !app_assoc.
  - apply (vec_keeps _ _ (lit "BEGIN:VFREEBUSY")) in Hf; [|auto|intros ? ?; apply (comp_keeps (lit "VFREEBUSY"))|short]. apply (M _ (y ++ h ++ xa ++ xe) xf (xj ++ xt ++ xz ++ z) _ Hf). now rewrite <- !app_assoc.
  - apply (vec_keeps _ _ (lit "BEGIN:VJOURNAL")) in Hj; [|auto|intros ? ?; apply (comp_keeps (lit "VJOURNAL"))|short]. apply (M _ (y ++ h ++ xa ++ xe ++ xf) xj (xt ++ xz ++ z) _ Hj). now rewrite <- !app_assoc.
  - apply (vec_keeps _ _ (lit "BEGIN:VTODO")) in Ht; [|auto|intros ? ?; apply (comp_keeps (lit "VTODO"))|short]. apply (M _ (y ++ h ++ xa ++ xe ++ xf ++ xj) xt (xz ++ z) _ Ht). now rewrite <- !app_assoc.
  - apply (vec_keeps _ _ (lit "BEGIN:VTIMEZONE")) in Hz; [|auto|intros ? ?; apply (comp_keeps (lit "VTIMEZONE"))|short]. apply (M _ (y ++ h ++ xa ++ xe ++ xf ++ xj ++ xt) xz z _ Hz). now rewrite <- !app_assoc.
Qed.
End Env.
