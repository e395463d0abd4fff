(** * What saving and loading for ever leads to *)
From Verif Require Import Base Env Chrono Nom Types Ser Parser Derive BaseFacts NomFacts ChronoFacts SpecLine LineFacts SpecText SerFacts PropText PropLine
  SpecCal SpecDur PropDate PropPeriod DateText Components SpecComp SpecFields SpecFile PropFile SpecRound SpecLoss SpecCrowd LossFacts PropLoss PropRound PropCrowd
  RoundFacts FieldFacts SpecHistory SpecAfter HistFacts HistStep HistLists PropTidy PropHistory.

(** ** Texts grow *)
Definition count (c : char) (s : str) : nat := count_occ Z.eq_dec s c.
Lemma count_app c a b : count c (a ++ b) = (count c a + count c b)%nat.
Proof. apply count_occ_app. Qed.
Lemma escaped_counts s : length (escaped s) = (length s + count 44 s + count 59 s + count LF s)%nat /\
  count 44 (escaped s) = count 44 s /\ count 59 (escaped s) = count 59 s /\ count LF (escaped s) = 0%nat.
Proof.
  unfold escaped. induction s as [|c s (A & B & C & D)]; [repeat split|]. cbn [flat_map]. rewrite app_length, !count_app, A, B, C, D.
  change (c :: s) with ([c] ++ s). rewrite app_length, !count_app.
  destruct (escaped_char_cases c) as [[-> Q]|[[-> Q]|[[-> Q]|(N1 & N2 & N3 & Q)]]]; rewrite Q.
  - unfold BACKSLASH, LF. cbn [length]. change (count 44 [92; 59]) with 0%nat. change (count 59 [92; 59]) with 1%nat. change (count 10 [92; 59]) with 0%nat.
    change (count 44 [59]) with 0%nat. change (count 59 [59]) with 1%nat. change (count 10 [59]) with 0%nat. lia.
  - unfold BACKSLASH, LF. cbn [length]. change (count 44 [92; 44]) with 1%nat. change (count 59 [92; 44]) with 0%nat. change (count 10 [92; 44]) with 0%nat.
    change (count 44 [44]) with 1%nat. change (count 59 [44]) with 0%nat. change (count 10 [44]) with 0%nat. lia.
  - unfold BACKSLASH, LF. cbn [length]. change (count 44 [92; 110]) with 0%nat. change (count 59 [92; 110]) with 0%nat. change (count 10 [92; 110]) with 0%nat.
    change (count 44 [10]) with 0%nat. change (count 59 [10]) with 0%nat. change (count 10 [10]) with 1%nat. lia.
  - assert (Z0 : forall d, c <> d -> count d [c] = 0%nat) by (intros d N; unfold count; cbn [count_occ]; destruct (Z.eq_dec c d); congruence).
    rewrite !Z0 by auto. cbn [length]. lia.
Qed.
(** After the first generation the line feeds are gone; each ',' and ';' costs one more
    char at each generation. *)
Lemma iter_counts n s : length (Nat.iter (S n) escaped s) = (length s + S n * (count 44 s + count 59 s) + count LF s)%nat /\
  count 44 (Nat.iter (S n) escaped s) = count 44 s /\ count 59 (Nat.iter (S n) escaped s) = count 59 s /\ count LF (Nat.iter (S n) escaped s) = 0%nat.
Proof.
  induction n as [|n (A & B & C & D)].
  - change (Nat.iter 1 escaped s) with (escaped s). destruct (escaped_counts s) as (A & B & C & D). rewrite A, B, C, D. lia.
  - change (Nat.iter (S (S n)) escaped s) with (escaped (Nat.iter (S n) escaped s)). destruct (escaped_counts (Nat.iter (S n) escaped s)) as (A' & B' & C' & D').
    rewrite A', B', C', D', A, B, C, D. lia.
Qed.

Section Env.
Context {E : Env}.
Theorem C86_uid_length : sane_env -> forall n v w, event_tidy v -> generations (s_ical ser_vevent) vevent_of_str (S n) v w ->
  length (t_text (ev_uid w)) = (length (t_text (ev_uid v)) + S n * (count 44 (t_text (ev_uid v)) + count 59 (t_text (ev_uid v))) + count LF (t_text (ev_uid v)))%nat.
Proof.
  intros SE n v w T G. apply C86_event in G; auto. destruct G as (_ & U & _). rewrite U. cbn [t_text]. apply iter_counts.
Qed.
Theorem C86_summary_length : sane_env -> forall n v w t, event_tidy v -> generations (s_ical ser_vevent) vevent_of_str (S n) v w -> ev_summary v = Some t -> t_text t <> [] ->
  exists t', ev_summary w = Some t' /\ t_params t' = t_params t /\
  length (t_text t') = (length (t_text t) + S n * (count 44 (t_text t) + count 59 (t_text t)) + count LF (t_text t))%nat.
Proof.
  intros SE n v w t T G Q N. apply C86_event in G; auto. unfold vevent_after in G. decompose [and] G. clear G.
  match goal with H : maybe text_shown _ (ev_summary v) _ |- _ => rewrite Q in H; cbn [maybe] in H; destruct H as [[X _]|(y & _ & -> & Y)] end.
  - apply escaped_nil in X. congruence.
  - exists y. split; auto. rewrite Y. cbn [t_params t_text]. split; auto. apply iter_counts.
Qed.
(** The extension properties wrap themselves for ever. *)
Lemma wrap_length name n v : (length (Nat.iter n (fun v => name ++ [61%Z] ++ escaped v) v) >= n * (length name + 1) + length v)%nat.
Proof.
  induction n as [|n IH]; [cbn; lia|]. change (Nat.iter (S n) ?f v) with (f (Nat.iter n f v)). cbv beta. rewrite !app_length. cbn [length].
  pose proof (escaped_length (Nat.iter n (fun v => name ++ [61] ++ escaped v) v)). lia.
Qed.
Theorem C86_extensions_wrap : sane_env -> forall n v w, event_tidy v -> generations (s_ical ser_vevent) vevent_of_str (S n) v w -> ev_x_prop v <> [] ->
  exists l, ev_x_prop w = [(lit "X-PROP", l)] /\ cl_key l = lit "X-PROP" /\ (n * 7 < length (cl_value l))%nat.
Proof.
  intros SE n v w T G N. apply C86_event in G; auto. unfold vevent_after in G. decompose [and] G. clear G.
  match goal with H : ext_after _ _ (ev_x_prop v) _ |- _ => rename H into X end. unfold ext_after in X. destruct (ev_x_prop v) as [|kl m]; [congruence|].
  eexists. split; [exact X|]. split; [reflexivity|]. cbn [cl_value].
  set (V := join [59] (map (fun kl => fst kl ++ [61] ++ escaped (cl_value (snd kl))) (kl :: m))).
  assert (P : (1 <= length V)%nat).
  { unfold V. cbn [map]. destruct (map _ m) as [|b x]; cbn [join]; rewrite !app_length; cbn [length]; lia. }
  replace (S n - 1)%nat with n by lia. pose proof (wrap_length (lit "X-PROP") n V) as W. change (length (lit "X-PROP")) with 6%nat in W. lia.
Qed.

(** ** Stamps drift *)
Lemma moved_ts o u : (forall t, tz_offset t = o) -> 0 <= nd_nano u < 1000000000 -> ndt_ts (moved u) = ndt_ts u + o /\ nd_nano (moved u) = 0.
Proof.
  intros C N. unfold moved, to_second, naive_local, ndt_shift. rewrite C. cbn [nd_nano]. assert (Q : (nd_nano u <? 1000000000) = true) by lia. rewrite Q.
  unfold ndt_ts. cbn [nd_date nd_secs nd_nano]. split; auto. pose proof (Z.div_mod (nd_secs u + o) 86400 ltac:(lia)). lia.
Qed.
Lemma drift_ts o n u : (forall t, tz_offset t = o) -> 0 <= nd_nano u < 1000000000 -> ndt_ts (Nat.iter n moved u) = ndt_ts u + Z.of_nat n * o /\ 0 <= nd_nano (Nat.iter n moved u) < 1000000000.
Proof.
  intros C N. induction n as [|n [A B]]; [cbn [Nat.iter nat_rect]; lia|]. change (Nat.iter (S n) moved u) with (moved (Nat.iter n moved u)).
  destruct (moved_ts o (Nat.iter n moved u) C B) as [A' B']. rewrite A', B', A. lia.
Qed.
Theorem C86_stamp_drifts : sane_env -> forall o, (forall t, tz_offset t = o) -> forall n v w u, event_tidy v ->
  generations (s_ical ser_vevent) vevent_of_str (S n) v w -> ev_dtstamp v = Local u -> nd_nano u < 1000000000 ->
  exists u', ev_dtstamp w = Local u' /\ ndt_ts u' = ndt_ts u + Z.of_nat (S n) * o.
Proof.
  intros SE o C n v w u T G Q N. assert (W : ndt_wf u = true) by (destruct T as [T _]; unfold vevent_tidy in T; destruct T as [T _]; destruct v; cbn in *; subst; exact T).
  apply C86_event in G; auto. destruct G as [D _]. rewrite Q in D. cbn [datetime_after] in D. eexists. split; [exact D|].
  apply wf_time in W. apply drift_ts; auto. lia.
Qed.
(** What has been read lies in the years 0 to 9999 ... *)
Definition clock (d : datetime) : ndt := match d with Naive n => n | Local u => u end.
Definition in_range (u : ndt) : Prop := MIN_DATE * 86400 <= ndt_ts u <= MAX_DATE * 86400 + 86400.
Lemma read_range d d' : real_datetime d -> pfinish (p_date_time (dt_show d)) = Ok d' -> in_range (clock d').
Proof.
  intros Rd H. apply pfinish_Ok in H as [x H]. unfold p_date_time in H.
  assert (K : forall n y, 0 <= nd_secs n < 86400 -> 0 <= nd_nano n < 2000000000 -> ndt_parse [] (ndt_show n) = Some y -> in_range y).
  { intros n y A B Q. apply ndt_again in Q as [-> Y]; auto. destruct (to_second_whole n A B) as ((W1 & _) & _ & D). apply year_date_ok in Y. unfold date_ok in Y. bool_hyps.
    unfold in_range, ndt_ts. rewrite D. lia. }
  destruct d as [n|u]; cbn [real_datetime dt_show] in *.
  - destruct (wf_time n Rd) as [A B]. destruct (trim_Z_app (ndt_show n) (ndt_chars' n A B)) as [T Z']. rewrite T, Z' in H.
    destruct (ndt_parse [] (ndt_show n)) as [y|] eqn:Q; inv H. cbn [clock]. eapply K; eauto.
  - destruct (naive_local_time u Rd) as [A B]. pose proof (ndt_chars' _ A B) as CH.
    assert (T : trim_end_char 90 (ndt_show (naive_local u) ++ lit "Z") = ndt_show (naive_local u) /\ ends_with_char 90 (ndt_show (naive_local u) ++ lit "Z") = true).
    { destruct (trim_Z_app _ CH) as [T Z']. unfold trim_end_char, ends_with_char in *. rewrite rev_app_distr. cbn [rev app lit]. change (rev (lit "Z")) with [90]. cbn [app drop_while].
      change (90 =? 90) with true. cbv iota. auto. }
    destruct T as [T Z']. rewrite T, Z' in H. destruct (ndt_parse [] (ndt_show (naive_local u))) as [y|] eqn:Q; inv H. cbn [clock]. eapply K; eauto.
Qed.
Lemma bounded_steps o t : o <> 0 -> exists N, forall n, (N <= n)%nat -> ~ (MIN_DATE * 86400 <= t + Z.of_nat (S n) * o <= MAX_DATE * 86400 + 86400).
Proof.
  intros O. exists (Z.to_nat (Z.abs t + Z.abs (MIN_DATE * 86400) + Z.abs (MAX_DATE * 86400 + 86400))). intros n L.
  set (a := MIN_DATE * 86400) in *. set (b := MAX_DATE * 86400 + 86400) in *. clearbody a b. assert (Z.abs t + Z.abs a + Z.abs b <= Z.of_nat n) by lia. nia.
Qed.
(** ... so that in a zone with a constant offset other than zero, a zoned DTSTAMP makes
    the event unreadable after enough generations. *)
Theorem C86_drift_ends : sane_env -> forall o, o <> 0 -> (forall t, tz_offset t = o) -> forall v u, event_tidy v -> ev_dtstamp v = Local u -> nd_nano u < 1000000000 ->
  exists N, forall n, (N < n)%nat -> ~ exists w, generations (s_ical ser_vevent) vevent_of_str n v w.
Proof.
  intros SE o O C v u T Q NN. destruct (bounded_steps o (ndt_ts u) O) as [N HN]. exists N. intros n L (w & G). destruct n as [|n]; [lia|].
  destruct (C86_stamp_drifts SE o C n v w u T G Q NN) as (u' & D & Ts). apply (HN n); [lia|]. rewrite <- Ts.
  inversion G as [|? ? w0 ? out G0 S' Ld]; subst.
  assert (T0 : event_tidy w0) by (eapply generations_keep; [apply C85_event_stays; auto|exact T|exact G0]).
  apply (C54_event_read_back_iff w0 out w T0 S') in Ld as [_ Rd]. apply vevent_returns_iff in Rd. destruct Rd as [Rd _].
  assert (RD : real_datetime (ev_dtstamp w0)) by (destruct T0 as [T0 _]; unfold vevent_tidy in T0; destruct T0 as [T0 _]; destruct w0; exact T0).
  assert (K : in_range (clock (ev_dtstamp w))); [|rewrite D in K; exact K].
  revert Rd. apply req_step. intros c V _ P. unfold parse_datetime in P. rewrite V in P. eapply read_range; eauto.
Qed.
Lemma Forall2_In_l {X Y} (P : X -> Y -> Prop) l l' x : Forall2 P l l' -> In x l -> exists y, In y l' /\ P x y.
Proof. induction 1 as [|a b l l' H A IH]; cbn [In]; [tauto|]. intros [->|I]; [eauto|]. destruct (IH I) as (y & ? & ?). eauto. Qed.
Lemma Forall2_In_r {X Y} (P : X -> Y -> Prop) l l' y : Forall2 P l l' -> In y l' -> exists x, In x l /\ P x y.
Proof. induction 1 as [|a b l l' H A IH]; cbn [In]; [tauto|]. intros [->|I]; [eauto|]. destruct (IH I) as (z & ? & ?). eauto. Qed.
Theorem C86_calendar_ends : sane_env -> forall o, o <> 0 -> (forall t, tz_offset t = o) -> forall v e u, calendar_tidy v -> In e (ca_events v) -> ev_dtstamp e = Local u -> nd_nano u < 1000000000 ->
  exists N, forall n, (N < n)%nat -> ~ exists w, generations (s_ical ser_vcalendar) vcalendar_of_str n v w.
Proof.
  intros SE o O C v e u T I Q NN. destruct (bounded_steps o (ndt_ts u) O) as [N HN]. exists N. intros n L (w & G). destruct n as [|n]; [lia|].
  pose proof (C86_calendar SE n v w T G) as (_ & _ & F & _). destruct (Forall2_In_l _ _ _ _ F I) as (e' & I' & A). destruct A as [A _]. rewrite Q in A. cbn [datetime_after] in A.
  apply (HN n); [lia|].
  assert (W : ndt_wf u = true).
  { destruct T as (_ & _ & T & _). rewrite Forall_forall in T. destruct (T e I) as [Te _]. destruct Te as [Te _]. destruct e; cbn in *; subst; exact Te. }
  apply wf_time in W. destruct (drift_ts o (S n) u C ltac:(lia)) as [Ts _]. rewrite <- Ts.
  inversion G as [|? ? w0 ? out G0 S' Ld]; subst.
  assert (T0 : calendar_tidy w0) by (eapply generations_keep; [apply C85_calendar_stays; auto|exact T|exact G0]).
  apply (C54_calendar_read_back_iff w0 out w T0 S') in Ld as (_ & _ & _ & _ & _ & Rd & _). destruct (Forall2_In_r _ _ _ _ Rd I') as (e0 & I0 & R0).
  apply vevent_returns_iff in R0. destruct R0 as [R0 _].
  assert (RD : real_datetime (ev_dtstamp e0)).
  { destruct T0 as (_ & _ & T0 & _). rewrite Forall_forall in T0. destruct (T0 e0 I0) as [Te _]. destruct Te as [Te _]. destruct e0; exact Te. }
  assert (K : in_range (clock (ev_dtstamp e'))); [|rewrite A in K; exact K].
  revert R0. apply req_step. intros c V _ P. unfold parse_datetime in P. rewrite V in P. eapply read_range; eauto.
Qed.
(** ** What never changes *)
Lemma fixed_for_ever {T} (save : T -> outcome str) load (safe : T -> Prop) : (forall v out, safe v -> save v = Ok out -> load out = Ok v) ->
  forall n v w, safe v -> generations save load n v w -> w = v.
Proof.
  intros H n v w Sf G. induction G as [v|n v w x out G IH S' L]; auto. specialize (IH Sf). subst w. pose proof (H v out Sf S'). congruence.
Qed.
Theorem C86_safe_event_for_ever : forall n v w, vevent_safe v -> generations (s_ical ser_vevent) vevent_of_str n v w -> w = v.
Proof. intros n v w. apply fixed_for_ever. exact C53_vevent_round_trip. Qed.
Theorem C86_safe_calendar_for_ever : forall n v w, vcalendar_safe v -> generations (s_ical ser_vcalendar) vcalendar_of_str n v w -> w = v.
Proof. intros n v w. apply fixed_for_ever. exact C53_vcalendar_round_trip. Qed.
(** Floating times and dates do not move after the first generation. *)
Theorem C86_floating_stays : sane_env -> forall n v w1 w x, event_tidy v -> generations (s_ical ser_vevent) vevent_of_str 1 v w1 ->
  generations (s_ical ser_vevent) vevent_of_str (S n) v w -> (ev_dtstart v = DDate x -> ev_dtstart w = DDate x) /\
  (forall a, ev_dtstart v = DDateTime (Naive a) -> ev_dtstart w = ev_dtstart w1 /\ ev_dtstart w = DDateTime (Naive (to_second a))).
Proof.
  intros SE n v w1 w x T G1 G. apply C86_event in G1, G; auto. destruct G1 as (_ & _ & D1 & _). destruct G as (_ & _ & D & _). split.
  - intros Q. rewrite Q in D. exact D.
  - intros a Q. rewrite Q in D, D1. destruct D as (t & -> & B). destruct D1 as (t1 & -> & B1). cbn [datetime_after] in B, B1. subst. auto.
Qed.

(** ** Alarms: those whose ACTION says what they are stay so. *)
Definition alarm_named (a : valarm) : Prop :=
  match a with
  | AAudio x => t_text (au_action x) = lit "AUDIO"
  | ADisplay x => t_text (di_action x) = lit "DISPLAY"
  | AEmail x => t_text (em_action x) = lit "EMAIL"
  end.
Definition alarm_after (n : nat) (a b : valarm) : Prop :=
  match a, b with
  | AAudio x, AAudio y => audio_after n x y
  | ADisplay x, ADisplay y => display_after n x y
  | AEmail x, AEmail y => email_after n x y
  | _, _ => False
  end.
Lemma action_first t rest l k : t_text t = k -> k <> [] -> escaped k = k -> first_line (lit "ACTION") (text_line (lit "ACTION") t ++ rest) l -> cl_value l = k.
Proof.
  intros Q N X F. unfold text_line, text_shown in F. rewrite Q, X in F. rewrite line_nonempty in F by auto. destruct F as (a & b & Ef & K & Ab).
  destruct a as [|c a]; cbn [app] in Ef; [injection Ef as <- _; reflexivity|]. exfalso. injection Ef as Ef _. apply Forall_inv in Ab. apply Ab. now rewrite <- Ef.
Qed.
Lemma alarm_first v w : valarm_tidy v -> alarm_named v -> valarm_read (valarm_written v) w -> alarm_after 1 v w /\ alarm_named w.
Proof.
  intros T N (l & F & H). destruct v as [x|x|x]; cbn [valarm_tidy alarm_named valarm_written] in *.
  - assert (V : cl_value l = lit "AUDIO") by (eapply action_first; [exact N|discriminate|reflexivity|exact F]). destruct w as [y|y|y]; destruct H as [V' H]; try (rewrite V in V'; discriminate).
    cbn [alarm_after alarm_named]. apply audio_returns_iff in H. pose proof (audio_first x y T H) as A. split; auto. destruct A as [A _]. rewrite A. cbn [t_text]. rewrite N. reflexivity.
  - assert (V : cl_value l = lit "DISPLAY") by (eapply action_first; [exact N|discriminate|reflexivity|exact F]). destruct w as [y|y|y]; destruct H as [V' H]; try (rewrite V in V'; discriminate).
    cbn [alarm_after alarm_named]. apply display_returns_iff in H. pose proof (display_first x y T H) as A. split; auto. destruct A as [A _]. rewrite A. cbn [t_text]. rewrite N. reflexivity.
  - assert (V : cl_value l = lit "EMAIL") by (eapply action_first; [exact N|discriminate|reflexivity|exact F]). destruct w as [y|y|y]; destruct H as [V' H]; try (rewrite V in V'; discriminate).
    cbn [alarm_after alarm_named]. apply email_returns_iff in H. pose proof (email_first x y T H) as A. split; auto. destruct A as [A _]. rewrite A. cbn [t_text]. rewrite N. reflexivity.
Qed.
Theorem C86_alarm : sane_env -> forall n v w, valarm_tidy v -> alarm_named v -> generations (s_ical ser_valarm) valarm_of_str (S n) v w -> alarm_after (S n) v w /\ alarm_named w.
Proof.
  intros SE n v w T N G. assert (K : forall v out w, valarm_tidy v /\ alarm_named v -> s_ical ser_valarm v = Ok out -> valarm_of_str out = Ok w -> (valarm_tidy w /\ alarm_named w) /\ alarm_after 1 v w).
  { intros v' out w' [T' N'] S' L. pose proof (C85_alarm_stays SE v' out w' T' S' L) as T''. apply (C53_valarm_read_back v' out w' T' S') in L. destruct (alarm_first v' w' T' N' L). auto. }
  split.
  - revert G. apply grow with (tidy := fun v => valarm_tidy v /\ alarm_named v); auto.
    + intros v' out w' P S' L. now destruct (K v' out w' P S' L).
    + intros v' out w' P S' L. now destruct (K v' out w' P S' L).
    + intros k x y z Lk A B. destruct x, y, z; cbn [alarm_after] in *; try contradiction; [eapply audio_more|eapply display_more|eapply email_more]; eauto.
  - eapply (generations_keep _ _ (fun v => valarm_tidy v /\ alarm_named v)) in G; [apply G| |split; auto]. intros v' out w' P S' L. now destruct (K v' out w' P S' L).
Qed.
End Env.
