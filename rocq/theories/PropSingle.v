(** * C68: the text of a single value, [ser::ical(&value)], and [FromStr] *)
From Verif Require Import Base Env Chrono Nom Types Ser Parser BaseFacts ChronoFacts DateText NomFacts SpecLine LineFacts SpecText SerFacts PropText PropLine
  SpecCal SpecDur PropDate PropDur PropVocab PropRule PropPeriod SpecRound BackFacts.

(** [text.parse() == Ok(value)] for the text of [ser::ical(&value)]. *)
Definition cycles {T} (S : serialize T) (parse : str -> outcome T) (v : T) : Prop := exists s, ser_ical S v = Ok s /\ parse s = Ok v.
(** It is an error. *)
Definition rejected {T} (S : serialize T) (parse : str -> outcome T) (v : T) : Prop := exists s e, ser_ical S v = Ok s /\ parse s = Err e.

Section Single.
Context {E : Env}.
Lemma plain_cycles {T} (show : T -> str) (parse : str -> outcome T) v : parse (show v) = Ok v -> cycles (ser_display show) parse v.
Proof. intros H. exists (show v). split; [reflexivity|exact H]. Qed.
Lemma back_value {T} (p : content_line -> outcome T) show (P : T -> Prop) v : reads_back p (plain_line show) P -> P v -> p (cl_of_str (show v)) = Ok v.
Proof.
  intros B H. destruct (B v H []) as (c & L & _ & R). unfold plain_line, line in L. destruct (show v); [discriminate|]. injection L as <-. exact R.
Qed.
Lemma rs_escaped r : rs_show r = rs_shown r.
Proof. unfold rs_show, rs_shown, escaped. rewrite <- escape_map. destruct (rs_ext r); [rewrite <- escape_map|]; reflexivity. Qed.
(** The date-times, the periods, the rules, the vocabularies and the pairs of numbers come back. *)
Theorem C68_values_cycle :
  (forall d, writable_datetime d -> cycles ser_datetime datetime_of_str d) /\
  (forall d, writable_datetime d -> cycles ser_date date_of_str (DDateTime d)) /\
  (forall p, writable_period p -> cycles ser_period period_of_str p) /\
  (forall r, writable_rule r -> cycles ser_recur recur_of_str r) /\
  (forall c, safe_class c -> cycles ser_class class_of_str c) /\
  (forall s, cycles ser_status status_of_str s) /\
  (forall t, cycles ser_transp transp_of_str t) /\
  (forall f, cycles ser_freq freq_of_str f) /\
  (forall w, cycles ser_weekday weekday_of_str w) /\
  (forall w, (forall n, wn_ord w = Some n -> -128 <= n <= 127) -> cycles ser_wdn wdn_of_str w) /\
  (forall g, safe_geo g -> cycles ser_geo (fun s => parse_geo (cl_of_str s)) g) /\
  (forall r, safe_rs r -> cycles ser_rs (fun s => parse_rstatus (cl_of_str s)) r).
Proof.
  repeat match goal with |- _ /\ _ => split end; intros v.
  - intros H. apply plain_cycles. now destruct (writable_dt_reads v H) as (_ & R & _).
  - intros H. exists (dt_show v). split; [reflexivity|]. destruct v as [n|u]; [|destruct H]. destruct H as (Hw & y & Hy & Hr).
    now destruct (C21_naive_round_trip E n y Hw Hy Hr) as (_ & R & _).
  - intros H. now apply plain_cycles, C31_period_round_trip.
  - intros H. destruct (C26_rule_round_trip E v H) as (s & W & R & _). exists s. split; [|exact R]. unfold ser_ical. cbn [ser_recur s_ical s_attr]. now rewrite W.
  - intros H. apply plain_cycles. exact (back_value _ _ _ _ B_class H).
  - apply plain_cycles. destruct v; reflexivity.
  - apply plain_cycles. destruct v; reflexivity.
  - apply plain_cycles. destruct v; reflexivity.
  - apply plain_cycles. destruct v; reflexivity.
  - intros H. now apply plain_cycles, C29_weekday_number_round_trip.
  - intros H. apply plain_cycles. exact (back_value _ _ _ _ B_geo H).
  - intros H. apply plain_cycles. rewrite rs_escaped. exact (back_value _ _ _ _ B_rs H).
Qed.
(** The label that a calendar date and a trigger are written with is not read: neither ever comes back. *)
Lemma labelled_no_date s : date_parse (lit "VALUE=" ++ s) = None.
Proof. reflexivity. Qed.
Lemma labelled_no_dt s : datetime_of_str (lit "VALUE=" ++ s) = Err EDate.
Proof. reflexivity. Qed.
Theorem C68_calendar_date_rejected : forall n, rejected ser_date date_of_str (DDate n) /\ ser_ical ser_date (DDate n) = Ok (lit "VALUE=DATE:" ++ date_str (DDate n)).
Proof. intros n. split; [|reflexivity]. eexists _, _. split; [reflexivity|]. reflexivity. Qed.
Theorem C68_trigger_rejected : forall t, rejected ser_trigger trigger_of_str t /\
  ser_ical ser_trigger t = Ok ((match t with TrDateTime _ => lit "VALUE=DATE-TIME:" | TrDuration _ => lit "VALUE=DURATION:" end) ++ trigger_text t).
Proof. intros [d|d]; (split; [|reflexivity]); eexists _, _; (split; [reflexivity|]); reflexivity. Qed.
(** A text or a URI is the same again exactly when it has no parameters and none of the characters that are escaped. *)
Lemma escape_id s : escape s = s <-> ~ In 59 s /\ ~ In 44 s /\ ~ In LF s.
Proof.
  rewrite escape_map. split.
  - intros H.
    assert (L : forall x, (length x <= length (flat_map escaped_char x))%nat /\ ((exists c, In c x /\ (c = 59 \/ c = 44 \/ c = LF)) -> (length x < length (flat_map escaped_char x))%nat)).
    { induction x as [|c x [IH1 IH2]]; [split; [reflexivity|intros (c & [] & _)]|]. cbn [flat_map length]. rewrite app_length.
      assert (KK : (1 <= length (escaped_char c))%nat /\ ((c = 59 \/ c = 44 \/ c = LF) -> (2 <= length (escaped_char c))%nat)).
      { unfold escaped_char. destruct (Z.eqb_spec c 59); [cbn; lia|]. destruct (Z.eqb_spec c 44); [cbn; lia|]. destruct (Z.eqb_spec c LF); cbn; [lia|]. lia. }
      destruct KK as [K1 K2]. split; [lia|]. intros (b & [->|B] & Q); [specialize (K2 Q); lia|]. assert (length x < length (flat_map escaped_char x))%nat by (apply IH2; eauto). lia. }
    destruct (L s) as [_ K]. rewrite H in K. repeat split; intros I; exfalso; apply (Nat.lt_irrefl (length s)), K; eauto 6.
  - intros (A & B & C). induction s as [|c s IH]; auto. cbn [flat_map In] in *. rewrite IH by tauto. unfold escaped_char.
    destruct (Z.eqb_spec c 59); [tauto|]. destruct (Z.eqb_spec c 44); [tauto|]. destruct (Z.eqb_spec c LF); [tauto|]. reflexivity.
Qed.
Definition plain_text (ps : smap str) (s : str) : Prop := ps = [] /\ ~ In 59 s /\ ~ In 44 s /\ ~ In LF s.
Theorem C68_text :
  (forall t : text, (exists s, ser_ical ser_text t = Ok s /\ text_of_str s = t) <-> plain_text (t_params t) (t_text t)) /\
  (forall u : uri, (exists s, ser_ical ser_uri u = Ok s /\ uri_of_str s = u) <-> plain_text (u_params u) (u_uri u)).
Proof.
  assert (G : forall (ps : smap str) w (o : outcome str), o = Ok (match params_attr ps with Some a => a ++ [58] | None => [] end ++ escape w) ->
    (exists s, o = Ok s /\ [] = ps /\ s = w) <-> plain_text ps w).
  { intros ps w o ->. split.
    - intros (s & H & <- & ->). split; [reflexivity|]. apply escape_id. now injection H.
    - intros [-> H]. apply escape_id in H. exists w. cbn [params_attr app]. now rewrite H. }
  split; intros [ps w]; cbn [t_params t_text u_params u_uri]; rewrite <- (G ps w _ eq_refl); split; intros (s & H & K); exists s; (split; [exact H|]).
  - now injection K.
  - destruct K as [<- <-]. reflexivity.
  - now injection K.
  - destruct K as [<- <-]. reflexivity.
Qed.
End Single.
(** Non-trivial instances. *)
Example C68_nonvacuous : exists (r : recur) (p : period), writable_rule r /\ writable_period p /\ r_by_day r <> [] /\
  @ser_ical recur (@ser_recur env_east) r = Ok (lit "FREQ=MONTHLY;INTERVAL=1;BYDAY=-1FR") /\ @ser_ical period (@ser_period env_east) p = Ok (lit "19700101T000000/PT3600S") /\
  @ser_ical date (@ser_date env_east) (DDate 0) = Ok (lit "VALUE=DATE:19700101").
Proof.
  exists (mk_recur Monthly None None 1 [] [] [] [mk_wdn Friday (Some (-1))] [] [] [] [] [] None), (StartDur (Naive epoch) (3600 * sec)).
  assert (W : writable_datetime (Naive epoch)).
  { cbn. split; [repeat split; cbn; try lia; auto|]. exists 1970. split; [|lia]. vm_compute. eauto. }
  split; [|split; [split; [exact W|exists 3600; unfold sec, longest; lia]|split; [discriminate|split; [reflexivity|split; reflexivity]]]].
  unfold writable_rule, small_ints. cbn [r_until r_count r_interval r_by_second r_by_minute r_by_hour r_by_day r_by_monthday r_by_yearday r_by_weekno r_by_month r_by_setpos].
  repeat match goal with |- _ /\ _ => split end; try discriminate; try lia; try apply Forall_nil.
  apply Forall_cons; [|apply Forall_nil]. intros n H. injection H as <-. lia.
Qed.
