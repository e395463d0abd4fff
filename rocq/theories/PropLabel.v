(** * C62: the VALUE parameter of dates and triggers. *)
From Verif Require Import Base Env Chrono Nom Types Ser Parser Derive BaseFacts NomFacts SpecLine LineFacts SpecText SerFacts PropText PropLine
  SpecCal SpecDur PropVocab PropRule PropPeriod PropList Components SpecComp SpecRound RoundFacts.

Section Env.
Context {E : Env}.
Lemma line_of {T} (S : serialize T) name v value out : s_component S = None -> s_ical S v = Ok value -> value <> [] -> one_line name ->
  one_line (match s_attr S v with Some a => a | None => [] end) -> one_line value -> ser_field S name v = Ok out ->
  unfold_lines out = logical_line name (s_attr S v) value.
Proof.
  intros Hc Hv Hn N1 N2 N3 H. destruct (C01_unfold_undoes_fold T S name v value out Hc Hv Hn H) as [_ G]. apply G. now apply logical_line_no_fold.
Qed.
Lemma visible_one s : visible s -> one_line s.
Proof. unfold visible, one_line. intros H C. rewrite Forall_forall in H. apply H in C. unfold LF in C. lia. Qed.
Lemma date_not_empty d : date_str d <> [].
Proof.
  assert (P : forall w n r, (0 < w)%nat -> show_pad w n ++ r <> []).
  { intros w n r W C. apply app_eq_nil in C. destruct C as [C _]. unfold show_pad in C. apply app_eq_nil in C. destruct C as [C1 C2]. rewrite C2 in C1. cbn [length] in C1. destruct w; [lia|discriminate]. }
  assert (D : forall n, date_show n <> []).
  { intros n. unfold date_show. destruct (ymd_of_days n) as [[y m] dd]. unfold show_year. destruct (_ && _); [apply P; lia|]. destruct (y <? 0); discriminate. }
  destruct d as [n|[n|u]]; cbn [date_str dt_show]; [apply D| |]; unfold ndt_show; intros C; rewrite <- ?app_assoc in C; apply app_eq_nil in C; destruct C as [C _]; exact (D _ C).
Qed.
(** The line of a date says so; that of a date-time says nothing. *)
Theorem C62_date : forall name d out, one_line name -> real_date d -> ser_field ser_date name d = Ok out ->
  unfold_lines out = name ++ match d with DDate _ => lit ";VALUE=DATE" | DDateTime _ => [] end ++ lit ":" ++ date_str d ++ [CR; LF].
Proof.
  intros name d out N R H.
  rewrite (line_of ser_date name d (date_str d) out eq_refl eq_refl (date_not_empty d) N).
  - unfold logical_line. destruct d; reflexivity.
  - destruct d; cbn; intros C; vm_compute in C; intuition discriminate.
  - apply visible_one, visible_date, R.
  - exact H.
Qed.
Theorem C62_trigger : forall name t out, one_line name -> real_trigger t -> ser_field ser_trigger name t = Ok out ->
  unfold_lines out = name ++ match t with TrDateTime _ => lit ";VALUE=DATE-TIME" | TrDuration _ => lit ";VALUE=DURATION" end ++ lit ":" ++ trigger_text t ++ [CR; LF].
Proof.
  intros name t out N R H. assert (NE : trigger_text t <> []).
  { destruct t as [d|d]; cbn [trigger_text]; [exact (date_not_empty (DDateTime d))|]. destruct (td_head d) as [r ->]. destruct (d <? 0); discriminate. }
  rewrite (line_of ser_trigger name t (trigger_text t) out eq_refl); [|destruct t; reflexivity|exact NE|exact N| | |exact H].
  - unfold logical_line. destruct t; reflexivity.
  - destruct t; cbn; intros C; vm_compute in C; intuition discriminate.
  - apply visible_one. destruct t; cbn; [now apply visible_dt|apply visible_td].
Qed.
(** A list of two dates or more has no label at all, although one date has one. *)
Theorem C62_dates : forall name l out, one_line name -> Forall real_date l -> (2 <= length l)%nat -> vec_field ser_date name l = Ok out ->
  unfold_lines out = name ++ lit ":" ++ join [44] (map date_str l) ++ [CR; LF].
Proof.
  intros name l out N R L H.
  assert (NE : join [44] (map date_str l) <> []).
  { destruct l as [|x [|y l]]; cbn [length] in L; try lia. cbn [map join]. intros C. apply app_eq_nil in C. destruct C as [C _]. exact (date_not_empty x C). }
  assert (V : s_ical (ser_vec ser_date) l = Ok (join [44] (map date_str l))) by (cbn [s_ical ser_vec]; apply vec_ical_show; reflexivity).
  assert (H' : ser_field (ser_vec ser_date) name l = Ok out) by (destruct l as [|x [|y l]]; cbn [length] in L; try lia; exact H).
  rewrite (line_of (ser_vec ser_date) name l _ out eq_refl V NE N); [reflexivity|intros []| |exact H'].
  apply visible_one, visible_join; [lia|]. apply Forall_map. eapply Forall_impl; [|exact R]. intros d. apply visible_date.
Qed.
(** One date, two dates. *)
Example C62_nonvacuous : exists a b, ser_field ser_date (lit "DTSTART") (DDate 19782) = Ok a /\ a = lit "DTSTART;VALUE=DATE:20240229" ++ [CR; LF]
  /\ vec_field ser_date (lit "EXDATE") [DDate 19782; DDate 19783] = Ok b /\ b = lit "EXDATE:20240229,20240301" ++ [CR; LF] /\ real_date (DDate 19782) /\ real_date (DDate 19783).
Proof. do 2 eexists. repeat split; vm_compute; reflexivity. Qed.
End Env.
