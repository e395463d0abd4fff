(** * C23-C25: durations *)
From Verif Require Import Base Env Chrono Nom Types Ser Parser BaseFacts ChronoFacts DateText NomFacts SpecCal SpecDur PropDate.

(** ** One number and its unit *)
Lemma digit_string_of s : all_of is_digit s <-> digit_string s.
Proof. rewrite digit_string_all. unfold all_of, all_digits. rewrite ?Forall_forall, ?forallb_forall. tauto. Qed.
Lemma value_nonneg s : digit_string s -> 0 <= value_of s.
Proof. intros H. rewrite value_of_digits. apply digits_val_nonneg. now apply digit_string_all. Qed.
Lemma parse_i64_digits ds : ds <> [] -> digit_string ds ->
  parse_signed I64MAX ds = if value_of ds <=? I64MAX then Some (value_of ds) else None.
Proof.
  intros Hn Hd. destruct ds as [|c r]; [congruence|]. unfold parse_signed.
  assert (48 <= c <= 57) by now inv Hd. destruct (Z.eqb_spec c 43); [lia|]. destruct (Z.eqb_spec c 45); [lia|].
  unfold parse_digits. apply digit_string_all in Hd as Hd'. now rewrite Hd', value_of_digits.
Qed.
(** What is after the number: not a digit. *)
Definition no_digit (s : str) : Prop := match s with c :: _ => is_digit c = false | [] => True end.
Lemma no_digit_stops s : no_digit s -> stops is_digit s.
Proof. destruct s; auto. Qed.
Lemma p_unit_app c ds r : is_digit c = false -> digit_string ds ->
  p_unit c (ds ++ c :: r) = match parse_signed I64MAX ds with Some v => POk r v | None => PErr end.
Proof.
  intros Hc Hd. unfold p_unit, pmap_res, terminated, p_digits, pbind.
  rewrite take_while_app; [|now apply digit_string_of|exact Hc].
  change (c :: r) with ([c] ++ r). rewrite tag_app. cbn [pret]. now destruct (parse_signed I64MAX ds).
Qed.
Lemma p_unit_other c ds s : digit_string ds -> no_digit s -> (forall r, s <> c :: r) -> p_unit c (ds ++ s) = PErr.
Proof.
  intros Hd Hs Hc. unfold p_unit, pmap_res, terminated, p_digits, pbind.
  rewrite take_while_app; [|now apply digit_string_of|now apply no_digit_stops].
  replace (tag [c] s) with (@PErr str); auto. symmetry. apply tag_PErr. intros r E. apply (Hc r). exact E.
Qed.
(** An optional part, followed by something that is not that unit. *)
Definition starts_other (units : list char) (s : str) : Prop :=
  exists ds r, s = ds ++ r /\ digit_string ds /\ no_digit r /\ match r with c :: _ => ~ In c units | [] => True end.
Lemma starts_other_nil units : starts_other units [].
Proof. exists [], []. cbn. repeat split; auto. constructor. Qed.
Lemma starts_other_char units c s : is_digit c = false -> ~ In c units -> starts_other units (c :: s).
Proof. intros. exists [], (c :: s). cbn. repeat split; auto. constructor. Qed.
Lemma starts_other_weaken u1 u2 s : (forall c, In c u2 -> In c u1) -> starts_other u1 s -> starts_other u2 s.
Proof. intros H (ds & r & -> & Hd & Hn & Hr). exists ds, r. repeat split; auto. destruct r; auto. Qed.
Lemma starts_other_part units c o s x : part c o s -> is_digit c = false -> ~ In c units -> starts_other units x -> starts_other units (s ++ x).
Proof.
  intros H Hc Hn Hx. inv H; auto. exists ds, (c :: x). rewrite <- app_assoc. repeat split; auto.
Qed.
Lemma popt_part c o s x : is_digit c = false -> part c o s -> starts_other [c] x -> amount o <= I64MAX ->
  popt (p_unit c) (s ++ x) = POk x o.
Proof.
  intros Hc H (ds & r & -> & Hd & Hn & Hr) Hm. inv H.
  - cbn [app]. unfold popt. rewrite p_unit_other; auto. intros r' ->. cbn in Hr. tauto.
  - unfold popt. rewrite <- app_assoc. change ([c] ++ ds ++ r) with (c :: ds ++ r). rewrite p_unit_app; auto.
    rewrite parse_i64_digits by auto. cbn in Hm. destruct (Z.leb_spec (value_of ds0) I64MAX); [auto|lia].
Qed.
Lemma part_nonneg c o s : part c o s -> 0 <= amount o.
Proof. intros H; inv H; cbn; [lia|now apply value_nonneg]. Qed.

Definition or_zero (t : option (option Z * option Z * option Z)) : option (Z * Z * Z) :=
  match t with None => None | Some (h, m, s) => Some (or0 h, or0 m, or0 s) end.
Lemma popt_time t s : time_section t s -> match t with None => True | Some (h, m, s) => amount h <= I64MAX /\ amount m <= I64MAX /\ amount s <= I64MAX end ->
  popt p_time s = POk [] (or_zero t).
Proof.
  intros H Hm. inv H; [reflexivity|].
  destruct Hm as (M1 & M2 & M3). cbn [or_zero].
  unfold popt, p_time, pbind. change (84 :: sh ++ sm ++ ss) with (lit "T" ++ sh ++ sm ++ ss). rewrite tag_app.
  rewrite (popt_part 72 h sh (sm ++ ss)); auto.
  2:{ eapply starts_other_part; eauto; [cbn; lia|]. rewrite <- (app_nil_r ss).
      eapply starts_other_part; eauto; [cbn; lia|apply starts_other_nil]. }
  rewrite (popt_part 77 m sm ss); auto.
  2:{ rewrite <- (app_nil_r ss). eapply starts_other_part; eauto; [cbn; lia|apply starts_other_nil]. }
  rewrite <- (app_nil_r ss). rewrite (popt_part 83 s0 ss []); auto using starts_other_nil.
Qed.

Lemma td_check_mono a b : 0 <= a <= b -> td_check b <> Panic -> td_check a = Ok a.
Proof.
  unfold td_check, td_ok. intros H Hb. destruct (Z.leb_spec (- TD_MAX) b), (Z.leb_spec b TD_MAX); cbn in Hb; try congruence.
  destruct (Z.leb_spec (- TD_MAX) a), (Z.leb_spec a TD_MAX); cbn; try lia; auto.
Qed.
Lemma td_check_cases a : 0 <= a -> (a <= TD_MAX /\ td_check a = Ok a) \/ (TD_MAX < a /\ td_check a = Panic).
Proof.
  unfold td_check, td_ok. intros H. destruct (Z.leb_spec (- TD_MAX) a), (Z.leb_spec a TD_MAX); cbn; auto.
  assert (0 <= TD_MAX) by (unfold TD_MAX, I64MAX; lia). lia.
Qed.
Ltac td_cases X := match goal with |- context [td_check ?a] =>
  let G := fresh "Gx" in assert (G : 0 <= a) by (unfold NANOS; lia); destruct (td_check_cases a G) as [[X ->]|[X ->]]; clear G; cbn [obind] end.
Lemma make_duration_sum neg w d t :
  0 <= w -> 0 <= d -> (forall h m s, t = Some (h, m, s) -> 0 <= h /\ 0 <= m /\ 0 <= s) ->
  let total := (w * 604800 + d * 86400 + match t with None => 0 | Some (h, m, s) => h * 3600 + m * 60 + s end) * NANOS in
  make_duration neg w d t = if total <=? TD_MAX then Ok (signed neg total) else Panic.
Proof.
  intros Hw Hd Ht total. unfold make_duration, td_weeks, td_days, td_add, td_hours, td_minutes, td_seconds.
  assert (T0 : 0 <= match t with None => 0 | Some (h, m, s) => h * 3600 + m * 60 + s end).
  { destruct t as [[[h m] s]|]; [|lia]. destruct (Ht h m s eq_refl) as (A & B & C). lia. }
  assert (F : forall x, TD_MAX < x -> x <= total -> (total <=? TD_MAX) = false) by (intros; apply Z.leb_gt; lia).
  unfold NANOS in *.
  td_cases H1; [|rewrite (F _ H1); [auto|unfold total; nia]].
  td_cases H2; [|rewrite (F _ H2); [auto|unfold total; nia]].
  td_cases H3; [|rewrite (F _ H3); [auto|unfold total; nia]].
  destruct t as [[[h m] s]|].
  - destruct (Ht h m s eq_refl) as (A & B & C).
    td_cases H4; [|rewrite (F _ H4); [auto|unfold total; nia]].
    td_cases H5; [|rewrite (F _ H5); [auto|unfold total; nia]].
    td_cases H6; [|rewrite (F _ H6); [auto|unfold total; nia]].
    td_cases H7; [|rewrite (F _ H7); [auto|unfold total; nia]].
    td_cases H8; [|rewrite (F _ H8); [auto|unfold total; nia]].
    td_cases H9; [|rewrite (F _ H9); [auto|unfold total; nia]].
    destruct (Z.leb_spec total TD_MAX); [|unfold total in *; lia].
    unfold td_neg, signed, total. f_equal. destruct neg; lia.
  - cbn [obind]. destruct (Z.leb_spec total TD_MAX); [|unfold total in *; lia].
    unfold td_neg, signed, total. f_equal. destruct neg; lia.
Qed.

Lemma duration_reads neg w d t s : duration_text neg w d t s ->
  (forall n, In n (numbers_of w d t) -> n <= I64MAX) ->
  p_duration s = match make_duration neg (amount w) (amount d) (or_zero t) with Ok x => POk [] x | Err _ => PErr | Panic => PPanic end.
Proof.
  intros (sw & sd & st & -> & Hw & Hd & Ht) Hn.
  assert (G : forall o, pbind (tag (lit "P")) (fun _ => pbind (popt (p_unit 87)) (fun w0 => pbind (popt (p_unit 68)) (fun d0 =>
     pbind (popt p_time) (fun t0 => pret (o, w0, d0, t0))))) ([80] ++ sw ++ sd ++ st) = POk [] (o : option str, w, d, or_zero t)).
  { intros o. unfold pbind at 1. change [80] with (lit "P"). rewrite tag_app. unfold pbind at 1.
    assert (St : forall u, (forall c, In c u -> c = 87 \/ c = 68) -> starts_other u st).
    { intros u Hu. inv Ht; [apply starts_other_nil|]. apply starts_other_char; [reflexivity|]. intros Hin. apply Hu in Hin. lia. }
    rewrite (popt_part 87 w sw (sd ++ st)); auto.
    2:{ eapply starts_other_part; eauto; [cbn; lia|]. apply St. cbn. intuition. }
    2:{ apply Hn. cbn. auto. }
    unfold pbind at 1. rewrite (popt_part 68 d sd st); auto.
    2:{ apply St. cbn. intuition. }
    2:{ apply Hn. cbn. auto. }
    unfold pbind. rewrite (popt_time t st); auto.
    destruct t as [[[h m] s]|]; auto. repeat split; apply Hn; cbn; auto 8. }
  unfold p_duration, pmap_res. unfold pbind at 1. unfold pbind at 1. destruct neg.
  - unfold popt at 1. change [45] with (lit "-"). rewrite tag_app. rewrite G.
    cbn [or0]. unfold or0, amount. now destruct (make_duration _ _ _ _).
  - unfold popt at 1. cbn [app]. replace (tag (lit "-") (80 :: sw ++ sd ++ st)) with (@PErr str) by (symmetry; apply tag_PErr; intros r; cbn; congruence).
    change (80 :: sw ++ sd ++ st) with ([80] ++ sw ++ sd ++ st). rewrite G.
    unfold or0, amount. now destruct (make_duration _ _ _ _).
Qed.

(** ** C24 *)
Theorem C24_duration_grammar :
  forall neg w d t (s : str) (c : content_line), duration_text neg w d t s -> cl_value c = s ->
    (* in range: the signed sum of the parts *)
    (seconds_of w d t * sec <= longest -> parse_dur c = Ok (signed neg (seconds_of w d t * sec))) /\
    (* a sum beyond chrono's range of numbers that fit i64: a panic *)
    (longest < seconds_of w d t * sec -> Forall (fun n => n <= 9223372036854775807) (numbers_of w d t) -> parse_dur c = Panic).
Proof.
  intros neg w d t s c H Hc. unfold parse_dur. rewrite Hc.
  pose proof H as (sw & sd & st & _ & Hw & Hd & Ht). apply part_nonneg in Hw, Hd.
  assert (Tn : forall h m x, t = Some (h, m, x) -> 0 <= amount h /\ 0 <= amount m /\ 0 <= amount x).
  { intros h m x ->. inv Ht. repeat split; eapply part_nonneg; eauto. }
  assert (E : (forall n, In n (numbers_of w d t) -> n <= I64MAX) ->
     pfinish (p_duration s) = if seconds_of w d t * sec <=? longest then Ok (signed neg (seconds_of w d t * sec)) else Panic).
  { intros Hn. rewrite (duration_reads neg w d t s H Hn). rewrite make_duration_sum; auto.
    2:{ intros h m x E. destruct t as [[[h0 m0] s0]|]; [|discriminate]. cbn in E. inv E. now apply Tn. }
    replace ((amount w * 604800 + amount d * 86400 + match or_zero t with Some (h, m, s0) => h * 3600 + m * 60 + s0 | None => 0 end) * NANOS)
      with (seconds_of w d t * sec).
    - change longest with TD_MAX. now destruct (_ <=? TD_MAX).
    - unfold seconds_of. destruct t as [[[h m] x]|]; reflexivity. }
  split; intros Hr.
  - rewrite E; [apply Z.leb_le in Hr; now rewrite Hr|].
    intros n Hn. unfold longest, sec in Hr. unfold I64MAX.
    assert (N : n <= seconds_of w d t); [|lia].
    unfold seconds_of. cbn in Hn. destruct t as [[[h m] x]|].
    + destruct (Tn h m x eq_refl) as (A & B & C). cbn in Hn. lia.
    + cbn in Hn. lia.
  - intros Hn. rewrite E; [apply Z.leb_gt in Hr; now rewrite Hr|]. intros n Hin. rewrite Forall_forall in Hn. now apply Hn.
Qed.
Example C24_nonvacuous : exists s, duration_text true (Some 1) (Some 2) (Some (Some 3, None, Some 15)) s /\
  s = lit "-P1W2DT3H15S" /\ seconds_of (Some 1) (Some 2) (Some (Some 3, None, Some 15)) = 788415.
Proof.
  exists (lit "-P1W2DT3H15S"). split; [|split; reflexivity].
  assert (P : forall u n ds, ds <> [] -> Forall (fun c => 48 <= c <= 57) ds -> value_of ds = n -> part u (Some n) (ds ++ [u])).
  { intros u n ds Hn Hd <-. now constructor. }
  exists (lit "1W"), (lit "2D"), (lit "T3H15S"). split; [reflexivity|].
  split; [apply (P 87 1 [49]); [congruence|repeat constructor; lia|reflexivity]|].
  split; [apply (P 68 2 [50]); [congruence|repeat constructor; lia|reflexivity]|].
  apply (ts_some (Some 3) None (Some 15) (lit "3H") [] (lit "15S")).
  - apply (P 72 3 [51]); [congruence|repeat constructor; lia|reflexivity].
  - constructor.
  - apply (P 83 15 [49; 53]); [congruence|repeat constructor; lia|reflexivity].
Qed.

(** ** C23 *)
Lemma show_nat_decimal n : 0 <= n -> show_nat n <> [] /\ digit_string (show_nat n) /\ value_of (show_nat n) = n.
Proof.
  intros H. split; [apply show_nat_nonnil|]. split; [now apply digit_string_all, show_nat_digits|].
  rewrite value_of_digits. now apply show_nat_val.
Qed.
Lemma td_show_whole n : td_show (n * NANOS) =
  if n =? 0 then lit "P0D" else (if n <? 0 then [45] else []) ++ lit "PT" ++ show_nat (Z.abs n) ++ lit "S".
Proof.
  unfold td_show. replace (n * NANOS <? 0) with (n <? 0) by (unfold NANOS; destruct (Z.ltb_spec n 0), (Z.ltb_spec (n * 1000000000) 0); auto; lia).
  assert (A : Z.abs (n * NANOS) = Z.abs n * NANOS) by (unfold NANOS; lia). rewrite A.
  rewrite Z.div_mul, Z.mod_mul by (unfold NANOS; lia). change (0 =? 0) with true. cbv iota. cbn [app].
  destruct (Z.eqb_spec n 0) as [->|Hn]; [reflexivity|].
  destruct (Z.eqb_spec (Z.abs n * NANOS) 0) as [E|E]; [unfold NANOS in E; lia|]. reflexivity.
Qed.
(** The text of a whole-second duration: P0D, or [-]PTnS. *)
Definition whole_duration_text (n : Z) (s : str) : Prop :=
  n = 0 /\ s = lit "P0D" \/
  n <> 0 /\ exists ds, ds <> [] /\ digit_string ds /\ value_of ds = Z.abs n /\
              s = (if n <? 0 then lit "-PT" else lit "PT") ++ ds ++ lit "S".
Lemma td_show_text n : whole_duration_text n (td_show (n * NANOS)).
Proof.
  rewrite td_show_whole. unfold whole_duration_text. destruct (Z.eqb_spec n 0) as [->|Hn]; [left; auto|right; split; auto].
  destruct (show_nat_decimal (Z.abs n) ltac:(lia)) as (A & B & C). exists (show_nat (Z.abs n)). repeat split; auto.
  destruct (n <? 0); reflexivity.
Qed.
Lemma whole_text_grammar n s : whole_duration_text n s ->
  exists d t, duration_text (n <? 0) None d t s /\ seconds_of None d t = Z.abs n.
Proof.
  intros [[-> ->]|(Hn & ds & A & B & C & ->)].
  - exists (Some 0), None. split; [|reflexivity]. exists [], (lit "0D"), []. split; [reflexivity|].
    split; [constructor|]. split; [|constructor]. apply (part_some 68 [48]); [congruence|repeat constructor; lia].
  - exists None, (Some (None, None, Some (value_of ds))). split; [|unfold seconds_of, amount; lia].
    exists [], [], ([84] ++ ds ++ [83]). split; [destruct (n <? 0); reflexivity|].
    split; [constructor|]. split; [constructor|]. apply (ts_some None None (Some (value_of ds)) [] [] (ds ++ [83])); try constructor; auto.
Qed.
Theorem C23_duration_round_trip :
  forall (n : Z) (c : content_line), Z.abs n * sec <= longest -> cl_value c = td_show (n * sec) ->
    whole_duration_text n (td_show (n * sec)) /\ parse_dur c = Ok (n * sec).
Proof.
  intros n c Hn Hc. change sec with NANOS in *. pose proof (td_show_text n) as Ht. split; auto.
  destruct (whole_text_grammar _ _ Ht) as (d & t & G & S).
  destruct (C24_duration_grammar _ _ _ _ _ c G Hc) as [E _]. rewrite S in E. change sec with NANOS in E. rewrite E by auto.
  f_equal. unfold signed, NANOS. destruct (Z.ltb_spec n 0); lia.
Qed.
Theorem C23_fraction_lost :
  forall (x : Z) (c : content_line), x mod sec <> 0 -> cl_value c = td_show x -> parse_dur c = Ok 0.
Proof.
  intros x c Hx Hc. unfold parse_dur. rewrite Hc. unfold td_show.
  assert (Hab : Z.abs x mod NANOS <> 0).
  { intros E. apply Hx. apply Z.mod_divide in E; [|unfold NANOS; lia]. apply Z.mod_divide; [unfold sec; lia|]. now apply Z.divide_abs_r. }
  destruct (Z.eqb_spec (Z.abs x) 0) as [E|_]; [rewrite E in Hab; now contradict Hab|].
  destruct (Z.eqb_spec (Z.abs x mod NANOS) 0); [tauto|].
  destruct (strip_zeros 9 9 (Z.abs x mod NANOS)) as [fig frac].
  assert (Hp : 0 <= Z.abs x / NANOS) by (apply Z.div_pos; unfold NANOS; lia).
  destruct (show_nat_decimal _ Hp) as (A & B & C). set (ds := show_nat (Z.abs x / NANOS)) in *.
  set (tl := (46 :: show_pad fig frac) ++ lit "S").
  assert (U : forall u, u <> 46 -> p_unit u (ds ++ tl) = PErr).
  { intros u Hu. apply p_unit_other; auto; [reflexivity|]. intros r. unfold tl. cbn [app]. congruence. }
  assert (G : p_duration ((if x <? 0 then [45] else []) ++ lit "PT" ++ ds ++ tl) = POk (ds ++ tl) 0).
  { assert (G0 : forall o, pbind (tag (lit "P")) (fun _ => pbind (popt (p_unit 87)) (fun w0 => pbind (popt (p_unit 68)) (fun d0 =>
      pbind (popt p_time) (fun t0 => pret (o, w0, d0, t0))))) (lit "PT" ++ ds ++ tl) = POk (ds ++ tl) (o : option str, None, None, Some (0, 0, 0))).
    { intros o. unfold pbind at 1. change (lit "PT" ++ ds ++ tl) with (lit "P" ++ 84 :: ds ++ tl). rewrite tag_app.
      assert (V : forall u, u <> 84 -> p_unit u (84 :: ds ++ tl) = PErr).
      { intros u Hu. apply (p_unit_other u []); [constructor|reflexivity|]. congruence. }
      unfold pbind at 1, popt at 1. rewrite V by lia. unfold pbind at 1, popt at 1. rewrite V by lia.
      unfold pbind at 1, popt at 1. unfold p_time. unfold pbind at 1. change (84 :: ds ++ tl) with (lit "T" ++ ds ++ tl). rewrite tag_app.
      unfold pbind, popt. rewrite !U by lia. reflexivity. }
    unfold p_duration, pmap_res. unfold pbind at 1. unfold pbind at 1. destruct (x <? 0).
    - unfold popt at 1. change [45] with (lit "-"). rewrite tag_app, G0. reflexivity.
    - unfold popt at 1. cbn [app]. replace (tag (lit "-") (lit "PT" ++ ds ++ tl)) with (@PErr str) by (symmetry; apply tag_PErr; intros r; cbn; congruence).
      rewrite G0. reflexivity. }
  fold ds. change ((46 :: show_pad fig frac) ++ lit "S") with tl. now rewrite G.
Qed.
Example C23_nonvacuous : td_show (-5400 * sec) = lit "-PT5400S" /\ Z.abs (-5400) * sec <= longest /\
  td_show 1500000000 = lit "PT1.5S" /\ 1500000000 mod sec <> 0.
Proof. repeat split; vm_compute; congruence. Qed.

(** ** C25 *)
(** Unit letters of the macro parser, before and after 'T'. *)
Definition unit_seconds (time : bool) (u : char) (k : Z) : Prop :=
  if time then u = 72 /\ k = 3600 \/ u = 77 /\ k = 60 \/ u = 83 /\ k = 1
  else u = 89 /\ k = 31536000 \/ u = 77 /\ k = 2592000 \/ u = 68 /\ k = 86400.
(** A run of parts [digits unit], all on one side of the 'T', with what each is
    worth in seconds. *)
Inductive part_run (time : bool) : list (str * Z) -> str -> Prop :=
| run_nil : part_run time [] []
| run_cons ds u k l s : ds <> [] -> digit_string ds -> unit_seconds time u k -> part_run time l s ->
    part_run time ((ds, k) :: l) (ds ++ [u] ++ s).
(** What the parser computes: the digits of all earlier parts are kept in front. *)
Fixpoint accumulated (before : str) (l : list (str * Z)) : Z :=
  match l with
  | [] => 0
  | (ds, k) :: r => value_of (before ++ ds) * k + accumulated (before ++ ds) r
  end.
(** What the text means. *)
Fixpoint meant (l : list (str * Z)) : Z :=
  match l with [] => 0 | (ds, k) :: r => value_of ds * k + meant r end.

Lemma digit_string_app a b : digit_string (a ++ b) <-> digit_string a /\ digit_string b.
Proof. unfold digit_string. apply Forall_app. Qed.
Lemma duration_loop_digits ds r time acc iv : digit_string ds -> duration_loop (ds ++ r) time iv acc = duration_loop r time (iv ++ ds) acc.
Proof.
  revert iv; induction ds as [|c ds IH]; intros iv Hd; [now rewrite app_nil_r|]. inv Hd. cbn [app duration_loop].
  destruct (Z.eqb_spec c 84); [lia|]. replace (is_digit c) with true by (symmetry; now apply is_digit_iff).
  rewrite IH by auto. now rewrite <- app_assoc.
Qed.
Lemma accumulated_nonneg l : forall b, digit_string b -> (forall ds k, In (ds, k) l -> digit_string ds /\ 0 <= k) -> 0 <= accumulated b l.
Proof.
  induction l as [|[ds k] l IH]; intros b Hb Hl; cbn [accumulated]; [lia|].
  destruct (Hl ds k) as [Hd Hk]; [cbn; auto|].
  assert (D : digit_string (b ++ ds)) by now apply digit_string_app.
  specialize (IH (b ++ ds) D). pose proof (value_nonneg _ D).
  assert (0 <= accumulated (b ++ ds) l) by (apply IH; intros ds' k' Hin; apply Hl; cbn; auto). nia.
Qed.
Lemma part_run_In time l s : part_run time l s -> forall ds k, In (ds, k) l -> digit_string ds /\ 0 <= k.
Proof.
  induction 1 as [|ds0 u k0 l s Hn Hd Hu H IH]; cbn; [tauto|]. intros ds k [E|Hin]; [|auto].
  inv E. split; auto. unfold unit_seconds in Hu. destruct time; lia.
Qed.
Lemma duration_part_ok time u k iv : unit_seconds time u k -> iv <> [] -> digit_string iv ->
  value_of iv * k * NANOS <= TD_MAX -> duration_part time u iv = Ok (value_of iv * k * NANOS).
Proof.
  intros Hu Hn Hd Hr. pose proof (value_nonneg iv Hd) as Hv. unfold duration_part. rewrite parse_i64_digits by auto.
  assert (K : 1 <= k) by (unfold unit_seconds in Hu; destruct time; lia).
  assert (L : value_of iv <= value_of iv * k) by nia.
  unfold TD_MAX, NANOS, I64MAX in Hr.
  destruct (Z.leb_spec (value_of iv) I64MAX) as [_|Hbad]; [|unfold I64MAX in Hbad; lia].
  unfold unit_seconds in Hu.
  assert (C : forall x, 0 <= x -> x = value_of iv * k * NANOS -> td_check x = Ok (value_of iv * k * NANOS)).
  { intros x Hx ->. destruct (td_check_cases _ Hx) as [[_ ->]|[Hb _]]; auto. unfold TD_MAX, NANOS, I64MAX in Hb. lia. }
  destruct time; destruct Hu as [[-> ->]|[[-> ->]|[-> ->]]]; cbn [negb andb Z.eqb Pos.eqb parse_int obind].
  - unfold td_hours. apply C; unfold NANOS; lia.
  - unfold td_minutes. apply C; unfold NANOS; lia.
  - unfold td_seconds. apply C; unfold NANOS; lia.
  - unfold mul_i64. destruct (Z.leb_spec (365 * value_of iv) I64MAX) as [_|Hb]; [|unfold I64MAX in Hb; lia].
    destruct (Z.leb_spec (- I64MAX - 1) (365 * value_of iv)) as [_|Hb]; [|unfold I64MAX in Hb; lia].
    cbn [andb obind]. unfold td_days. apply C; unfold NANOS; lia.
  - unfold mul_i64. destruct (Z.leb_spec (30 * value_of iv) I64MAX) as [_|Hb]; [|unfold I64MAX in Hb; lia].
    destruct (Z.leb_spec (- I64MAX - 1) (30 * value_of iv)) as [_|Hb]; [|unfold I64MAX in Hb; lia].
    cbn [andb obind]. unfold td_days. apply C; unfold NANOS; lia.
  - unfold td_days. apply C; unfold NANOS; lia.
Qed.
Lemma unit_not_digit time u k : unit_seconds time u k -> is_digit u = false /\ (u =? 84) = false.
Proof.
  unfold unit_seconds. intros H. destruct time; destruct H as [[-> _]|[[-> _]|[-> _]]]; auto.
Qed.
Lemma duration_loop_run time l s : part_run time l s -> forall iv acc rest, digit_string iv ->
  0 <= acc -> acc + accumulated iv l * NANOS <= TD_MAX ->
  duration_loop (s ++ rest) time iv acc = duration_loop rest time (iv ++ concat (map fst l)) (acc + accumulated iv l * NANOS).
Proof.
  induction 1 as [|ds u k l s Hn Hd Hu H IH]; intros iv acc rest Hiv Ha Hr; cbn [accumulated map concat fst].
  - cbn [app]. rewrite app_nil_r. f_equal. lia.
  - assert (D : digit_string (iv ++ ds)) by now apply digit_string_app.
    pose proof (value_nonneg _ D) as Hv. pose proof (accumulated_nonneg l _ D (part_run_In _ _ _ H)) as Hacc.
    cbn [accumulated] in Hr. assert (K : 1 <= k) by (unfold unit_seconds in Hu; destruct time; lia).
    rewrite <- app_assoc. rewrite duration_loop_digits by auto. cbn [app duration_loop].
    destruct (unit_not_digit _ _ _ Hu) as [-> ->].
    assert (Hvk : 0 <= value_of (iv ++ ds) * k) by nia.
    rewrite (duration_part_ok time u k); auto.
    2:{ intros E. apply app_eq_nil in E as [_ E]. auto. }
    2:{ unfold NANOS in *. lia. }
    cbn [obind]. unfold td_add.
    destruct (td_check_cases (acc + value_of (iv ++ ds) * k * NANOS)) as [[_ ->]|[Hb _]]; [unfold NANOS; lia| |unfold NANOS in *; lia].
    cbn [obind]. rewrite IH; auto; [|unfold NANOS in *; lia|unfold NANOS in *; lia].
    rewrite <- app_assoc. f_equal. unfold NANOS in *. lia.
Qed.
(** Every text [-]P parts [T parts]: the value computed keeps every earlier digit. *)
Theorem C25_digits_accumulate :
  forall (neg : bool) (l1 l2 : list (str * Z)) (s1 s2 : str),
    part_run false l1 s1 -> part_run true l2 s2 ->
    let l := l1 ++ l2 in
    accumulated [] l * sec <= longest ->
    parse_duration ((if neg then lit "-P" else lit "P") ++ s1 ++ lit "T" ++ s2) = Ok (signed neg (accumulated [] l * sec)) /\
    (l2 = [] -> parse_duration ((if neg then lit "-P" else lit "P") ++ s1) = Ok (signed neg (accumulated [] l * sec))).
Proof.
  intros neg l1 l2 s1 s2 H1 H2 l Hr. change sec with NANOS in *. change longest with TD_MAX in *.
  assert (A : forall b a, accumulated b (a ++ l2) = accumulated b a + accumulated (b ++ concat (map fst a)) l2).
  { intros b a; revert b; induction a as [|[ds k] a IH]; intros b; cbn [app accumulated map concat fst].
    - now rewrite app_nil_r.
    - rewrite IH, <- app_assoc. lia. }
  unfold l in *. rewrite A in *. cbn [app] in *.
  assert (D1 : digit_string (concat (map fst l1))).
  { pose proof (part_run_In _ _ _ H1) as P. clear - P. induction l1 as [|[ds k] l1 IH]; cbn; [constructor|].
    apply digit_string_app. split; [apply (P ds k); cbn; auto|]. apply IH. intros ds' k' Hin. apply (P ds' k'). cbn; auto. }
  assert (N1 : 0 <= accumulated [] l1) by (apply accumulated_nonneg; [constructor|eapply part_run_In; eauto]).
  assert (N2 : 0 <= accumulated (concat (map fst l1)) l2) by (apply accumulated_nonneg; [auto|eapply part_run_In; eauto]).
  assert (P : forall x d, duration_loop x false [] 0 = Ok d -> parse_duration ((if neg then lit "-P" else lit "P") ++ x) = Ok (if neg then td_neg d else d)).
  { intros x d E. unfold parse_duration. destruct neg.
    - change (lit "-P" ++ x) with (lit "-" ++ lit "P" ++ x). rewrite strip_prefix_app, strip_prefix_app, E. reflexivity.
    - replace (strip_prefix (lit "-") (lit "P" ++ x)) with (@None str) by reflexivity. rewrite strip_prefix_app, E. reflexivity. }
  set (a1 := accumulated [] l1) in *. set (a2 := accumulated (concat (map fst l1)) l2) in *.
  assert (E1 : forall rest, duration_loop (s1 ++ rest) false [] 0 = duration_loop rest false (concat (map fst l1)) (a1 * NANOS)).
  { intros rest. rewrite (duration_loop_run false l1 s1 H1 [] 0 rest); [reflexivity|constructor|lia|unfold NANOS in *; fold a1; lia]. }
  split.
  - erewrite P; [|rewrite E1; change (lit "T" ++ s2) with (84 :: s2); cbn [duration_loop]; change (84 =? 84) with true; cbv iota;
      rewrite <- (app_nil_r s2); rewrite (duration_loop_run true l2 s2 H2); [cbn [duration_loop]; reflexivity|auto|unfold NANOS in *; lia|unfold NANOS in *; fold a2; lia]].
    fold a2. unfold signed, td_neg, NANOS. f_equal. destruct neg; lia.
  - intros ->. cbn [accumulated] in a2. erewrite P; [|rewrite <- (app_nil_r s1), E1; cbn [duration_loop]; reflexivity].
    unfold signed, td_neg, NANOS, a2. f_equal. destruct neg; lia.
Qed.
(** A single part is read right... *)
Theorem C25_single_part :
  forall (neg time : bool) ds u k, ds <> [] -> digit_string ds -> unit_seconds time u k -> value_of ds * k * sec <= longest ->
    parse_duration ((if neg then lit "-P" else lit "P") ++ (if time then lit "T" else []) ++ ds ++ [u]) = Ok (signed neg (value_of ds * k * sec)).
Proof.
  intros neg time ds u k Hn Hd Hu Hr.
  assert (R : part_run time [(ds, k)] (ds ++ [u] ++ [])) by (repeat econstructor; eauto).
  destruct time.
  - destruct (C25_digits_accumulate neg [] [(ds, k)] [] _ (run_nil _) R) as [E _]; [cbn [app accumulated]; rewrite Z.add_0_r; exact Hr|].
    cbn [app accumulated] in E. rewrite Z.add_0_r in E. exact E.
  - destruct (C25_digits_accumulate neg [(ds, k)] [] _ [] R (run_nil _)) as [_ E]; [cbn [app accumulated]; rewrite Z.add_0_r; exact Hr|].
    specialize (E eq_refl). cbn [app accumulated] in E. rewrite Z.add_0_r in E. exact E.
Qed.
(** ...and the text of two or more parts is read wrong, except when the first
    number is zero: PTaHbM. *)
Theorem C25_two_parts_refuted :
  forall da db, da <> [] -> digit_string da -> db <> [] -> digit_string db ->
    (value_of da * 3600 + value_of (da ++ db) * 60) * sec <= longest ->
    let r := parse_duration (lit "PT" ++ da ++ lit "H" ++ db ++ lit "M") in
    r = Ok ((value_of da * 3600 + value_of (da ++ db) * 60) * sec) /\
    (0 < value_of da -> r <> Ok ((value_of da * 3600 + value_of db * 60) * sec)).
Proof.
  intros da db Ha Da Hb Db Hr r.
  assert (R : part_run true [(da, 3600); (db, 60)] (da ++ [72] ++ db ++ [77] ++ [])).
  { constructor; auto; [cbn; lia|]. constructor; auto; [cbn; lia|constructor]. }
  destruct (C25_digits_accumulate false [] _ [] _ (run_nil _) R) as [E _]; [cbn [app accumulated]; lia|].
  cbn [app accumulated] in E. rewrite Z.add_0_r in E.
  assert (E' : r = Ok ((value_of da * 3600 + value_of (da ++ db) * 60) * sec)) by exact E.
  split; auto. intros Hp. rewrite E'. intros [= X].
  assert (G : value_of (da ++ db) = value_of da * 10 ^ Z.of_nat (length db) + value_of db).
  { rewrite !value_of_digits, !digits_val_dval, dval_app, dval_shift. reflexivity. }
  assert (10 ^ Z.of_nat (length db) >= 1) by (pose proof (Z.pow_pos_nonneg 10 (Z.of_nat (length db))); lia).
  unfold sec in X. nia.
Qed.
Example C25_nonvacuous : parse_duration (lit "PT1H30M") = Ok ((3600 + 130 * 60) * sec) /\ parse_duration (lit "-PT90S") = Ok (-90 * sec) /\
  value_of (lit "1") * 3600 + value_of (lit "30") * 60 = 5400.
Proof. repeat split; vm_compute; reflexivity. Qed.
(** Weeks are not understood at all by this parser. *)
Theorem C25_weeks_rejected : forall ds, digit_string ds -> parse_duration (lit "P" ++ ds ++ lit "W") = Err (EParseDuration ds).
Proof.
  intros ds Hd. unfold parse_duration. replace (strip_prefix (lit "-") (lit "P" ++ ds ++ lit "W")) with (@None str) by reflexivity.
  rewrite strip_prefix_app. rewrite duration_loop_digits by auto. reflexivity.
Qed.
