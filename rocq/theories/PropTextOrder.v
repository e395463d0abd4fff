(** * C84: written dates in the order of the dictionary *)
From Verif Require Import Base Env Chrono Types Ser BaseFacts ChronoFacts DateText SpecCal SpecTextOrder PropDate PropArith PropIterEx.

Lemma str_cmp_app a b s t : length a = length b -> str_cmp (a ++ s) (b ++ t) = match str_cmp a b with Eq => str_cmp s t | c => c end.
Proof.
  revert b. induction a as [|x a IH]; intros [|y b] L; cbn in L; try discriminate; [reflexivity|]. cbn [app str_cmp]. destruct (x ?= y); auto.
Qed.
Lemma str_cmp_digits s : forall t, length s = length t -> all_digits s = true -> all_digits t = true -> str_cmp s t = (dval 0 s ?= dval 0 t).
Proof.
  induction s as [|x s IH]; intros [|y t] L A B; cbn in L; try discriminate; [reflexivity|].
  cbn [all_digits forallb] in A, B. apply andb_prop in A as [A1 A2], B as [B1 B2]. cbn [str_cmp dval fold_left]. fold (dval (10 * 0 + (x - 48)) s) (dval (10 * 0 + (y - 48)) t).
  assert (L' : length s = length t) by lia. rewrite (IH t L' A2 B2). rewrite (dval_shift (10 * 0 + (x - 48)) s), (dval_shift (10 * 0 + (y - 48)) t), L'.
  pose proof (dval_bounds s A2) as Bs. pose proof (dval_bounds t B2) as Bt. rewrite L' in Bs. set (w := 10 ^ Z.of_nat (length t)) in *.
  destruct (Z.compare_spec x y) as [->|H|H].
  - destruct (Z.compare_spec (dval 0 s) (dval 0 t)); symmetry; [apply Z.compare_eq_iff|apply Z.compare_lt_iff|apply Z.compare_gt_iff]; lia.
  - symmetry. apply Z.compare_lt_iff. nia.
  - symmetry. apply Z.compare_gt_iff. nia.
Qed.
Lemma pad_cmp k a b s t : (0 < k)%nat -> 0 <= a < 10 ^ Z.of_nat k -> 0 <= b < 10 ^ Z.of_nat k ->
  str_cmp (show_pad k a ++ s) (show_pad k b ++ t) = match a ?= b with Eq => str_cmp s t | c => c end.
Proof.
  intros Hk Ha Hb. rewrite str_cmp_app by (rewrite !show_pad_length by auto; reflexivity).
  rewrite str_cmp_digits; [|rewrite !show_pad_length by auto; reflexivity|apply show_pad_digits; lia|apply show_pad_digits; lia].
  rewrite <- !digits_val_dval, !show_pad_val by lia. reflexivity.
Qed.
Lemma year4_show y : 0 <= y <= 9999 -> show_year y = show_pad 4 y.
Proof. intros H. unfold show_year. destruct (Z.leb_spec 0 y), (Z.ltb_spec y 10000); try lia; reflexivity. Qed.
Definition year_in (n : ndate) : Prop := exists y m d, ymd_of_days n = (y, m, d) /\ 0 <= y <= 9999.
Lemma date_text_cmp a b s t : year_in a -> year_in b -> str_cmp (date_show a ++ s) (date_show b ++ t) = match a ?= b with Eq => str_cmp s t | c => c end.
Proof.
  intros (y & m & d & Ha & Ya) (y' & m' & d' & Hb & Yb). unfold date_show. pose proof (month_range _ _ _ _ Ha). pose proof (month_range _ _ _ _ Hb).
  destruct C18_gregorian_calendar as (G1 & _ & _ & _ & G5). pose proof (G5 a b) as Lt1. pose proof (G5 b a) as Gt1.
  pose proof (proj2 (G1 _ _ _ _ Ha)) as Da. pose proof (proj2 (G1 _ _ _ _ Hb)) as Db.
  rewrite Ha, Hb in Lt1, Gt1 |- *. rewrite !year4_show by lia. rewrite <- !app_assoc.
  rewrite !pad_cmp by (cbn; lia). cbn [before] in *.
  destruct (Z.compare_spec y y') as [->|Q|Q]; [destruct (Z.compare_spec m m') as [->|Q|Q]; [destruct (Z.compare_spec d d') as [->|Q|Q]|..]|..].
  { assert (Q : a = b) by congruence. apply Z.compare_eq_iff in Q. now rewrite Q. }
  all: assert (a = b -> False) by (intros ->; rewrite Ha in Hb; inv Hb; lia); clear Da Db; destruct (Z.compare_spec a b) as [C|C|C]; auto; exfalso; lia.
Qed.
Lemma time_text_cmp n m s t : whole_second n -> whole_second m ->
  str_cmp (time_show (nd_secs n) (nd_nano n) ++ s) (time_show (nd_secs m) (nd_nano m) ++ t) =
  match nd_secs n ?= nd_secs m with Eq => match nd_nano n ?= nd_nano m with Eq => str_cmp s t | c => c end | c => c end.
Proof.
  intros [A A'] [B B']. destruct (time_parts _ A) as (A1 & A2 & A3 & A4). destruct (time_parts _ B) as (B1 & B2 & B3 & B4).
  pose proof (sec_range _ _ A A') as A5. pose proof (sec_range _ _ B B') as B5. unfold time_show. rewrite <- !app_assoc. rewrite !pad_cmp by (cbn; lia).
  set (h := nd_secs n / 3600) in *. set (h' := nd_secs m / 3600) in *. set (mi := nd_secs n / 60 mod 60) in *. set (mi' := nd_secs m / 60 mod 60) in *. set (se := nd_secs n mod 60) in *. set (se' := nd_secs m mod 60) in *.
  assert (Na : nd_nano n = 0 /\ nd_nano n / NANOS = 0 \/ nd_nano n = NANOS /\ nd_nano n / NANOS = 1 /\ se = 59) by (destruct A' as [Q|[Q Q']]; rewrite Q; [left|right]; repeat split; auto).
  assert (Nb : nd_nano m = 0 /\ nd_nano m / NANOS = 0 \/ nd_nano m = NANOS /\ nd_nano m / NANOS = 1 /\ se' = 59) by (destruct B' as [Q|[Q Q']]; rewrite Q; [left|right]; repeat split; auto).
  assert (NN : NANOS = 1000000000) by reflexivity.
  set (q := nd_nano n / NANOS) in *. set (q' := nd_nano m / NANOS) in *. clearbody q q' h h' mi mi' se se'.
  destruct (Z.compare_spec h h'); [destruct (Z.compare_spec mi mi'); [destruct (Z.compare_spec (se + q) (se' + q'))|..]|..];
    (destruct (Z.compare_spec (nd_secs n) (nd_secs m)); [destruct (Z.compare_spec (nd_nano n) (nd_nano m))|..]); auto; exfalso; lia.
Qed.

Lemma earlier_cmp s t : earlier_text s t <-> str_cmp s t = Lt.
Proof.
  split.
  - intros [u c r|p a b u v H].
    + rewrite <- (app_nil_r u) at 1. rewrite str_cmp_app by reflexivity. now rewrite str_cmp_refl.
    + rewrite str_cmp_app by reflexivity. rewrite str_cmp_refl. cbn. apply Z.compare_lt_iff in H. now rewrite H.
  - revert t. induction s as [|x s IH]; intros [|y t] H; cbn in H; try discriminate.
    + apply (et_prefix []).
    + destruct (Z.compare_spec x y) as [->|L|L]; [|apply (et_differ []); exact L|discriminate]. destruct (IH t H) as [u c r|p a b u v L].
      * apply (et_prefix (y :: u)).
      * apply (et_differ (y :: p)). exact L.
Qed.

Section Env.
Context {E : Env}.
(** A date with a year of four digits; a date-time moreover without a fraction of a second. *)
Definition writable_date (x : date) : Prop :=
  (exists y m d, ymd_of_days (date_naive x) = (y, m, d) /\ 0 <= y <= 9999) /\ match x with DDate _ => True | DDateTime t => whole_second (wall t) end.
(** The three notations: [YYYYMMDD], [YYYYMMDDTHHMMSS], [YYYYMMDDTHHMMSSZ]. *)
Definition notation_of (x : date) : Z := match x with DDate _ => 0 | DDateTime (Naive _) => 1 | DDateTime (Local _) => 2 end.
(** The order of the texts is the order of the dates, and for dates that compare equal that of the notations. *)
Theorem C84_text_order : forall x y, writable_date x -> writable_date y ->
  (earlier_text (date_str x) (date_str y) <-> date_cmp x y = Lt \/ date_cmp x y = Eq /\ notation_of x < notation_of y) /\
  (date_str x = date_str y <-> date_cmp x y = Eq /\ notation_of x = notation_of y).
Proof.
  assert (M : forall x y, writable_date x -> writable_date y -> str_cmp (date_str x) (date_str y) = match date_cmp x y with Eq => notation_of x ?= notation_of y | c => c end).
  { assert (Dt : forall s t, writable_date (DDateTime s) -> writable_date (DDateTime t) -> forall u v,
      str_cmp (ndt_show (wall s) ++ u) (ndt_show (wall t) ++ v) = match dt_cmp s t with Eq => str_cmp u v | c => c end).
    { intros s t [A A'] [B B'] u v. cbn [date_naive] in A, B. unfold dt_date_naive in A, B.
      assert (Ws : dt_naive s = wall s) by (destruct s; reflexivity). assert (Wt : dt_naive t = wall t) by (destruct t; reflexivity). rewrite Ws in A. rewrite Wt in B.
      unfold dt_cmp, ndt_cmp. rewrite Ws, Wt. unfold ndt_show. rewrite <- !app_assoc, date_text_cmp by assumption. destruct (nd_date (wall s) ?= nd_date (wall t)); auto.
      change (lit "T") with [84]. cbn [app str_cmp]. rewrite Z.compare_refl. rewrite time_text_cmp by assumption.
      now destruct (nd_secs (wall s) ?= nd_secs (wall t)), (nd_nano (wall s) ?= nd_nano (wall t)). }
    assert (Tx : forall t, date_str (DDateTime t) = ndt_show (wall t) ++ match t with Naive _ => [] | Local _ => [90] end) by (intros [n|u]; [cbn; now rewrite app_nil_r|reflexivity]).
    intros [a|s] [b|t] A B.
    - destruct A as [A _], B as [B _]. cbn [date_str date_cmp notation_of]. rewrite <- (app_nil_r (date_show a)), <- (app_nil_r (date_show b)), date_text_cmp by assumption. now destruct (a ?= b).
    - destruct A as [A _], B as [B B']. rewrite Tx. cbn [date_str date_cmp]. unfold ndt_show. rewrite <- (app_nil_r (date_show a)), <- !app_assoc, date_text_cmp; [|exact A|destruct t; exact B].
      assert (Q : dt_date_naive t = nd_date (wall t)) by (destruct t; reflexivity). rewrite Q. destruct (a ?= nd_date (wall t)); auto. destruct t; reflexivity.
    - destruct A as [A A'], B as [B _]. rewrite Tx. cbn [date_str date_cmp]. unfold ndt_show. rewrite <- (app_nil_r (date_show b)), <- !app_assoc, date_text_cmp; [|destruct s; exact A|exact B].
      assert (Q : dt_date_naive s = nd_date (wall s)) by (destruct s; reflexivity). rewrite Q. destruct (nd_date (wall s) ?= b); auto. destruct s; reflexivity.
    - rewrite !Tx, Dt by assumption. cbn [date_cmp]. destruct (dt_cmp s t); auto. destruct s, t; reflexivity. }
  intros x y A B. rewrite earlier_cmp, (M x y A B), <- str_cmp_eq, (M x y A B). destruct (date_cmp x y); rewrite ?Z.compare_lt_iff, ?Z.compare_eq_iff; repeat split; intros; auto; try tauto;
    repeat match goal with H : _ \/ _ |- _ => destruct H | H : _ /\ _ |- _ => destruct H end; auto; try discriminate.
Qed.
(** Outside the years 0 to 9999 the texts are in another order: all of them come before the year 0, and negative years are in reverse. *)
Theorem C84_other_years : forall a b y m d y' m' d', ymd_of_days a = (y, m, d) -> ymd_of_days b = (y', m', d') -> 
  (9999 < y -> 0 <= y' <= 9999 -> date_cmp (DDate b) (DDate a) = Lt /\ earlier_text (date_str (DDate a)) (date_str (DDate b))) /\
  (y < 0 -> 9999 < y' -> date_cmp (DDate a) (DDate b) = Lt /\ earlier_text (date_str (DDate b)) (date_str (DDate a))) /\
  (-9999 <= y -> y < y' -> y' < 0 -> date_cmp (DDate a) (DDate b) = Lt /\ earlier_text (date_str (DDate b)) (date_str (DDate a))).
Proof.
  intros a b y m d y' m' d' Ha Hb. destruct C18_gregorian_calendar as (_ & _ & _ & _ & G5). pose proof (G5 a b) as Lt1. pose proof (G5 b a) as Gt1.
  rewrite Ha, Hb in *. cbn [before] in *. cbn [date_cmp date_str]. rewrite !earlier_cmp. unfold date_show. rewrite Ha, Hb. split; [|split].
  - intros Y Y'. split; [apply Z.compare_lt_iff; lia|]. rewrite (year4_show y') by lia. unfold show_year. destruct (Z.leb_spec 0 y), (Z.ltb_spec y 10000), (Z.ltb_spec y 0); try lia. cbn [andb].
    pose proof (show_pad_digits 4 y' ltac:(lia)) as D. pose proof (show_pad_nonnil 4 y') as N. destruct (show_pad 4 y') as [|c r]; [congruence|]. cbn in D. apply andb_prop in D as [D _].
    apply is_digit_iff in D. cbn [app str_cmp]. assert (L : 43 < c) by lia. apply Z.compare_lt_iff in L. now rewrite L.
  - intros Y Y'. split; [apply Z.compare_lt_iff; lia|]. unfold show_year. destruct (Z.leb_spec 0 y), (Z.leb_spec 0 y'), (Z.ltb_spec y' 10000), (Z.ltb_spec y 0), (Z.ltb_spec y' 0); try lia. cbn [andb app str_cmp]. reflexivity.
  - intros Y Y' Y2. split; [apply Z.compare_lt_iff; lia|]. unfold show_year. destruct (Z.leb_spec 0 y), (Z.leb_spec 0 y'), (Z.ltb_spec y 0), (Z.ltb_spec y' 0); try lia. cbn [andb app str_cmp].
    change (45 ?= 45) with Eq. cbv iota. rewrite pad_cmp by (cbn; lia). assert (L : - y' < - y) by lia. apply Z.compare_lt_iff in L. now rewrite L.
Qed.
(** ** The order survives the conversions *)
(** [DateTime::from] keeps the strict order, also between a date and a date-time; a date is before any other time of its day. *)
Theorem C84_from_date : forall x y, (forall t, x = DDateTime t -> 0 <= nd_secs (wall t) /\ 0 <= nd_nano (wall t)) -> (forall t, y = DDateTime t -> 0 <= nd_secs (wall t) /\ 0 <= nd_nano (wall t)) ->
  (date_cmp x y = Lt -> dt_cmp (datetime_of_date x) (datetime_of_date y) = Lt) /\
  (date_cmp x y = Gt -> dt_cmp (datetime_of_date x) (datetime_of_date y) = Gt) /\
  (date_cmp x y = Eq -> date_has_time x = date_has_time y -> dt_cmp (datetime_of_date x) (datetime_of_date y) = Eq) /\
  (date_cmp x y = Eq -> date_has_time x = false -> date_has_time y = true -> dt_cmp (datetime_of_date x) (datetime_of_date y) <> Gt).
Proof.
  intros x y Hx Hy. destruct x as [a|s], y as [b|t]; cbn [date_cmp datetime_of_date date_has_time].
  - unfold dt_cmp, ndt_cmp. cbn [dt_naive midnight nd_date nd_secs nd_nano]. destruct (a ?= b); cbn; repeat split; intros; try discriminate; auto.
  - destruct (Hy t eq_refl) as [S0 N0]. assert (Q : dt_date_naive t = nd_date (wall t)) by (destruct t; reflexivity). assert (Qn : dt_naive t = wall t) by (destruct t; reflexivity). rewrite Q. unfold dt_cmp, ndt_cmp. rewrite Qn. cbn [dt_naive midnight nd_date nd_secs nd_nano].
    destruct (a ?= nd_date (wall t)); repeat split; intros; try discriminate; auto. destruct (Z.compare_spec 0 (nd_secs (wall t))); try lia; [|discriminate]. destruct (Z.compare_spec 0 (nd_nano (wall t))); try lia; discriminate.
  - destruct (Hx s eq_refl) as [S0 N0]. assert (Q : dt_date_naive s = nd_date (wall s)) by (destruct s; reflexivity). assert (Qn : dt_naive s = wall s) by (destruct s; reflexivity). rewrite Q. unfold dt_cmp, ndt_cmp. rewrite Qn. cbn [dt_naive midnight nd_date nd_secs nd_nano].
    destruct (nd_date (wall s) ?= b); repeat split; intros; try discriminate; auto.
  - repeat split; intros; try assumption; discriminate.
Qed.
(** The day keeps the order, not strictly. *)
Theorem C84_day : forall x y, (date_cmp x y = Lt -> date_naive x <= date_naive y) /\ (date_naive x < date_naive y -> date_cmp x y = Lt).
Proof.
  intros [a|s] [b|t]; cbn [date_cmp date_naive].
  1-3: split; rewrite Z.compare_lt_iff; lia.
  unfold dt_cmp, ndt_cmp, dt_date_naive. split.
  - destruct (Z.compare_spec (nd_date (dt_naive s)) (nd_date (dt_naive t))); intros; try discriminate; lia.
  - intros L. apply Z.compare_lt_iff in L. now rewrite L.
Qed.
End Env.
Example C84_nonvacuous :
  let x := DDate 19782 in let y := DDateTime (Naive (mk_ndt 19782 47045 0)) in let z := DDateTime (Local (mk_ndt 19782 43445 0)) in
  @writable_date env_east x /\ @writable_date env_east y /\ @writable_date env_east z /\
  @date_str env_east x = lit "20240229" /\ @date_str env_east y = lit "20240229T130405" /\ @date_str env_east z = lit "20240229T130405Z" /\
  earlier_text (@date_str env_east x) (@date_str env_east y) /\ earlier_text (@date_str env_east y) (@date_str env_east z) /\ @date_cmp env_east y z = Eq.
Proof.
  cbv zeta. unfold writable_date. repeat match goal with |- _ /\ _ => split end; try (vm_compute; reflexivity);
    try (exists 2024, 2, 29; split; [vm_compute; reflexivity|lia]); try (cbn; auto; fail); try (split; [split; vm_compute; congruence|left; vm_compute; reflexivity]); try (apply earlier_cmp; vm_compute; reflexivity).
Qed.
