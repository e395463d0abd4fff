(** * C70, C71: arithmetic and conversions of dates and date-times *)
From Verif Require Import Base Env Chrono Types BaseFacts ChronoFacts SpecCal SpecDur SpecIter PropDate.

(** ** Specification *)
(** A time of day outside a leap second. *)
Definition regular (n : ndt) : Prop := 0 <= nd_secs n < 86400 /\ 0 <= nd_nano n < 1000000000.
(** Nanoseconds since 1970-01-01T00:00:00 of the wall clock (of a zone-less date-time) or in UTC (of an instant). *)
Definition nanos (n : ndt) : Z := (nd_date n * 86400 + nd_secs n) * 1000000000 + nd_nano n.
Definition day : tdelta := 86400 * 1000000000.
(** The years that chrono supports. *)
Definition supported (n : ndate) : Prop := exists y m d, ymd_of_days n = (y, m, d) /\ -262143 <= y <= 262142.
(** The answers of a time zone fit together: the wall clock at the instants that it gives for a wall clock time is that time. *)
Definition coherent (E : Env) : Prop := forall l, match tz_local l with
  | MNone => True
  | MSingle o => tz_offset (l - o) = o
  | MAmbiguous a b => tz_offset (l - a) = a /\ tz_offset (l - b) = b end.

Lemma supported_ok n : date_ok n = true <-> supported n.
Proof.
  rewrite date_ok_year. unfold supported, date_year. destruct (ymd_of_days n) as [[y m] d] eqn:E. cbn. unfold MIN_YEAR, MAX_YEAR. split.
  - intros H. exists y, m, d. split; [reflexivity|lia].
  - intros (y' & m' & d' & H & K). injection H as -> -> ->. lia.
Qed.
Lemma nanos_inj a b : regular a -> regular b -> nanos a = nanos b -> a = b.
Proof. destruct a, b. unfold regular, nanos. cbn. intros. f_equal; lia. Qed.

(** Addition moves by exactly the duration; it panics exactly when the result is out of range. *)
Lemma add_regular n t : regular n -> let p := nanos n + t in
  (exists m, regular m /\ nanos m = p /\ (date_ok (nd_date m) = true -> ndt_add_td n t = Ok m) /\ (date_ok (nd_date m) = false -> ndt_add_td n t = Panic)).
Proof.
  intros [Hs Hn] p. unfold ndt_add_td. change NANOS with 1000000000.
  pose proof (Z.quot_rem' t 1000000000) as Q. pose proof (Z.rem_bound_abs t 1000000000 ltac:(lia)) as B.
  set (q := Z.quot t 1000000000) in *. set (r := Z.rem t 1000000000) in *.
  assert (L : (1000000000 <=? nd_nano n) = false) by (apply Z.leb_gt; lia). rewrite L.
  set (s0 := nd_secs n + q). set (f0 := nd_nano n + r).
  assert (G : exists s1 f1, (if f0 <? 0 then (s0 - 1, f0 + 1000000000) else if 1000000000 <=? f0 then (s0 + 1, f0 - 1000000000) else (s0, f0)) = (s1, f1) /\
    0 <= f1 < 1000000000 /\ s1 * 1000000000 + f1 = s0 * 1000000000 + f0).
  { destruct (Z.ltb_spec f0 0); [|destruct (Z.leb_spec 1000000000 f0)]; eexists _, _; (split; [reflexivity|]); subst f0; lia. }
  destruct G as (s1 & f1 & -> & F & V). exists (mk_ndt (nd_date n + s1 / 86400) (s1 mod 86400) f1).
  pose proof (Z.mod_pos_bound s1 86400 ltac:(lia)). pose proof (Z.div_mod s1 86400 ltac:(lia)).
  split; [split; cbn; lia|]. split.
  - unfold nanos. cbn [nd_date nd_secs nd_nano]. subst p s0 f0. unfold nanos. lia.
  - cbn [nd_date]. split; intros ->; reflexivity.
Qed.
Lemma diff_regular a b : regular a -> regular b -> ndt_diff a b = nanos a - nanos b.
Proof.
  intros [A1 A2] [B1 B2]. unfold ndt_diff, nanos. change NANOS with 1000000000.
  assert (La : (1000000000 <=? nd_nano a) = false) by (apply Z.leb_gt; lia). assert (Lb : (1000000000 <=? nd_nano b) = false) by (apply Z.leb_gt; lia).
  rewrite La, Lb, !Bool.andb_false_r. lia.
Qed.

Section Arith.
Context {E : Env}.
Theorem C70_add_naive : forall n t, regular n ->
  match dt_add_td (Naive n) t with
  | Ok (Naive m) => regular m /\ nanos m = nanos n + t
  | Panic => forall m, regular m -> nanos m = nanos n + t -> ~ supported (nd_date m)
  | _ => False end.
Proof.
  intros n t H. destruct (add_regular n t H) as (m & Rm & Vm & Ok1 & No1). cbn [dt_add_td]. destruct (date_ok (nd_date m)) eqn:D.
  - rewrite Ok1 by auto. cbn. auto.
  - rewrite No1 by auto. cbn. intros m' Rm' Vm' S'. apply supported_ok in S'. rewrite (nanos_inj m' m) in S' by congruence. congruence.
Qed.
Theorem C70_add_zoned : forall u t, regular u ->
  match dt_add_td (Local u) t with
  | Ok (Local v) => regular v /\ nanos v = nanos u + t
  | Panic => forall m, regular m -> nanos m = nanos u + t -> ~ supported (nd_date m)
  | _ => False end.
Proof.
  intros n t H. destruct (add_regular n t H) as (m & Rm & Vm & Ok1 & No1). cbn [dt_add_td]. unfold local_add_td. destruct (date_ok (nd_date m)) eqn:D.
  - rewrite Ok1 by auto. cbn. auto.
  - rewrite No1 by auto. cbn. intros m' Rm' Vm' S'. apply supported_ok in S'. rewrite (nanos_inj m' m) in S' by congruence. congruence.
Qed.
(** A duration is subtracted from the wall clock, also of a zoned date-time: the result has no zone. *)
Lemma shift_regular u o : regular u -> regular (ndt_shift u o) /\ nanos (ndt_shift u o) = nanos u + o * 1000000000.
Proof.
  intros [A B]. unfold ndt_shift, regular, nanos. cbn [nd_date nd_secs nd_nano].
  pose proof (Z.mod_pos_bound (nd_secs u + o) 86400 ltac:(lia)). pose proof (Z.div_mod (nd_secs u + o) 86400 ltac:(lia)). lia.
Qed.
Lemma local_regular u : regular u -> regular (naive_local u) /\ nanos (naive_local u) = nanos u + tz_offset (seconds u) * 1000000000.
Proof. intros H. unfold naive_local. change (ndt_ts u) with (seconds u). now apply shift_regular. Qed.
Definition wall (d : datetime) : ndt := match d with Naive n => n | Local u => ndt_shift u (tz_offset (seconds u)) end.
Definition regular_dt (d : datetime) : Prop := match d with Naive n | Local n => regular n end.
Lemma wall_regular d : regular_dt d -> regular (wall d).
Proof. destruct d; cbn; auto. apply shift_regular. Qed.
Theorem C70_sub_duration : forall d t, regular_dt d ->
  match dt_sub_td d t with
  | Ok m => regular m /\ nanos m = nanos (wall d) - t
  | Panic => forall m, regular m -> nanos m = nanos (wall d) - t -> ~ supported (nd_date m)
  | Err _ => False end.
Proof.
  intros d t H. unfold dt_sub_td, ndt_sub_td. change (dt_naive d) with (wall d). apply wall_regular in H.
  destruct (add_regular (wall d) (- t) H) as (m & Rm & Vm & Ok1 & No1). destruct (date_ok (nd_date m)) eqn:D.
  - rewrite Ok1 by auto. split; [auto|lia].
  - rewrite No1 by auto. intros m' Rm' Vm' S'. apply supported_ok in S'. rewrite (nanos_inj m' m) in S' by (auto; lia). congruence.
Qed.
(** The difference of two date-times is that of their wall clocks. *)
Theorem C70_difference : forall a b, regular_dt a -> regular_dt b -> dt_sub a b = nanos (wall a) - nanos (wall b).
Proof. intros a b Ha Hb. unfold dt_sub. change (dt_naive a) with (wall a). change (dt_naive b) with (wall b). now apply diff_regular; apply wall_regular. Qed.
(** So it is the time elapsed between two instants exactly when their offsets agree. *)
Theorem C70_elapsed : forall u v, regular u -> regular v ->
  dt_sub (Local u) (Local v) = nanos u - nanos v + (tz_offset (seconds u) - tz_offset (seconds v)) * 1000000000 /\
  (dt_sub (Local u) (Local v) = nanos u - nanos v <-> tz_offset (seconds u) = tz_offset (seconds v)).
Proof.
  intros u v Hu Hv. rewrite C70_difference by auto. cbn [wall]. destruct (shift_regular u (tz_offset (seconds u)) Hu) as [_ ->].
  destruct (shift_regular v (tz_offset (seconds v)) Hv) as [_ ->]. lia.
Qed.
(** [(d + t) - d == t] without a zone; with one, off by the change of the offset. *)
Theorem C70_add_then_sub : forall n t d, regular n -> dt_add_td (Naive n) t = Ok d -> dt_sub d (Naive n) = t.
Proof.
  intros n t d H A. pose proof (C70_add_naive n t H) as P. rewrite A in P. destruct d as [m|]; [|destruct P]. destruct P as [Rm Vm].
  rewrite C70_difference by auto. cbn [wall]. lia.
Qed.
Theorem C70_add_then_sub_zoned : forall u t v, regular u -> dt_add_td (Local u) t = Ok (Local v) ->
  dt_sub (Local v) (Local u) = t + (tz_offset (seconds v) - tz_offset (seconds u)) * 1000000000.
Proof.
  intros u t v H A. pose proof (C70_add_zoned u t H) as P. rewrite A in P. destruct P as [Rm Vm]. destruct (C70_elapsed v u Rm H) as [-> _]. lia.
Qed.
(** A calendar date moves by the whole days of the duration only. *)
Theorem C70_add_date : forall n t, 0 <= t ->
  date_plus_td (DDate n) t = (if date_ok (n + t / day) then Ok (DDate (n + t / day)) else Panic) /\
  date_plus_td (DDate n) (- t) = (if date_ok (n - t / day) then Ok (DDate (n - t / day)) else Panic).
Proof.
  intros n t H. cbn [date_plus_td]. unfold date_add_td. change (86400 * NANOS) with day. rewrite Z.quot_opp_l by (unfold day; lia).
  rewrite Z.quot_div_nonneg by (unfold day; lia). rewrite Z.add_opp_r. destruct (date_ok (n + t / day)), (date_ok (n - t / day)); auto.
Qed.
Theorem C70_add_less_than_a_day : forall n t, supported n -> - day < t < day -> date_plus_td (DDate n) t = Ok (DDate n).
Proof.
  intros n t S T. apply supported_ok in S. cbn [date_plus_td]. unfold date_add_td. change (86400 * NANOS) with day.
  assert (Q : Z.quot t day = 0) by (apply Z.quot_small_iff; unfold day in *; lia). rewrite Q.
  rewrite Z.add_0_r, S. reflexivity.
Qed.
Theorem C70_add_date_time : forall d t, date_plus_td (DDateTime d) t = omap DDateTime (dt_add_td d t).
Proof. reflexivity. Qed.
(** ** Conversions *)
Theorem C70_conversions :
  (forall n, datetime_of_date (DDate n) = Naive (mk_ndt n 0 0)) /\ (forall d, datetime_of_date (DDateTime d) = d) /\
  (forall d, DDateTime (datetime_of_date d) = d <-> date_has_time d = true) /\
  (forall d, date_naive (DDateTime (datetime_of_date d)) = date_naive d) /\
  (forall n, date_naive (DDate n) = n) /\ (forall d, date_naive (DDateTime d) = nd_date (wall d)) /\
  (forall d, dt_naive d = wall d).
Proof.
  repeat match goal with |- _ /\ _ => split end; try reflexivity; intros [n|d]; try reflexivity; cbn; split; congruence.
Qed.
(** To an instant: a zone-less date-time that the zone skips is an error, one that it repeats is the first. *)
Theorem C70_to_local : forall n,
  match tz_local (seconds n) with
  | MNone => dt_try_local (Naive n) = Err ELocal
  | MSingle o | MAmbiguous o _ => dt_try_local (Naive n) = Ok (ndt_shift n (- o)) end /\
  (forall u, dt_try_local (Local u) = Ok u) /\ dt_try_local (Naive n) <> Panic.
Proof.
  intros n. cbn [dt_try_local]. unfold from_local. change (ndt_ts n) with (seconds n). destruct (tz_local (seconds n)); cbn; repeat split; congruence.
Qed.
Theorem C70_to_local_and_back : forall n u, coherent E -> 0 <= nd_secs n < 86400 -> dt_try_local (Naive n) = Ok u -> wall (Local u) = n.
Proof.
  intros n u Z H U. destruct (C70_to_local n) as [T _]. specialize (Z (seconds n)).
  assert (G : forall o, tz_offset (seconds n - o) = o -> dt_try_local (Naive n) = Ok (ndt_shift n (- o)) -> wall (Local u) = n).
  { intros o O K. rewrite U in K. injection K as ->. cbn [wall].
    assert (Q : seconds (ndt_shift n (- o)) = seconds n - o).
    { unfold seconds, ndt_shift. cbn [nd_date nd_secs]. pose proof (Z.div_mod (nd_secs n + - o) 86400 ltac:(lia)). lia. }
    rewrite Q, O. destruct n as [d s f]. unfold ndt_shift. cbn [nd_date nd_secs nd_nano] in *.
    pose proof (Z.div_mod (s + - o) 86400 ltac:(lia)). pose proof (Z.mod_pos_bound (s + - o) 86400 ltac:(lia)).
    assert (X : (s + - o) mod 86400 + o = s + (- ((s + - o) / 86400)) * 86400) by lia.
    rewrite X. f_equal.
    - rewrite Z.div_add by lia. rewrite (Z.div_small s 86400) by lia. lia.
    - rewrite Z.mod_add by lia. apply Z.mod_small. lia. }
  destruct (tz_local (seconds n)) as [|o|a b]; [congruence|eauto|destruct Z; eauto].
Qed.
(** ** C71: the order of periods with a duration *)
(** [StartDur::cmp] compares the starts minus the durations. *)
Theorem C71_start_minus_duration : forall s1 d1 s2 d2 c, regular_dt s1 -> regular_dt s2 -> startdur_cmp s1 d1 s2 d2 = Ok c ->
  c = (nanos (wall s1) - d1 ?= nanos (wall s2) - d2).
Proof.
  intros s1 d1 s2 d2 c H1 H2 C. unfold startdur_cmp in C.
  pose proof (C70_sub_duration s1 d1 H1) as P1. destruct (dt_sub_td s1 d1) as [a|e|]; [|destruct P1|discriminate].
  pose proof (C70_sub_duration s2 d2 H2) as P2. cbn in C. destruct (dt_sub_td s2 d2) as [b|e|]; [|destruct P2|discriminate].
  destruct P1 as [[A1 A2] VA], P2 as [[B1 B2] VB]. rewrite <- VA, <- VB. cbn in C. injection C as <-. unfold ndt_cmp, nanos.
  destruct (Z.compare_spec (nd_date a) (nd_date b)) as [Ed|Ed|Ed].
  - destruct (Z.compare_spec (nd_secs a) (nd_secs b)) as [Es|Es|Es].
    + rewrite Ed, Es. destruct (Z.compare_spec (nd_nano a) (nd_nano b)); symmetry; [apply Z.compare_eq_iff|apply Z.compare_lt_iff|apply Z.compare_gt_iff]; lia.
    + symmetry. apply Z.compare_lt_iff. lia.
    + symmetry. apply Z.compare_gt_iff. lia.
  - symmetry. apply Z.compare_lt_iff. lia.
  - symmetry. apply Z.compare_gt_iff. lia.
Qed.
(** It panics exactly when one of the two is out of range. *)
Theorem C71_panics : forall s1 d1 s2 d2, regular_dt s1 -> regular_dt s2 ->
  (startdur_cmp s1 d1 s2 d2 = Panic <-> dt_sub_td s1 d1 = Panic \/ dt_sub_td s2 d2 = Panic) /\ forall e, startdur_cmp s1 d1 s2 d2 <> Err e.
Proof.
  intros s1 d1 s2 d2 H1 H2. unfold startdur_cmp.
  pose proof (C70_sub_duration s1 d1 H1) as P1. destruct (dt_sub_td s1 d1) as [a|e|]; [|destruct P1|]; cbn.
  - pose proof (C70_sub_duration s2 d2 H2) as P2. destruct (dt_sub_td s2 d2) as [b|e|]; [|destruct P2|]; cbn; (split; [|discriminate]); split; auto; try discriminate.
    intros [X|X]; discriminate.
  - split; [|discriminate]. split; auto.
Qed.
(** So of two periods with the same start the longer one is the smaller as a [StartDur] and the greater as a [Period]. *)
Theorem C71_opposite_of_period : forall s d1 d2 c, regular_dt s -> startdur_cmp s d1 s d2 = Ok c -> c = (d2 ?= d1) /\ c = CompOpp (period_cmp (StartDur s d1) (StartDur s d2)).
Proof.
  intros s d1 d2 c H C. apply C71_start_minus_duration in C; auto. subst c. unfold period_cmp. cbn [period_duration]. rewrite <- Z.compare_antisym.
  assert (G : forall a, (a - d1 ?= a - d2) = (d2 ?= d1)).
  { intros a. destruct (Z.compare_spec d2 d1); [apply Z.compare_eq_iff|apply Z.compare_lt_iff|apply Z.compare_gt_iff]; lia. }
  rewrite G. auto.
Qed.
End Arith.
(** In a leap second the difference is not what was added. *)
Theorem C70_leap_second_refuted : exists n t d, 0 <= nd_secs n < 86400 /\ 0 <= nd_nano n < 2000000000 /\
  dt_add_td (Naive n) t = Ok d /\ @dt_sub env_east d (Naive n) <> t.
Proof. exists (mk_ndt 0 86399 1500000000), 1000000000, (Naive (mk_ndt 1 0 500000000)). repeat split; try (vm_compute; congruence). Qed.
(** Non-trivial instances; in the second the clocks change by half an hour between the two instants. *)
Example C70_nonvacuous : exists n t, regular n /\ nd_nano n <> 0 /\ dt_add_td (Naive n) t = Ok (Naive (mk_ndt 1 1 250000000)).
Proof. exists (mk_ndt 0 86399 750000000), 1500000000. repeat split; cbn; lia || discriminate. Qed.
Definition shifting : Env := {| tz_offset := fun t => if t <? 1000 then 3600 else 1800; tz_local := fun l => if l <? 2800 then MSingle 3600 else if l <? 4600 then MAmbiguous 3600 1800 else MSingle 1800;
  f32_show := fun _ => []; f32_show1 := fun _ => []; f32_parse := fun _ => None; upper_nonascii := fun c => [c] |}.
Example C70_zone_nonvacuous : coherent shifting /\ regular (mk_ndt 0 100 0) /\ regular (mk_ndt 0 2000 0) /\
  @dt_sub shifting (Local (mk_ndt 0 2000 0)) (Local (mk_ndt 0 100 0)) = 100 * 1000000000 /\
  @dt_try_local shifting (Naive (mk_ndt 0 3000 0)) = Ok (mk_ndt (-1) 85800 0) /\ @dt_try_local env_east (Naive (mk_ndt 0 3000 0)) <> Err ELocal.
Proof.
  split; [|repeat split; cbn; try lia; try discriminate].
  intros l. cbn. destruct (Z.ltb_spec l 2800); [|destruct (Z.ltb_spec l 4600)].
  - destruct (Z.ltb_spec (l - 3600) 1000); lia.
  - destruct (Z.ltb_spec (l - 3600) 1000), (Z.ltb_spec (l - 1800) 1000); lia.
  - destruct (Z.ltb_spec (l - 1800) 1000); lia.
Qed.
Example C71_nonvacuous : exists s, regular_dt s /\ @startdur_cmp env_east s (3600 * 1000000000) s 0 = Ok Lt /\ @startdur_cmp env_east s (300000 * 366 * day) s 0 = Panic.
Proof. exists (Naive epoch). repeat split; cbn; try lia; vm_compute; reflexivity. Qed.
