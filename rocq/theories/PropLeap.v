(** * C70: arithmetic in leap seconds *)
From Verif Require Import Base Env Chrono Types BaseFacts ChronoFacts SpecCal SpecDur SpecIter PropDate PropArith.

(** ** Specification *)
(** A time of day; second 60 is second 59 with a fraction of a second or more. *)
Definition time_of_day (n : ndt) : Prop := 0 <= nd_secs n < 86400 /\ 0 <= nd_nano n < 2000000000.
Definition in_leap_second (n : ndt) : Prop := 1000000000 <= nd_nano n.
(** Nanoseconds, counting the leap second that comes right after second [l]. *)
Definition nanos_with_leap (l : Z) (n : ndt) : Z := nanos n + (if l <? seconds n then 1000000000 else 0).

Section WithEnv.
Context {E : Env}.
(** [d + t], with [d] in a leap second: the leap second counts as one, whichever way the sum goes, and the result is a time of day,
    in a leap second only if in the same one. *)
Theorem C70_add_leap : forall (wrap : ndt -> datetime) n t, wrap = Naive \/ wrap = Local -> time_of_day n -> in_leap_second n ->
  match dt_add_td (wrap n) t with
  | Ok d => exists m, d = wrap m /\ time_of_day m /\ (in_leap_second m -> seconds m = seconds n) /\
      nanos_with_leap (seconds n) m = nanos_with_leap (seconds n) n + t
  | Panic => forall m, time_of_day m -> (in_leap_second m -> seconds m = seconds n) ->
      nanos_with_leap (seconds n) m = nanos_with_leap (seconds n) n + t -> ~ supported (nd_date m)
  | Err _ => False
  end.
Proof.
  assert (G : forall n t, time_of_day n -> in_leap_second n ->
    exists m, time_of_day m /\ (in_leap_second m -> seconds m = seconds n) /\ nanos_with_leap (seconds n) m = nanos_with_leap (seconds n) n + t /\
      (ndt_add_td n t = Ok m \/ date_ok (nd_date m) = false /\ ndt_add_td n t = Panic)).
  { intros [d s f] t [Hs Hf] L. cbn [nd_secs nd_nano] in Hs, Hf. unfold in_leap_second in L. cbn [nd_nano] in L.
    unfold ndt_add_td. cbn [nd_date nd_secs nd_nano]. pose proof (Z.quot_rem t NANOS ltac:(unfold NANOS; lia)) as QR.
    pose proof (Z.rem_bound_abs t NANOS ltac:(unfold NANOS; lia)) as RB. pose proof (Z.rem_sign_nz t NANOS) as RS.
    pose proof (Z.quot_pos t NANOS) as QP. assert (QN : t <= 0 -> Z.quot t NANOS <= 0).
    { intros H. pose proof (Z.quot_pos (- t) NANOS). rewrite Z.quot_opp_l in H0 by (unfold NANOS; lia). unfold NANOS in *. lia. }
    assert (RP : 0 <= t -> 0 <= Z.rem t NANOS) by (intros H; apply Z.rem_nonneg; unfold NANOS; lia).
    assert (RN : t <= 0 -> Z.rem t NANOS <= 0) by (intros H; apply Z.rem_nonpos; unfold NANOS; lia). clear RS.
    set (q := Z.quot t NANOS) in *. set (r := Z.rem t NANOS) in *. clearbody q r. unfold NANOS in *.
    rewrite (proj2 (Z.leb_le _ _)) by lia.
    assert (Fin : forall s1 f1, (s1 = s \/ s1 = s + 1) -> f1 = f - 1000000000 ->
      (s1 = s -> s1 + q + (if f1 + r <? 0 then -1 else if 1000000000 <=? f1 + r then 1 else 0) > s) ->
      (s1 = s + 1 -> s1 + q + (if f1 + r <? 0 then -1 else if 1000000000 <=? f1 + r then 1 else 0) <= s) ->
      exists m, time_of_day m /\ (in_leap_second m -> seconds m = seconds (mk_ndt d s f)) /\
        nanos_with_leap (seconds (mk_ndt d s f)) m = nanos_with_leap (seconds (mk_ndt d s f)) (mk_ndt d s f) + t /\
        ((let '(secs, frac) := if f1 + r <? 0 then (s1 + q - 1, f1 + r + 1000000000) else if 1000000000 <=? f1 + r then (s1 + q + 1, f1 + r - 1000000000) else (s1 + q, f1 + r) in
          if date_ok (d + secs / 86400) then Ok (mk_ndt (d + secs / 86400) (secs mod 86400) frac) else Panic) = Ok m \/
         date_ok (nd_date m) = false /\
         (let '(secs, frac) := if f1 + r <? 0 then (s1 + q - 1, f1 + r + 1000000000) else if 1000000000 <=? f1 + r then (s1 + q + 1, f1 + r - 1000000000) else (s1 + q, f1 + r) in
          if date_ok (d + secs / 86400) then Ok (mk_ndt (d + secs / 86400) (secs mod 86400) frac) else Panic) = Panic)).
    { intros s1 f1 H1 H2 C1 C2.
      set (z := s1 + q + (if f1 + r <? 0 then -1 else if 1000000000 <=? f1 + r then 1 else 0)) in *.
      set (g := f1 + r + (if f1 + r <? 0 then 1000000000 else if 1000000000 <=? f1 + r then -1000000000 else 0)).
      assert (V : (if f1 + r <? 0 then (s1 + q - 1, f1 + r + 1000000000) else if 1000000000 <=? f1 + r then (s1 + q + 1, f1 + r - 1000000000) else (s1 + q, f1 + r)) = (z, g)).
      { unfold z, g. destruct (f1 + r <? 0); [f_equal; lia|]. destruct (1000000000 <=? f1 + r); f_equal; lia. }
      rewrite V. assert (Bg : 0 <= g < 1000000000).
      { unfold g. destruct (Z.ltb_spec (f1 + r) 0); [lia|]. destruct (Z.leb_spec 1000000000 (f1 + r)); lia. }
      assert (T : z * 1000000000 + g = (s1 + q) * 1000000000 + f1 + r).
      { unfold z, g. destruct (f1 + r <? 0); [lia|]. destruct (1000000000 <=? f1 + r); lia. }
      clearbody z g. clear V. pose proof (Z.div_mod z 86400 ltac:(lia)) as DM. pose proof (Z.mod_pos_bound z 86400 ltac:(lia)) as MB.
      exists (mk_ndt (d + z / 86400) (z mod 86400) g). unfold time_of_day, in_leap_second, nanos_with_leap, nanos, seconds. cbn [nd_date nd_secs nd_nano].
      split; [lia|]. split; [lia|]. split.
      - rewrite Z.ltb_irrefl. destruct (Z.ltb_spec (d * 86400 + s) ((d + z / 86400) * 86400 + z mod 86400)); destruct H1 as [H1|H1]; subst s1; lia.
      - destruct (date_ok (d + z / 86400)); [left; reflexivity|right; auto]. }
    destruct ((0 <? q) || ((0 <? r) && (2 * 1000000000 <=? f + r))) eqn:B.
    - apply Fin; auto; [|lia]. intros _. apply orb_true_iff in B. rewrite andb_true_iff, !Z.ltb_lt, Z.leb_le in B.
      destruct (Z.ltb_spec (f - 1000000000 + r) 0); [lia|]. destruct (Z.leb_spec 1000000000 (f - 1000000000 + r)); lia.
    - apply orb_false_iff in B as [B1 B2]. apply Z.ltb_ge in B1. rewrite andb_false_iff, Z.ltb_ge, Z.leb_gt in B2.
      destruct (Z.ltb_spec q 0).
      + apply Fin; auto; [lia|]. intros _. destruct (Z.ltb_spec (f - 1000000000 + r) 0); [lia|]. destruct (Z.leb_spec 1000000000 (f - 1000000000 + r)); lia.
      + exists (mk_ndt d s (f + r)). unfold time_of_day, in_leap_second, nanos_with_leap, nanos, seconds. cbn [nd_date nd_secs nd_nano].
        split; [lia|]. split; [lia|]. split; [lia|]. left. reflexivity. }
  intros wrap n t W H L. destruct (G n t H L) as (m & Hm & Lm & Vm & R).
  assert (U : dt_add_td (wrap n) t = omap wrap (ndt_add_td n t)) by (destruct W as [-> | ->]; reflexivity). rewrite U.
  destruct R as [R|[D R]]; rewrite R; cbn [omap obind].
  - exists m. auto.
  - intros m' Hm' Lm' Vm' S. apply supported_ok in S.
    assert (K : nd_date m' = nd_date m).
    { unfold time_of_day, in_leap_second, nanos_with_leap, nanos, seconds in *. destruct m as [a b c], m' as [a' b' c'], n as [a0 b0 c0]. cbn [nd_date nd_secs nd_nano] in *.
      destruct (Z.ltb_spec (a0 * 86400 + b0) (a * 86400 + b)), (Z.ltb_spec (a0 * 86400 + b0) (a' * 86400 + b')); lia. }
    rewrite K in S. congruence.
Qed.
(** [b - a] is [a - b] the other way, leap seconds or not. *)
Theorem C70_difference_opposite : forall a b, dt_sub b a = - dt_sub a b.
Proof.
  intros a b. unfold dt_sub, ndt_diff. set (x := dt_naive a). set (y := dt_naive b). clearbody x y. unfold NANOS.
  destruct (Z.ltb_spec (nd_secs x) (nd_secs y)), (Z.ltb_spec (nd_secs y) (nd_secs x)); cbn [andb];
    destruct (1000000000 <=? nd_nano x), (1000000000 <=? nd_nano y); lia.
Qed.
(** On one day a leap second that one of the two is in is counted. *)
Theorem C70_difference_leap : forall a b, let x := wall a in let y := wall b in
  time_of_day x -> in_leap_second x -> regular y -> nd_date x = nd_date y ->
  dt_sub a b = nanos_with_leap (seconds x) x - nanos_with_leap (seconds x) y.
Proof.
  intros a b x y Hx Lx Hy D. unfold dt_sub. change (dt_naive a) with x. change (dt_naive b) with y. clearbody x y.
  unfold time_of_day, in_leap_second, regular, nanos_with_leap, nanos, seconds, ndt_diff, NANOS in *. destruct x as [d s f], y as [d' s' f']. cbn [nd_date nd_secs nd_nano] in *. subst d'.
  rewrite (Z.ltb_irrefl (d * 86400 + s)).
  destruct (Z.ltb_spec s' s), (Z.ltb_spec s s'), (Z.ltb_spec (d * 86400 + s) (d * 86400 + s')), (Z.leb_spec 1000000000 f'), (Z.leb_spec 1000000000 f); cbn [andb]; lia.
Qed.
(** So [(d + t) - d == t] as long as the sum is on the same day; on another day it need not be (C70_leap_second_refuted). *)
Theorem C70_add_then_sub_leap : forall n t m, time_of_day n -> dt_add_td (Naive n) t = Ok (Naive m) -> nd_date m = nd_date n -> dt_sub (Naive m) (Naive n) = t.
Proof.
  intros n t m H A D. destruct (Z.lt_ge_cases (nd_nano n) 1000000000) as [R|L].
  - apply (C70_add_then_sub n t (Naive m)); [destruct H; split; lia|exact A].
  - pose proof (C70_add_leap Naive n t (or_introl eq_refl) H L) as G. rewrite A in G. destruct G as (m' & E' & Hm & Lm & V). injection E' as <-.
    destruct (Z.lt_ge_cases (nd_nano m) 1000000000) as [R'|L'].
    + rewrite C70_difference_opposite. rewrite C70_difference_leap; cbn [wall]; auto; [lia|destruct Hm; split; lia].
    + specialize (Lm L'). unfold dt_sub, ndt_diff. cbn [dt_naive]. unfold nanos_with_leap, nanos, seconds, time_of_day in *.
      destruct n as [a b c], m as [a' b' c']. cbn [nd_date nd_secs nd_nano] in *. subst a'. assert (b' = b) by lia. subst b'. rewrite !Z.ltb_irrefl in *. cbn [andb]. unfold NANOS. lia.
Qed.
(** Taking a duration from a date-time in a leap second. *)
Theorem C70_sub_duration_leap : forall d t, time_of_day (wall d) -> in_leap_second (wall d) ->
  match dt_sub_td d t with
  | Ok m => time_of_day m /\ (in_leap_second m -> seconds m = seconds (wall d)) /\ nanos_with_leap (seconds (wall d)) m = nanos_with_leap (seconds (wall d)) (wall d) - t
  | Panic => forall m, time_of_day m -> (in_leap_second m -> seconds m = seconds (wall d)) ->
      nanos_with_leap (seconds (wall d)) m = nanos_with_leap (seconds (wall d)) (wall d) - t -> ~ supported (nd_date m)
  | Err _ => False
  end.
Proof.
  intros d t H L. pose proof (C70_add_leap Naive (wall d) (- t) (or_introl eq_refl) H L) as G. unfold dt_sub_td, ndt_sub_td. change (dt_naive d) with (wall d).
  cbn [dt_add_td] in G. destruct (ndt_add_td (wall d) (- t)) as [m|e|]; cbn [omap obind] in G.
  - destruct G as (m' & E' & A & B & C). injection E' as <-. split; [exact A|]. split; [exact B|lia].
  - destruct G.
  - intros m A B C. apply (G m A B). lia.
Qed.
End WithEnv.
(** Half past the leap second of the last day of 2016: half a second later is midnight, and half a second earlier second 60 begins. *)
Example C70_nonvacuous_leap : let n := mk_ndt (days_of_ymd 2016 12 31) 86399 1500000000 in
  time_of_day n /\ in_leap_second n /\ dt_add_td (Naive n) 500000000 = Ok (Naive (mk_ndt (days_of_ymd 2017 1 1) 0 0)) /\
  dt_add_td (Naive n) (-500000000) = Ok (Naive (mk_ndt (days_of_ymd 2016 12 31) 86399 1000000000)) /\
  dt_add_td (Naive n) (-1500000000) = Ok (Naive (mk_ndt (days_of_ymd 2016 12 31) 86399 0)) /\
  @dt_sub env_east (Naive n) (Naive (mk_ndt (days_of_ymd 2016 12 31) 86399 0)) = 1500000000 /\
  @dt_sub env_east (Naive (mk_ndt (days_of_ymd 2016 12 31) 43261 0)) (Naive (mk_ndt (days_of_ymd 2016 12 31) 43259 1000000000)) = 2000000000.
Proof. split; [vm_compute; intuition discriminate|]. split; [vm_compute; discriminate|]. repeat split; vm_compute; reflexivity. Qed.
