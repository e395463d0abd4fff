(** * The parts of chrono 0.4 that /repo calls.

    /repo pins [chrono = "0.4"] (Cargo.toml:21-24) and does not vendor it; these
    definitions follow chrono's documented behaviour and source as known to the
    author. Call sites in /repo are cited at each definition. *)
From Verif Require Import Base Env.

(** ** [NaiveDate]: the number of days since 1970-01-01. *)
Definition ndate := Z.

Definition is_leap (y : Z) : bool :=
  (y mod 4 =? 0) && (negb (y mod 100 =? 0) || (y mod 400 =? 0)).
Definition days_in_month (y m : Z) : Z :=
  if m =? 2 then (if is_leap y then 29 else 28)
  else if (m =? 4) || (m =? 6) || (m =? 9) || (m =? 11) then 30 else 31.

(** Days since 0000-03-01 of the first day of the March-based year [Y]. *)
Definition days_before (Y : Z) : Z := 365 * Y + Y / 4 - Y / 100 + Y / 400.
Definition days_of_ymd (y m d : Z) : ndate :=
  let Y := if m <=? 2 then y - 1 else y in
  let mp := if m <=? 2 then m + 9 else m - 3 in
  days_before Y + (153 * mp + 2) / 5 + d - 1 - 719468.
(** ([year()], [month()], [day()]) *)
Definition ymd_of_days (n : ndate) : Z * Z * Z :=
  let z := n + 719468 in
  let era := z / 146097 in
  let r := z mod 146097 in
  let c := Z.min (r / 36524) 3 in
  let r2 := r - c * 36524 in
  let q := r2 / 1461 in
  let r3 := r2 mod 1461 in
  let k := Z.min (r3 / 365) 3 in
  let doy := r3 - 365 * k in
  let mp := (5 * doy + 2) / 153 in
  let d := doy - (153 * mp + 2) / 5 + 1 in
  let m := if mp <? 10 then mp + 3 else mp - 9 in
  let y := 400 * era + 100 * c + 4 * q + k + (if m <=? 2 then 1 else 0) in
  (y, m, d).

Definition MIN_YEAR : Z := -262143.
Definition MAX_YEAR : Z := 262142.
Definition valid_ymd (y m d : Z) : bool :=
  (1 <=? m) && (m <=? 12) && (1 <=? d) && (d <=? days_in_month y m).
(** [NaiveDate::from_ymd_opt] *)
Definition from_ymd_opt (y m d : Z) : option ndate :=
  if (MIN_YEAR <=? y) && (y <=? MAX_YEAR) && valid_ymd y m d
  then Some (days_of_ymd y m d) else None.
Definition MIN_DATE : ndate := days_of_ymd MIN_YEAR 1 1.
Definition MAX_DATE : ndate := days_of_ymd MAX_YEAR 12 31.
Definition date_ok (n : ndate) : bool := (MIN_DATE <=? n) && (n <=? MAX_DATE).

(** ** [TimeDelta]: a number of nanoseconds; bounds +-i64::MAX milliseconds. *)
Definition tdelta := Z.
Definition NANOS : Z := 1000000000.
Definition TD_MAX : Z := I64MAX * 1000000.
Definition td_ok (n : Z) : bool := (- TD_MAX <=? n) && (n <=? TD_MAX).
Definition td_check (n : Z) : outcome tdelta := if td_ok n then Ok n else Panic.
(** [TimeDelta::seconds/minutes/hours/days/weeks]: panic when out of bounds. *)
Definition td_seconds (n : Z) := td_check (n * NANOS).
Definition td_minutes (n : Z) := td_check (n * 60 * NANOS).
Definition td_hours (n : Z) := td_check (n * 3600 * NANOS).
Definition td_days (n : Z) := td_check (n * 86400 * NANOS).
Definition td_weeks (n : Z) := td_check (n * 604800 * NANOS).
(** [TimeDelta + TimeDelta]: panics on overflow. *)
Definition td_add (a b : tdelta) : outcome tdelta := td_check (a + b).
Definition td_neg (a : tdelta) : tdelta := - a.

(** Number of significant digits of a fraction, trailing zeros removed
    ([Display for TimeDelta]). *)
Fixpoint strip_zeros (fuel : nat) (figures : nat) (n : Z) : nat * Z :=
  match fuel with
  | O => (figures, n)
  | S f => if n mod 10 =? 0 then strip_zeros f (figures - 1) (n / 10) else (figures, n)
  end.
(** [Display for TimeDelta] *)
Definition td_show (t : tdelta) : str :=
  let sign := if t <? 0 then [45] else [] in
  let a := Z.abs t in
  if a =? 0 then sign ++ lit "P0D"
  else
    let secs := a / NANOS in
    let nanos := a mod NANOS in
    sign ++ lit "PT" ++ show_nat secs
    ++ (if nanos =? 0 then []
        else let (fig, n) := strip_zeros 9 9 nanos in 46 :: show_pad fig n)
    ++ lit "S".

(** [NaiveDate + TimeDelta]: whole days of the delta, truncated towards zero;
    panics when out of range. *)
Definition date_add_td (d : ndate) (t : tdelta) : outcome ndate :=
  let d' := d + Z.quot t (86400 * NANOS) in
  if date_ok d' then Ok d' else Panic.

(** [NaiveDate + Months] ([checked_add_months], [diff_months]): day clamped to
    the length of the target month; panics when out of range. *)
Definition date_add_months (d : ndate) (months : Z) : outcome ndate :=
  if months =? 0 then Ok d
  else
    let '(y, m, dd) := ymd_of_days d in
    let t := y * 12 + m - 1 + months in
    let y' := t / 12 in
    let m' := t mod 12 + 1 in
    match from_ymd_opt y' m' (Z.min dd (days_in_month y' m')) with
    | Some r => Ok r
    | None => Panic
    end.

(** [NaiveDate::with_year(..)] *)
Definition date_with_year (d : ndate) (y' : Z) : option ndate :=
  let '(_, m, dd) := ymd_of_days d in from_ymd_opt y' m dd.
Definition date_year (d : ndate) : Z := fst (fst (ymd_of_days d)).

(** ** [NaiveDateTime]: date, second of the day, nanosecond (at least 10^9 inside
    a leap second). *)
Record ndt := mk_ndt { nd_date : ndate; nd_secs : Z; nd_nano : Z }.

Definition ndt_wf (n : ndt) : bool :=
  date_ok (nd_date n) && (0 <=? nd_secs n) && (nd_secs n <? 86400)
  && (0 <=? nd_nano n) && (nd_nano n <? 2 * NANOS).

Definition ndt_eqb (a b : ndt) : bool :=
  (nd_date a =? nd_date b) && (nd_secs a =? nd_secs b) && (nd_nano a =? nd_nano b).
(** [Ord for NaiveDateTime]: lexicographic. *)
Definition ndt_cmp (a b : ndt) : comparison :=
  match nd_date a ?= nd_date b with
  | Eq => match nd_secs a ?= nd_secs b with
          | Eq => nd_nano a ?= nd_nano b
          | c => c
          end
  | c => c
  end.

Definition midnight (d : ndate) : ndt := mk_ndt d 0 0.
(** [NaiveDateTime::default()] *)
Definition epoch : ndt := midnight 0.

(** [NaiveTime::overflowing_add_signed] then the date
    ([NaiveDateTime::checked_add_signed]); [NaiveDateTime + TimeDelta] panics on
    overflow. *)
Definition ndt_add_td (n : ndt) (t : tdelta) : outcome ndt :=
  let secs_to_add := Z.quot t NANOS in
  let frac_to_add := Z.rem t NANOS in
  let finish (secs frac : Z) :=
    let secs := secs + secs_to_add in
    let frac := frac + frac_to_add in
    let '(secs, frac) :=
      if frac <? 0 then (secs - 1, frac + NANOS)
      else if NANOS <=? frac then (secs + 1, frac - NANOS) else (secs, frac) in
    let d' := nd_date n + secs / 86400 in
    if date_ok d' then Ok (mk_ndt d' (secs mod 86400) frac) else Panic in
  if NANOS <=? nd_nano n then
    if (0 <? secs_to_add) || ((0 <? frac_to_add) && (2 * NANOS <=? nd_nano n + frac_to_add))
    then finish (nd_secs n) (nd_nano n - NANOS)
    else if secs_to_add <? 0 then finish (nd_secs n + 1) (nd_nano n - NANOS)
    else Ok (mk_ndt (nd_date n) (nd_secs n) (nd_nano n + frac_to_add))
  else finish (nd_secs n) (nd_nano n).

(** [NaiveDateTime - TimeDelta] *)
Definition ndt_sub_td (n : ndt) (t : tdelta) : outcome ndt := ndt_add_td n (- t).

(** [NaiveDateTime - NaiveDateTime] ([signed_duration_since]); it never
    overflows on the supported range. *)
Definition ndt_diff (a b : ndt) : tdelta :=
  let leap :=
    if (nd_secs b <? nd_secs a) && (NANOS <=? nd_nano b) then 1
    else if (nd_secs a <? nd_secs b) && (NANOS <=? nd_nano a) then -1 else 0 in
  (nd_date a - nd_date b) * 86400 * NANOS
  + (nd_secs a - nd_secs b + leap) * NANOS + (nd_nano a - nd_nano b).

Definition ndt_add_months (n : ndt) (months : Z) : outcome ndt :=
  let* d := date_add_months (nd_date n) months in Ok (mk_ndt d (nd_secs n) (nd_nano n)).
Definition ndt_with_year (n : ndt) (y : Z) : option ndt :=
  option_map (fun d => mk_ndt d (nd_secs n) (nd_nano n)) (date_with_year (nd_date n) y).

(** UTC timestamp of a naive date-time. *)
Definition ndt_ts (n : ndt) : Z := nd_date n * 86400 + nd_secs n.
(** [checked_add_offset]: shifts by whole seconds, keeps the fraction.
    Simplification: the overflow at the two extreme days of the supported range
    is not modelled. *)
Definition ndt_shift (n : ndt) (off : Z) : ndt :=
  let s := nd_secs n + off in
  mk_ndt (nd_date n + s / 86400) (s mod 86400) (nd_nano n).

(** ** [DateTime<Local>]: an instant, given as its UTC date-time; its offset is
    [tz_offset] at that instant. Equality and order of [DateTime<Tz>] are those
    of the UTC date-time. *)
Section Local.
  Context {E : Env}.
  (** [DateTime::<Local>::naive_local] *)
  Definition naive_local (u : ndt) : ndt := ndt_shift u (tz_offset (ndt_ts u)).
  (** [naive.and_local_timezone(Local)] / [Local.from_local_datetime] *)
  Inductive mapped_dt := DNone | DSingle (u : ndt) | DAmbiguous (early late : ndt).
  Definition from_local (l : ndt) : mapped_dt :=
    match tz_local (ndt_ts l) with
    | MNone => DNone
    | MSingle o => DSingle (ndt_shift l (- o))
    | MAmbiguous a b => DAmbiguous (ndt_shift l (- a)) (ndt_shift l (- b))
    end.
  (** [MappedLocalTime::single] *)
  Definition single (m : mapped_dt) : option ndt :=
    match m with DSingle u => Some u | _ => None end.
  (** [MappedLocalTime::earliest] *)
  Definition earliest (m : mapped_dt) : option ndt :=
    match m with DSingle u => Some u | DAmbiguous a _ => Some a | DNone => None end.
  Definition unwrap {A} (o : option A) : outcome A :=
    match o with Some a => Ok a | None => Panic end.
  (** [DateTime<Local> + TimeDelta]: on the instant. *)
  Definition local_add_td (u : ndt) (t : tdelta) : outcome ndt := ndt_add_td u t.
  (** [DateTime<Local> + Months]: on the wall clock, panics unless the result is
      a unique local time. *)
  Definition local_add_months (u : ndt) (months : Z) : outcome ndt :=
    let* l := ndt_add_months (naive_local u) months in unwrap (single (from_local l)).
  (** [DateTime<Local>::with_year] ([map_local]); [None] is the failure that
      src/properties/recur.rs:113 unwraps. *)
  Definition local_with_year (u : ndt) (y : Z) : option ndt :=
    let l := naive_local u in
    match (if date_year (nd_date l) =? y then Some l else ndt_with_year l y) with
    | Some l' => single (from_local l')
    | None => None
    end.
  Definition local_year (u : ndt) : Z := date_year (nd_date (naive_local u)).
End Local.

(** ** Formatting: [%Y%m%d], [%Y%m%dT%H%M%S] *)
Definition show_year (y : Z) : str :=
  if (0 <=? y) && (y <? 10000) then show_pad 4 y
  else if y <? 0 then 45 :: show_pad 4 (- y) else 43 :: show_pad 4 y.
(** [date.format("%Y%m%d")], src/properties/date.rs:204 *)
Definition date_show (d : ndate) : str :=
  let '(y, m, dd) := ymd_of_days d in show_year y ++ show_pad 2 m ++ show_pad 2 dd.
Definition time_show (secs nano : Z) : str :=
  show_pad 2 (secs / 3600) ++ show_pad 2 (secs / 60 mod 60)
  ++ show_pad 2 (secs mod 60 + nano / NANOS).
(** [naive.format("%Y%m%dT%H%M%S")], src/properties/date.rs:104 *)
Definition ndt_show (n : ndt) : str :=
  date_show (nd_date n) ++ lit "T" ++ time_show (nd_secs n) (nd_nano n).

(** ** Parsing ([format::parse], [scan::number]) *)
Fixpoint take_digits (max : nat) (s : str) : str * str :=
  match max with
  | O => ([], s)
  | S k => match s with
           | c :: r => if is_digit c then let (a, b) := take_digits k r in (c :: a, b)
                       else ([], s)
           | [] => ([], [])
           end
  end.
(** [scan::number(s, 1, max)] *)
Definition scan_number (max : nat) (s : str) : option (str * Z) :=
  let (ds, rest) := take_digits max s in
  match ds with
  | [] => None
  | _ => if digits_val ds <=? I64MAX then Some (rest, digits_val ds) else None
  end.
Definition trim_start (s : str) : str := drop_while is_whitespace s.
(** A two-digit numeric item. *)
Definition num2 (s : str) : option (str * Z) := scan_number 2 (trim_start s).
(** [%Y]: a sign lifts the limit of four digits. *)
Definition num_year (s : str) : option (str * Z) :=
  match trim_start s with
  | [] => None
  | c :: r =>
      if c =? 45 then
        match scan_number (List.length r) r with
        | Some (rest, v) => Some (rest, - v) | None => None end
      else if c =? 43 then scan_number (List.length r) r
      else scan_number 4 (c :: r)
  end.
Definition lit_char (c : char) (s : str) : option str :=
  match s with x :: r => if x =? c then Some r else None | [] => None end.

Notation "'let?' x ':=' o 'in' b" := (match o with Some x => b | None => None end)
  (at level 200, x pattern, o at level 100, b at level 200).

(** [%Y%m%d] *)
Definition scan_ymd (s : str) : option (str * (Z * Z * Z)) :=
  let? (s1, y) := num_year s in
  let? (s2, m) := num2 s1 in
  let? (s3, d) := num2 s2 in
  Some (s3, (y, m, d)).
(** [NaiveDate::parse_from_str(s, "%Y%m%d")] *)
Definition date_parse (s : str) : option ndate :=
  let? (rest, (y, m, d)) := scan_ymd s in
  match rest with [] => from_ymd_opt y m d | _ => None end.
(** [NaiveDateTime::parse_from_str(s, "%Y%m%dT%H%M%S" ++ suffix)] *)
Definition hms (d : ndate) (h mi se : Z) : option ndt :=
  if (0 <=? h) && (h <=? 23) && (0 <=? mi) && (mi <=? 59) && (0 <=? se) && (se <=? 60)
  then if se =? 60 then Some (mk_ndt d (h * 3600 + mi * 60 + 59) NANOS)
       else Some (mk_ndt d (h * 3600 + mi * 60 + se) 0)
  else None.
Definition ndt_parse (suffix : str) (s : str) : option ndt :=
  let? (s1, (y, m, d)) := scan_ymd s in
  let? s2 := lit_char 84 s1 in
  let? (s3, h) := num2 s2 in
  let? (s4, mi) := num2 s3 in
  let? (s5, se) := num2 s4 in
  let? rest := strip_prefix suffix s5 in
  match rest with
  | [] => let? dd := from_ymd_opt y m d in hms dd h mi se
  | _ => None
  end.

(** ** [FixedOffset] (seconds east of UTC, strictly within +-86400) *)
Definition two_digits (s : str) : option (str * Z * Z) :=
  match s with
  | a :: b :: r => if is_digit a && is_digit b then Some (r, a - 48, b - 48) else None
  | _ => None
  end.
(** [FixedOffset::from_str] ([scan::timezone_offset(s, colon_or_space, false,
    false, true)]), src/parser/timezone.rs:25,32. What follows the minutes is
    ignored. [None] is any error. *)
Definition offset_parse (s : str) : option Z :=
  match s with
  | [] => None
  | c :: r =>
      if (c =? 43) || (c =? 45) || (c =? 8722) then
        let? (r1, h1, h2) := two_digits r in
        let r2 := drop_while (fun c => (c =? 58) || is_whitespace c) r1 in
        let? (_, m1, m2) := two_digits r2 in
        if m1 <=? 5 then
          let secs := (h1 * 10 + h2) * 3600 + (m1 * 10 + m2) * 60 in
          let v := if c =? 43 then secs else - secs in
          if (-86400 <? v) && (v <? 86400) then Some v else None
        else None
      else None
  end.
