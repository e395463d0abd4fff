(** * [DateTime::format] and [Date::format]: src/properties/date.rs:16-25,166-175.

    They pass the format to chrono's [StrftimeItems]; the result is rendered by [to_string],
    which panics when the format is malformed or asks for what the value does not have.
    Modelled: text, [%%], [%n], [%t] and the specifiers of [spec_of] below, without padding
    modifiers. [None]: the format has another specifier of chrono's, outside this model. *)
From Verif Require Import Base Env Chrono Types.

(** What chrono formats: a date, maybe a time of day, maybe an offset from UTC (in seconds). *)
Record moment := mk_moment { mo_date : ndate; mo_time : option (Z * Z); mo_off : option Z }.

(** The meaning of the specifiers. *)
Inductive spec :=
| FYear | FYear2 | FMonth | FMonthName | FMonthShort | FDay | FDaySp | FWeekdayName | FWeekdayShort | FFromSunday | FFromMonday | FOrdinal | FWeekSunday | FWeekMonday | FIsoYear | FIsoYear2 | FIsoWeek
| FHour | FHourSp | FHour12 | FHour12Sp | FAmpm | FAmpmLow | FMinute | FSecond | FNanos | FOffset | FTimestamp | FText (s : str).
Definition spec_table : list (str * list spec) :=
  [(lit "Y", [FYear]); (lit "y", [FYear2]); (lit "m", [FMonth]); (lit "B", [FMonthName]); (lit "b", [FMonthShort]); (lit "h", [FMonthShort]);
   (lit "d", [FDay]); (lit "e", [FDaySp]); (lit "A", [FWeekdayName]); (lit "a", [FWeekdayShort]); (lit "w", [FFromSunday]); (lit "u", [FFromMonday]); (lit "j", [FOrdinal]); (lit "U", [FWeekSunday]); (lit "W", [FWeekMonday]); (lit "G", [FIsoYear]); (lit "g", [FIsoYear2]); (lit "V", [FIsoWeek]);
   (lit "H", [FHour]); (lit "k", [FHourSp]); (lit "I", [FHour12]); (lit "l", [FHour12Sp]); (lit "p", [FAmpm]); (lit "P", [FAmpmLow]); (lit "M", [FMinute]); (lit "S", [FSecond]); (lit "f", [FNanos]);
   (lit "z", [FOffset]); (lit "s", [FTimestamp]); (lit "t", [FText [9]]); (lit "n", [FText [10]]); (lit "%", [FText [37]]);
   (lit "D", [FMonth; FText (lit "/"); FDay; FText (lit "/"); FYear2]); (lit "x", [FMonth; FText (lit "/"); FDay; FText (lit "/"); FYear2]);
   (lit "F", [FYear; FText (lit "-"); FMonth; FText (lit "-"); FDay]); (lit "R", [FHour; FText (lit ":"); FMinute]);
   (lit "T", [FHour; FText (lit ":"); FMinute; FText (lit ":"); FSecond]); (lit "X", [FHour; FText (lit ":"); FMinute; FText (lit ":"); FSecond]);
   (lit "r", [FHour12; FText (lit ":"); FMinute; FText (lit ":"); FSecond; FText (lit " "); FAmpm]);
   (lit "c", [FWeekdayShort; FText (lit " "); FMonthShort; FText (lit " "); FDaySp; FText (lit " "); FHour; FText (lit ":"); FMinute; FText (lit ":"); FSecond; FText (lit " "); FYear]);
   (lit "v", [FDaySp; FText (lit "-"); FMonthShort; FText (lit "-"); FYear])].
(** The other characters that chrono accepts after [%]: outside the model. *)
Definition other_specs : str := lit "CqZ+.:#-_0369".
Inductive found := Known (l : list spec) | Unknown | Outside.
Definition spec_of (c : char) : found :=
  match find (fun p => str_eqb (fst p) [c]) spec_table with
  | Some (_, l) => Known l
  | None => if existsb (Z.eqb c) other_specs then Outside else Unknown
  end.
(** The items of a format; [inr false] is an error item, [inr true] one outside the model. *)
Fixpoint items (f : str) : list (spec + bool) :=
  match f with
  | [] => []
  | c :: r =>
      if c =? 37 then
        match r with
        | [] => [inr false]
        | d :: r' => match spec_of d with Known l => map inl l | Unknown => [inr false] | Outside => [inr true] end ++ items r'
        end
      else inl (FText [c]) :: items r
  end.

(** ** Rendering one item *)
Definition month_names : list str := [lit "January"; lit "February"; lit "March"; lit "April"; lit "May"; lit "June"; lit "July"; lit "August"; lit "September"; lit "October"; lit "November"; lit "December"].
Definition weekday_long : list str := [lit "Sunday"; lit "Monday"; lit "Tuesday"; lit "Wednesday"; lit "Thursday"; lit "Friday"; lit "Saturday"].
(** Days since Sunday; 1970-01-01 was a Thursday. *)
Definition from_sunday (n : ndate) : Z := (n + 4) mod 7.
Definition show_space (w : nat) (n : Z) : str := let s := show_nat n in repeat 32 (w - List.length s) ++ s.
(** chrono [OffsetFormat]: rounded to the nearest minute *)
Definition offset_item (off : Z) : str :=
  let m := (Z.abs off + 30) / 60 in (if off <? 0 then 45 else 43) :: show_pad 2 (m / 60) ++ show_pad 2 (m mod 60).
Definition hour12 (secs : Z) : Z := let h := secs / 3600 mod 12 in if h =? 0 then 12 else h.
(** chrono [Datelike::weeks_from]: the day of the year, less the days since the last [first], plus 6, in sevens *)
Definition weeks_from (first : Z) (n : ndate) : Z :=
  (n - days_of_ymd (date_year n) 1 1 + 1 - (from_sunday n - first) mod 7 + 6) / 7.
(** The Thursday of the week from Monday to Sunday: its year and its place in it are those of chrono's [iso_week] *)
Definition iso_thursday (n : ndate) : ndate := n - (from_sunday n - 1) mod 7 + 3.
Definition iso_year (n : ndate) : Z := date_year (iso_thursday n).
Definition iso_week (n : ndate) : Z := (iso_thursday n - days_of_ymd (iso_year n) 1 1) / 7 + 1.
(** [None]: the value has no time, or no offset ([fmt::Error]). *)
Definition render (m : moment) (i : spec) : option str :=
  let '(y, mo, d) := ymd_of_days (mo_date m) in
  let time (f : Z -> Z -> str) : option str := match mo_time m with Some (s, n) => Some (f s n) | None => None end in
  match i with
  | FYear => Some (show_year y) | FYear2 => Some (show_pad 2 (y mod 100)) | FMonth => Some (show_pad 2 mo)
  | FMonthName => Some (nth (Z.to_nat (mo - 1)) month_names []) | FMonthShort => Some (firstn 3 (nth (Z.to_nat (mo - 1)) month_names []))
  | FDay => Some (show_pad 2 d) | FDaySp => Some (show_space 2 d)
  | FWeekdayName => Some (nth (Z.to_nat (from_sunday (mo_date m))) weekday_long [])
  | FWeekdayShort => Some (firstn 3 (nth (Z.to_nat (from_sunday (mo_date m))) weekday_long []))
  | FFromSunday => Some (show_nat (from_sunday (mo_date m)))
  | FFromMonday => Some (show_nat (let w := from_sunday (mo_date m) in if w =? 0 then 7 else w))
  | FOrdinal => Some (show_pad 3 (mo_date m - days_of_ymd y 1 1 + 1))
  | FWeekSunday => Some (show_pad 2 (weeks_from 0 (mo_date m))) | FWeekMonday => Some (show_pad 2 (weeks_from 1 (mo_date m)))
  | FIsoYear => Some (show_year (iso_year (mo_date m))) | FIsoYear2 => Some (show_pad 2 (iso_year (mo_date m) mod 100))
  | FIsoWeek => Some (show_pad 2 (iso_week (mo_date m)))
  | FHour => time (fun s _ => show_pad 2 (s / 3600)) | FHourSp => time (fun s _ => show_space 2 (s / 3600))
  | FHour12 => time (fun s _ => show_pad 2 (hour12 s)) | FHour12Sp => time (fun s _ => show_space 2 (hour12 s))
  | FAmpm => time (fun s _ => if s / 3600 <? 12 then lit "AM" else lit "PM") | FAmpmLow => time (fun s _ => if s / 3600 <? 12 then lit "am" else lit "pm")
  | FMinute => time (fun s _ => show_pad 2 (s / 60 mod 60)) | FSecond => time (fun s n => show_pad 2 (s mod 60 + n / NANOS))
  | FNanos => time (fun _ n => show_pad 9 (n mod NANOS))
  | FOffset => match mo_off m with Some o => Some (offset_item o) | None => None end
  | FTimestamp => time (fun s _ => show_int (mo_date m * 86400 + s - match mo_off m with Some o => o | None => 0 end))
  | FText s => Some s
  end.
(** [format(fmt).to_string()] *)
Fixpoint render_all (m : moment) (l : list (spec + bool)) : option (outcome str) :=
  match l with
  | [] => Some (Ok [])
  | inr true :: _ => None
  | inr false :: r => match render_all m r with Some _ => Some Panic | None => None end
  | inl i :: r => match render_all m r with
                  | Some o => Some (match render m i with Some s => let* t := o in Ok (s ++ t) | None => Panic end)
                  | None => None end
  end.
Section Env.
Context {E : Env}.
(** src/properties/date.rs:16-25 *)
Definition moment_of_datetime (d : datetime) : moment :=
  match d with
  | Naive n => mk_moment (nd_date n) (Some (nd_secs n, nd_nano n)) None
  | Local u => let n := naive_local u in mk_moment (nd_date n) (Some (nd_secs n, nd_nano n)) (Some (tz_offset (ndt_ts u)))
  end.
(** src/properties/date.rs:166-175 *)
Definition moment_of_date (d : date) : moment :=
  match d with DDate n => mk_moment n None None | DDateTime t => moment_of_datetime t end.
Definition dt_format (d : datetime) (f : str) : option (outcome str) := render_all (moment_of_datetime d) (items f).
Definition date_format (d : date) (f : str) : option (outcome str) := render_all (moment_of_date d) (items f).
End Env.
