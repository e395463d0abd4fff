(** * Data types of the crate (src/properties, src/content_line.rs). *)
From Verif Require Import Base Env Chrono.

(** src/content_line.rs:7-12 *)
Record content_line := mk_cl { cl_key : str; cl_params : smap str; cl_value : str }.
(** src/content_line.rs:34-48 [From<String>/From<&str> for ContentLine] *)
Definition cl_of_str (s : str) : content_line := mk_cl [] [] s.

(** src/properties/text.rs:6-10 *)
Record text := mk_text { t_params : smap str; t_text : str }.
(** src/properties/text.rs:12-19,44-57 [From<&str>/From<String> for Text] *)
Definition text_of_str (s : str) : text := mk_text [] s.
(** src/properties/text.rs:21-28 [From<ContentLine> for Text] *)
Definition text_of_cl (c : content_line) : text := mk_text (cl_params c) (cl_value c).

(** src/properties/uri.rs:6-10 *)
Record uri := mk_uri { u_params : smap str; u_uri : str }.
(** src/properties/uri.rs:35-51 [From<String>/From<&str> for Uri] *)
Definition uri_of_str (s : str) : uri := mk_uri [] s.
(** src/properties/uri.rs:12-19 [From<ContentLine> for Uri] *)
Definition uri_of_cl (c : content_line) : uri := mk_uri (cl_params c) (cl_value c).

(** src/properties/geo.rs:4-8 *)
Record geo := mk_geo { g_lat : f32; g_lon : f32 }.
(** src/properties/request_status.rs:4-9 *)
Record request_status := mk_rs { rs_code : f32; rs_desc : str; rs_ext : option str }.

(** src/properties/date.rs:1-5 *)
Inductive datetime := Naive (n : ndt) | Local (u : ndt).
(** src/properties/date.rs:151-155 *)
Inductive date := DDate (d : ndate) | DDateTime (t : datetime).

(** src/properties/period.rs:4-8,69-73,98-102 *)
Inductive period :=
| StartEnd (start fin : datetime)
| StartDur (start : datetime) (dur : tdelta).
(** src/properties/rdate.rs:1-5 *)
Inductive rdate := RDates (l : list date) | RPeriods (l : list period).
(** src/properties/trigger.rs:5-9 *)
Inductive trigger := TrDateTime (d : datetime) | TrDuration (d : tdelta).

(** src/properties/class.rs:4-11 *)
Inductive class := Public | Private | Confidential | Custom (s : str).
(** src/properties/status.rs:4-22 *)
Inductive status :=
| Tentative | Confirmed | Cancelled | NeedsAction | Completed | InProcess | Draft | Final.
(** src/properties/time_transparency.rs:4-10 *)
Inductive transparency := Opaque | Transparent.
(** src/properties/recur.rs:138-148, in the derived order. *)
Inductive freq := Secondly | Minutely | Hourly | Daily | Weekly | Monthly | Yearly.
(** src/properties/recur.rs:248-257 *)
Inductive weekday := Sunday | Monday | Tuesday | Wednesday | Thursday | Friday | Saturday.
(** src/properties/recur.rs:204-208 *)
Record weekdaynum := mk_wdn { wn_weekday : weekday; wn_ord : option Z }.

(** src/properties/recur.rs:6-31; [count] and [interval] are [u8], the lists are
    [i8]. *)
Record recur := mk_recur {
  r_freq : freq;
  r_until : option date;
  r_count : option Z;
  r_interval : Z;
  r_by_second : list Z;
  r_by_minute : list Z;
  r_by_hour : list Z;
  r_by_day : list weekdaynum;
  r_by_monthday : list Z;
  r_by_yearday : list Z;
  r_by_weekno : list Z;
  r_by_month : list Z;
  r_by_setpos : list Z;
  r_wkst : option weekday;
}.

Section Dates.
  Context {E : Env}.

  (** src/properties/date.rs:27-33 [DateTime::naive]; also
      [From<DateTime> for NaiveDateTime], date.rs:62-69 *)
  Definition dt_naive (d : datetime) : ndt :=
    match d with Naive n => n | Local u => naive_local u end.
  (** src/properties/date.rs:8-14 [DateTime::date_naive] *)
  Definition dt_date_naive (d : datetime) : ndate := nd_date (dt_naive d).
  (** src/properties/date.rs:158-164 [Date::date_naive]; also
      [From<Date> for NaiveDate], date.rs:234-241 *)
  Definition date_naive (d : date) : ndate :=
    match d with DDate n => n | DDateTime t => dt_date_naive t end.
  (** src/properties/date.rs:178-180 [Date::has_time] *)
  Definition date_has_time (d : date) : bool :=
    match d with DDate _ => false | DDateTime _ => true end.
  (** src/properties/date.rs:42-49 [From<Date> for DateTime] *)
  Definition datetime_of_date (d : date) : datetime :=
    match d with DDate n => Naive (midnight n) | DDateTime t => t end.
  (** src/properties/date.rs:71-83 [TryFrom<DateTime> for chrono::DateTime<Local>] *)
  Definition dt_try_local (d : datetime) : outcome ndt :=
    match d with
    | Naive n => match earliest (from_local n) with Some u => Ok u | None => Err ELocal end
    | Local u => Ok u
    end.
  (** src/properties/date.rs:85-91 [DateTime - DateTime] *)
  Definition dt_sub (a b : datetime) : tdelta := ndt_diff (dt_naive a) (dt_naive b).
  (** src/properties/date.rs:93-99 [DateTime - Duration] *)
  Definition dt_sub_td (a : datetime) (t : tdelta) : outcome ndt := ndt_sub_td (dt_naive a) t.
  (** src/properties/date.rs:138-147 [DateTime + TimeDelta] *)
  Definition dt_add_td (a : datetime) (t : tdelta) : outcome datetime :=
    match a with
    | Naive n => omap Naive (ndt_add_td n t)
    | Local u => omap Local (local_add_td u t)
    end.
  (** src/properties/date.rs:260-269 [Date + TimeDelta] *)
  Definition date_plus_td (a : date) (t : tdelta) : outcome date :=
    match a with
    | DDate d => omap DDate (date_add_td d t)
    | DDateTime d => omap DDateTime (dt_add_td d t)
    end.

  (** src/properties/date.rs:132-136 [Ord for DateTime] *)
  Definition dt_cmp (a b : datetime) : comparison := ndt_cmp (dt_naive a) (dt_naive b).
  (** src/properties/date.rs:249-258 [Ord for Date] *)
  Definition date_cmp (a b : date) : comparison :=
    match a, b with
    | DDate x, DDate y => x ?= y
    | DDateTime x, DDateTime y => dt_cmp x y
    | DDate x, DDateTime y => x ?= dt_date_naive y
    | DDateTime x, DDate y => dt_date_naive x ?= y
    end.
  (** The [<] of [PartialOrd for Date], src/properties/date.rs:243-247 *)
  Definition date_ltb (a b : date) : bool :=
    match date_cmp a b with Lt => true | _ => false end.
  (** Derived [PartialEq] of [DateTime] and [Date], date.rs:1,151 *)
  Definition dt_eqb (a b : datetime) : bool :=
    match a, b with
    | Naive x, Naive y => ndt_eqb x y
    | Local x, Local y => ndt_eqb x y
    | _, _ => false
    end.
  Definition date_eqb (a b : date) : bool :=
    match a, b with
    | DDate x, DDate y => x =? y
    | DDateTime x, DDateTime y => dt_eqb x y
    | _, _ => false
    end.

  (** src/properties/period.rs:10-18 [Period::duration] *)
  Definition period_duration (p : period) : tdelta :=
    match p with StartEnd s e => dt_sub e s | StartDur _ d => d end.
  (** src/properties/period.rs:50-54 [Ord for Period]; 81-88 [Ord for StartEnd] is
      the same comparison. *)
  Definition period_cmp (a b : period) : comparison :=
    period_duration a ?= period_duration b.
  (** src/properties/period.rs:110-117 [Ord for StartDur] *)
  Definition startdur_cmp (s1 : datetime) (d1 : tdelta) (s2 : datetime) (d2 : tdelta)
    : outcome comparison :=
    let* a := dt_sub_td s1 d1 in
    let* b := dt_sub_td s2 d2 in
    Ok (ndt_cmp a b).
End Dates.

(** Derived [Default]s: src/properties/date.rs:36-40,183-187, trigger.rs:11-15,
    recur.rs:6,138-148, text.rs:6, uri.rs:6, geo.rs:4, class.rs:4-11,
    rdate.rs:7-18. *)
Definition datetime_default : datetime := Naive epoch.
Definition date_default : date := DDateTime datetime_default.
Definition trigger_default : trigger := TrDuration 0.
Definition text_default : text := mk_text [] [].
Definition uri_default : uri := mk_uri [] [].
Definition rdate_default : rdate := RDates [].
Definition recur_default : recur :=
  mk_recur Daily None None 0 [] [] [] [] [] [] [] [] [] None.
