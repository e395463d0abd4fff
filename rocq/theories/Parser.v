(** * Reading: src/parser (except components.rs), the [FromStr] impls of
    src/properties, and [parse_duration] of src/lib.rs. *)
From Verif Require Import Base Env Chrono Nom Types.

(** src/parser/mod.rs:44-50 *)
Definition is_alphanumeric (c : char) : bool :=
  is_alpha c || is_digit c || ((c =? 45) || (c =? 47)).
(** src/parser/mod.rs:52-54 *)
Definition is_line_ending (c : char) : bool := (c =? LF) || (c =? CR).
(** src/parser/mod.rs:56-58 *)
Definition p_digits : parser str := take_while is_digit.
(** src/parser/mod.rs:60-62 *)
Definition p_key : parser str := take_while is_alphanumeric.
(** src/parser/mod.rs:64-70 *)
Definition p_attr : parser str :=
  preceded (popt (tag (CRLF ++ [32]))) (take_till (fun c => (c =? 59) || (c =? 58))).
(** src/parser/mod.rs:72-74 *)
Definition p_value : parser str := take_till is_line_ending.
(** src/parser/mod.rs:76-86 *)
Definition p_quoted_param : parser (str * str) :=
  separated_pair p_key (tag [61; 34]) (take_till (fun c => c =? 34)).
(** src/parser/mod.rs:88-100 *)
Definition p_param : parser (str * str) :=
  palt (delimited (pchar 59) p_quoted_param (pchar 34))
       (preceded (pchar 59) (separated_pair p_key (pchar 61) p_attr)).
(** src/parser/mod.rs:102-111 *)
Definition p_params : parser (smap str) :=
  fold_many0 p_param [] (fun acc kv => minsert (fst kv) (snd kv) acc).
(** src/parser/mod.rs:116-137 *)
Definition p_content_line : parser content_line :=
  do _ <- pnot (tag (lit "BEGIN:")) ;;
  do _ <- pnot (tag (lit "END:")) ;;
  do k <- p_key ;;
  do ps <- p_params ;;
  do _ <- pchar 58 ;;
  do v <- popt p_value ;;
  do _ <- line_ending ;;
  pret (mk_cl k ps (match v with Some v => v | None => [] end)).
(** src/parser/mod.rs:139-148 *)
Definition p_content_lines : parser (list content_line) :=
  fold_many0 p_content_line [] (fun acc v => acc ++ [v]).

(** src/parser/mod.rs:153-169, the table *)
Definition weekday_of (a b : char) : outcome weekday :=
  if str_eqb [a; b] (lit "SU") then Ok Sunday
  else if str_eqb [a; b] (lit "MO") then Ok Monday
  else if str_eqb [a; b] (lit "TU") then Ok Tuesday
  else if str_eqb [a; b] (lit "WE") then Ok Wednesday
  else if str_eqb [a; b] (lit "TH") then Ok Thursday
  else if str_eqb [a; b] (lit "FR") then Ok Friday
  else if str_eqb [a; b] (lit "SA") then Ok Saturday
  else Err (EWeekday [a; b]).
(** src/parser/mod.rs:150-172 *)
Definition p_weekday : parser weekday :=
  pmap_res (do a <- anychar ;; do b <- anychar ;; pret (a, b)) (fun '(a, b) => weekday_of a b).
(** src/parser/mod.rs:174-183 *)
Definition p_weekdaynum : parser weekdaynum :=
  do o <- popt nom_i8 ;; do w <- p_weekday ;; pret (mk_wdn w o).

(** ** Values: src/parser/datatype.rs *)
(** src/parser/datatype.rs:21-31 *)
Definition p_date : parser ndate :=
  fun s => match date_parse s with Some d => POk [] d | None => PErr end.
(** src/parser/datatype.rs:36-56 *)
Definition p_date_time : parser datetime :=
  fun s => match ndt_parse [] (trim_end_char 90 s) with
           | None => PErr
           | Some n => POk [] (if ends_with_char 90 s then Local n else Naive n)
           end.
(** src/parser/datatype.rs:58-67 *)
Definition p_date_or_dt : parser date := palt (pmap p_date DDate) (pmap p_date_time DDateTime).

(** src/parser/datatype.rs:73-87,106-128: digits then a letter, read as [i64] *)
Definition p_unit (c : char) : parser Z :=
  pmap_res (terminated p_digits (tag [c]))
    (fun ds => match parse_signed I64MAX ds with Some v => Ok v | None => Err EParseInt end).
(** src/parser/datatype.rs:89-104 *)
Definition or0 (o : option Z) : Z := match o with Some v => v | None => 0 end.
Definition p_time : parser (Z * Z * Z) :=
  do _ <- tag (lit "T") ;;
  do h <- popt (p_unit 72) ;; do i <- popt (p_unit 77) ;; do s <- popt (p_unit 83) ;;
  pret (or0 h, or0 i, or0 s).
(** src/parser/datatype.rs:137-149 *)
Definition make_duration (neg : bool) (w d : Z) (t : option (Z * Z * Z)) : outcome tdelta :=
  let* dw := td_weeks w in
  let* dd := td_days d in
  let* wd := td_add dw dd in
  let* r :=
    match t with
    | None => Ok wd
    | Some (h, i, s) =>
        let* dh := td_hours h in let* a := td_add wd dh in
        let* di := td_minutes i in let* b := td_add a di in
        let* ds := td_seconds s in td_add b ds
    end in
  Ok (if neg then td_neg r else r).
(** src/parser/datatype.rs:72-153. The closure is infallible but may panic, hence
    [pmap_res]. *)
Definition p_duration : parser tdelta :=
  pmap_res
    (do neg <- popt (tag (lit "-")) ;;
     do _ <- tag (lit "P") ;;
     do w <- popt (p_unit 87) ;; do d <- popt (p_unit 68) ;; do t <- popt p_time ;;
     pret (neg, w, d, t))
    (fun '(neg, w, d, t) =>
       make_duration (match neg with Some _ => true | None => false end) (or0 w) (or0 d) t).

(** src/parser/datatype.rs:158-176 *)
Definition parse_period (s : str) : outcome period :=
  let (t0, t1) := splitn2 47 s in
  let* start := pfinish (p_date_time t0) in
  match t1 with
  | None => Panic
  | Some t1 =>
      if starts_with (lit "P") t1
      then let* d := pfinish (p_duration t1) in Ok (StartDur start d)
      else let* e := pfinish (p_date_time t1) in Ok (StartEnd start e)
  end.

(** ** Properties: one function per content line key *)
(** The parsers of the form [Ok(input.into())]: tzid, tzname (parser/timezone.rs:8-17),
    contact, related_to, uid (relationship.rs:18-20,44-46,58-60), calscale, method,
    prodid, version (properties.rs:8-31), action (alarm.rs:8-10), attach, comment,
    description, location, summary (descriptive.rs:8-10,29-38,61-63,102-104; datatype.rs:181-183). *)
Definition parse_text (c : content_line) : outcome text := Ok (text_of_cl c).
(** tzurl (parser/timezone.rs:38-40), attendee, organizer, url
    (relationship.rs:8-13,25-30,51-53; datatype.rs:14-16,188-190) *)
Definition parse_uri (c : content_line) : outcome uri := Ok (uri_of_cl c).
(** created, dtstamp, last_modified (parser/change.rs:8-30), completed (datetime.rs:8-12) *)
Definition parse_datetime (c : content_line) : outcome datetime := pfinish (p_date_time (cl_value c)).
(** dtend, due, dtstart (parser/datetime.rs:17-39), recurid (relationship.rs:35-39) *)
Definition parse_date (c : content_line) : outcome date := pfinish (p_date_or_dt (cl_value c)).
(** parser/datetime.rs:44-48 *)
Definition parse_dur (c : content_line) : outcome tdelta := pfinish (p_duration (cl_value c)).
Definition parse_int (o : option Z) : outcome Z :=
  match o with Some v => Ok v | None => Err EParseInt end.
(** sequence (parser/change.rs:35-37), repeat (alarm.rs:15-17) *)
Definition parse_u32 (c : content_line) : outcome Z := parse_int (parse_unsigned U32MAX (cl_value c)).
(** parser/descriptive.rs:68-70 *)
Definition parse_percent (c : content_line) : outcome Z := parse_int (parse_unsigned U8MAX (cl_value c)).
(** parser/descriptive.rs:75-83 *)
Definition parse_priority (c : content_line) : outcome Z :=
  let* p := parse_int (parse_unsigned U8MAX (cl_value c)) in
  if 9 <? p then Err (EPriority p) else Ok p.
(** categories, resources (parser/descriptive.rs:15-17,88-90) *)
Definition parse_texts (c : content_line) : outcome (list text) :=
  Ok (map text_of_str (split_on 44 (cl_value c))).
(** parser/datetime.rs:53-59 *)
Definition parse_freebusy (c : content_line) : outcome (list period) :=
  ocollect parse_period (split_on 44 (cl_value c)).
(** parser/recurrence.rs:8-18 *)
Definition parse_exdate (c : content_line) : outcome (list date) :=
  ocollect (fun x => pfinish (p_date_or_dt x)) (split_on 44 (cl_value c)).
(** parser/recurrence.rs:23-43 *)
Definition parse_rdate (c : content_line) : outcome rdate :=
  let tokens := split_on 44 (cl_value c) in
  match mget (lit "VALUE") (cl_params c) with
  | Some v =>
      if str_eqb v (lit "PERIOD") then omap RPeriods (ocollect parse_period tokens)
      else omap RDates (ocollect (fun x => pfinish (p_date_or_dt x)) tokens)
  | None => omap RDates (ocollect (fun x => pfinish (p_date_or_dt x)) tokens)
  end.
(** tzoffsetfrom, tzoffsetto (parser/timezone.rs:22-33) *)
Definition parse_offset (c : content_line) : outcome Z :=
  match offset_parse (cl_value c) with Some o => Ok o | None => Err EDate end.
(** properties/class.rs:29-42 [FromStr for Class]; parser/descriptive.rs:22-24 *)
Definition class_of_str (s : str) : outcome class :=
  if str_eqb s (lit "PUBLIC") then Ok Public
  else if str_eqb s (lit "PRIVATE") then Ok Private
  else if str_eqb s (lit "CONFIDENTIAL") then Ok Confidential
  else Ok (Custom s).
Definition parse_class (c : content_line) : outcome class := class_of_str (cl_value c).
(** properties/status.rs:40-59; parser/descriptive.rs:95-97 *)
Definition status_of_str (s : str) : outcome status :=
  if str_eqb s (lit "TENTATIVE") then Ok Tentative
  else if str_eqb s (lit "CONFIRMED") then Ok Confirmed
  else if str_eqb s (lit "CANCELLED") then Ok Cancelled
  else if str_eqb s (lit "NEEDS-ACTION") then Ok NeedsAction
  else if str_eqb s (lit "COMPLETED") then Ok Completed
  else if str_eqb s (lit "IN-PROCESS") then Ok InProcess
  else if str_eqb s (lit "DRAFT") then Ok Draft
  else if str_eqb s (lit "FINAL") then Ok Final
  else Err (EStatus s).
Definition parse_status (c : content_line) : outcome status := status_of_str (cl_value c).
(** properties/time_transparency.rs:28-41; parser/datetime.rs:64-66 *)
Definition transp_of_str (s : str) : outcome transparency :=
  if str_eqb s (lit "OPAQUE") then Ok Opaque
  else if str_eqb s (lit "TRANSPARENT") then Ok Transparent
  else Err (ETimeTransparency s).
Definition parse_transp (c : content_line) : outcome transparency := transp_of_str (cl_value c).
(** properties/recur.rs:166-184 *)
Definition freq_of_str (s : str) : outcome freq :=
  if str_eqb s (lit "SECONDLY") then Ok Secondly
  else if str_eqb s (lit "MINUTELY") then Ok Minutely
  else if str_eqb s (lit "HOURLY") then Ok Hourly
  else if str_eqb s (lit "DAILY") then Ok Daily
  else if str_eqb s (lit "WEEKLY") then Ok Weekly
  else if str_eqb s (lit "MONTHLY") then Ok Monthly
  else if str_eqb s (lit "YEARLY") then Ok Yearly
  else Err (EFreq s).
(** properties/recur.rs:226-234 *)
Definition wdn_of_str (s : str) : outcome weekdaynum := pfinish (p_weekdaynum s).
(** properties/recur.rs:275-283 *)
Definition weekday_of_str (s : str) : outcome weekday := pfinish (p_weekday s).

(** parser/alarm.rs:22-34 *)
Definition parse_trigger (c : content_line) : outcome trigger :=
  pfinish (palt (pmap p_duration TrDuration) (pmap p_date_time TrDateTime) (cl_value c)).

(** ** RRULE: parser/recurrence.rs:48-134 *)
(** parser/recurrence.rs:57-66 *)
Definition p_item : parser (str * str) :=
  terminated (separated_pair p_key (pchar 61) (take_till (fun c => c =? 59)))
             (popt (pchar 59)).
(** parser/recurrence.rs:68-74 *)
Definition by_list (s : str) : outcome (list Z) :=
  ocollect (fun x => parse_int (parse_signed I8MAX x)) (split_on 44 s).
(** parser/recurrence.rs:76-78 *)
Definition bywdaylist (s : str) : outcome (list weekdaynum) := ocollect wdn_of_str (split_on 44 s).
(** [map.get(k).map(f).transpose()?] *)
Definition get_with {A} (m : smap str) (k : str) (f : str -> outcome A) : outcome (option A) :=
  match mget k m with None => Ok None | Some v => omap Some (f v) end.
(** [... .unwrap_or_default()] of a list *)
Definition get_list {A} (m : smap str) (k : str) (f : str -> outcome (list A)) : outcome (list A) :=
  let* o := get_with m k f in Ok (match o with Some l => l | None => [] end).
Definition parse_u8 (s : str) : outcome Z := parse_int (parse_unsigned U8MAX s).
(** parser/recurrence.rs:82-129 *)
Definition recur_of_items (items : list (str * str)) : outcome recur :=
  let m := fold_left (fun acc kv => minsert (fst kv) (snd kv) acc) items [] in
  match mget (lit "FREQ") m with
  | None => Panic
  | Some fs =>
      let* freq := freq_of_str fs in
      let* until := get_with m (lit "UNTIL") (fun x => pfinish (p_date_or_dt x)) in
      let* count := get_with m (lit "COUNT") parse_u8 in
      let* interval := get_with m (lit "INTERVAL") parse_u8 in
      let* bysecond := get_list m (lit "BYSECOND") by_list in
      let* byminute := get_list m (lit "BYMINUTE") by_list in
      let* byhour := get_list m (lit "BYHOUR") by_list in
      let* byday := get_list m (lit "BYDAY") bywdaylist in
      let* bymonthday := get_list m (lit "BYMONTHDAY") by_list in
      let* byyearday := get_list m (lit "BYYEARDAY") by_list in
      let* byweekno := get_list m (lit "BYWEEKNO") by_list in
      let* bymonth := get_list m (lit "BYMONTH") by_list in
      let* bysetpos := get_list m (lit "BYSETPOS") by_list in
      let* wkst := get_with m (lit "WKST") weekday_of_str in
      Ok (mk_recur freq until count (match interval with Some i => i | None => 1 end)
            bysecond byminute byhour byday bymonthday byyearday byweekno bymonth bysetpos wkst)
  end.
Definition parse_rrule (c : content_line) : outcome recur :=
  pfinish (pmap_res (many1 p_item) recur_of_items (cl_value c)).
(** properties/recur.rs:49-55 [FromStr for Recur] *)
Definition recur_of_str (s : str) : outcome recur := parse_rrule (cl_of_str s).

Section Env.
  Context {E : Env}.
  (** nom's [float] *)
  Definition p_float : parser f32 :=
    fun s => match f32_parse s with Some (r, v) => POk r v | None => PErr end.
  (** parser/descriptive.rs:43-56; properties/geo.rs:26-32 *)
  Definition parse_geo (c : content_line) : outcome geo :=
    pfinish (pmap (separated_pair p_float (pchar 59) p_float)
               (fun '(a, b) => mk_geo a b) (cl_value c)).
  (** parser/misc.rs:8-44; properties/request_status.rs:27-33 *)
  Definition p_rstatus : parser request_status :=
    do code <- p_float ;; do _ <- pchar 59 ;;
    do desc <- take_till (fun c => c =? 59) ;;
    do ext <- popt (preceded (pchar 59) (take_while (fun _ => true))) ;;
    pret (mk_rs code desc ext).
  Definition parse_rstatus (c : content_line) : outcome request_status :=
    pfinish (p_rstatus (cl_value c)).

  (** ** [FromStr] of the date types: properties/date.rs:110-124 *)
  Definition datetime_of_str (s : str) : outcome datetime :=
    match ndt_parse [] s with
    | Some n => Ok (Naive n)
    | None =>
        match ndt_parse (lit "Z") s with
        | None => Err EDate
        | Some n => omap Local (unwrap (single (from_local n)))
        end
    end.
  (** properties/date.rs:189-199 *)
  Definition date_of_str (s : str) : outcome date :=
    match date_parse s with
    | Some d => Ok (DDate d)
    | None => omap DDateTime (datetime_of_str s)
    end.
End Env.
(** properties/period.rs:36-42 *)
Definition period_of_str (s : str) : outcome period := parse_period s.

(** ** [parse_duration]: src/lib.rs:126-181. *)
(** [n * interval.parse::<i64>()?]: an overflow of the product panics (overflow
    checks are on in debug builds; in release builds it would wrap). *)
Definition mul_i64 (a b : Z) : outcome Z :=
  if (a * b <=? I64MAX) && (- I64MAX - 1 <=? a * b) then Ok (a * b) else Panic.
(** src/lib.rs:159-171: the table, on the digits accumulated so far *)
Definition duration_part (time : bool) (ty : char) (interval : str) : outcome tdelta :=
  let n := parse_int (parse_signed I64MAX interval) in
  if negb time && (ty =? 89) then let* v := n in let* d := mul_i64 365 v in td_days d
  else if negb time && (ty =? 77) then let* v := n in let* d := mul_i64 30 v in td_days d
  else if negb time && (ty =? 68) then let* v := n in td_days v
  else if time && (ty =? 72) then let* v := n in td_hours v
  else if time && (ty =? 77) then let* v := n in td_minutes v
  else if time && (ty =? 83) then let* v := n in td_seconds v
  else Err (EParseDuration interval).
(** src/lib.rs:144-174: [interval] is never cleared. *)
Fixpoint duration_loop (s : str) (time : bool) (interval : str) (acc : tdelta) : outcome tdelta :=
  match s with
  | [] => Ok acc
  | c :: r =>
      if c =? 84 then duration_loop r true interval acc
      else if is_digit c then duration_loop r time (interval ++ [c]) acc
      else let* p := duration_part time c interval in
           let* acc' := td_add acc p in
           duration_loop r time interval acc'
  end.
Definition parse_duration (s : str) : outcome tdelta :=
  let (neg, s1) := match strip_prefix (lit "-") s with
                   | Some r => (true, r) | None => (false, s) end in
  match strip_prefix (lit "P") s1 with
  | None => Err (EParseDuration s)
  | Some s2 => let* d := duration_loop s2 false [] 0 in Ok (if neg then td_neg d else d)
  end.
(** properties/trigger.rs:24-34 [FromStr for Trigger] *)
Definition trigger_of_str {E : Env} (s : str) : outcome trigger :=
  match datetime_of_str s with
  | Ok d => Ok (TrDateTime d)
  | Panic => Panic
  | Err _ => omap TrDuration (parse_duration s)
  end.
