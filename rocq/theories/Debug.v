(** * The Debug texts ([{:#?}]): the output that the crate's own tests compare
    (src/lib.rs:239-277).

    The derived [Debug] of the types of the crate, the hand-written one of
    [ContentLine] and those of chrono and [std] that are reached from them.
    conformance/run.py computes with it that the model reads each file of
    /repo/tests to the expected output. *)
From Verif Require Import Base Env Chrono Nom Types Ser Parser Derive Components.

(** What [core::fmt::builders] are given: a text, [debug_struct], [debug_tuple],
    [debug_list] and [debug_map]. *)
Inductive dbg :=
| GText (s : str)
| GStruct (name : str) (fields : list (str * dbg))
| GTuple (name : str) (items : list dbg)
| GList (items : list dbg)
| GMap (entries : list (str * dbg)).
(** [{:#?}]: one item a line, four columns deeper, with a comma (core::fmt::builders, [PadAdapter]). *)
Definition margin (n : nat) : str := repeat 32 (4 * n).
Definition block_of_lines (n : nat) (open close : str) (items : list str) : str :=
  match items with
  | [] => open ++ close
  | _ => open ++ [LF] ++ concat (map (fun i => margin (S n) ++ i ++ [44; LF]) items) ++ margin n ++ close
  end.
Fixpoint pretty (n : nat) (d : dbg) : str :=
  match d with
  | GText s => s
  | GStruct name fs => block_of_lines n (name ++ lit " {") (lit "}") (map (fun f => match f with (k, v) => k ++ lit ": " ++ pretty (S n) v end) fs)
  | GTuple name items => block_of_lines n (name ++ lit "(") (lit ")") (map (pretty (S n)) items)
  | GList items => block_of_lines n (lit "[") (lit "]") (map (pretty (S n)) items)
  | GMap es => block_of_lines n (lit "{") (lit "}") (map (fun f => match f with (k, v) => k ++ lit ": " ++ pretty (S n) v end) es)
  end.

(** [Debug for str]: [char::escape_debug]. Simplification: a char above 126 is
    written as it is (std writes the unprintable ones as [\u{...}]). *)
Definition hex1 (n : Z) : char := if n <? 10 then 48 + n else 87 + n.
Definition debug_char (c : char) : str :=
  if c =? 0 then lit "\0" else if c =? 9 then lit "\t" else if c =? 13 then lit "\r" else if c =? 10 then lit "\n"
  else if c =? 34 then [92; 34] else if c =? 92 then [92; 92]
  else if (c <? 32) || (c =? 127) then lit "\u{" ++ (if c <? 16 then [hex1 c] else [hex1 (c / 16); hex1 (c mod 16)]) ++ lit "}"
  else [c].
Definition debug_str (s : str) : str := [34] ++ flat_map debug_char s ++ [34].
Definition g_str (s : str) : dbg := GText (debug_str s).
Definition g_int (n : Z) : dbg := GText (show_int n).
Definition g_opt {A} (f : A -> dbg) (o : option A) : dbg :=
  match o with None => GText (lit "None") | Some x => GTuple (lit "Some") [f x] end.
Definition g_list {A} (f : A -> dbg) (l : list A) : dbg := GList (map f l).
(** [BTreeMap<String, _>] *)
Definition g_map {A} (f : A -> dbg) (m : smap A) : dbg := GMap (map (fun e => (debug_str (fst e), f (snd e))) m).

(** chrono: [Debug for TimeDelta] (derived), [NaiveDate], [NaiveTime], [NaiveDateTime] *)
Definition g_td (t : tdelta) : dbg := GStruct (lit "TimeDelta") [(lit "secs", g_int (t / NANOS)); (lit "nanos", g_int (t mod NANOS))].
Definition d2 (n : Z) : str := [48 + n / 10; 48 + n mod 10].
Definition padded (width : nat) (n : Z) : str := let s := show_int n in repeat 48 (width - length s) ++ s.
Definition debug_date (d : ndate) : str :=
  match ymd_of_days d with (y, m, dd) =>
    (if (0 <=? y) && (y <=? 9999) then padded 4 y else (if y <? 0 then [45] else [43]) ++ padded 5 (Z.abs y)) ++ [45] ++ d2 m ++ [45] ++ d2 dd
  end.
Definition debug_time (secs nano : Z) : str :=
  let (s, n) := if NANOS <=? nano then (secs mod 60 + 1, nano - NANOS) else (secs mod 60, nano) in
  d2 (secs / 3600) ++ [58] ++ d2 (secs / 60 mod 60) ++ [58] ++ d2 s ++
  (if n =? 0 then [] else if n mod 1000000 =? 0 then [46] ++ padded 3 (n / 1000000)
   else if n mod 1000 =? 0 then [46] ++ padded 6 (n / 1000) else [46] ++ padded 9 n).
Definition debug_ndt (n : ndt) : str := debug_date (nd_date n) ++ [84] ++ debug_time (nd_secs n) (nd_nano n).
(** chrono: [Debug for FixedOffset] *)
Definition debug_offset (o : Z) : str :=
  let a := Z.abs o in
  (if o <? 0 then [45] else [43]) ++ d2 (a / 3600) ++ [58] ++ d2 (a / 60 mod 60) ++ (if a mod 60 =? 0 then [] else [58] ++ d2 (a mod 60)).
Definition g_offset (o : Z) : dbg := GText (debug_offset o).

Section Debug.
Context {E : Env}.
(** [Debug for f32], which is not its [Display]. *)
Context (f32_debug : f32 -> str).
Definition g_f32 (x : f32) : dbg := GText (f32_debug x).

(** src/content_line.rs:14-21: the key is left out. *)
Definition g_cl (c : content_line) : dbg := GStruct (lit "ContentLine") [(lit "params", g_map g_str (cl_params c)); (lit "value", g_str (cl_value c))].
(** src/properties/text.rs:6-10 *)
Definition g_text (t : text) : dbg := GStruct (lit "Text") [(lit "params", g_map g_str (t_params t)); (lit "text", g_str (t_text t))].
(** src/properties/uri.rs:6-10 *)
Definition g_uri (u : uri) : dbg := GStruct (lit "Uri") [(lit "params", g_map g_str (u_params u)); (lit "uri", g_str (u_uri u))].
(** src/properties/geo.rs:4-8 *)
Definition g_geo (g : geo) : dbg := GStruct (lit "Geo") [(lit "lat", g_f32 (g_lat g)); (lit "lon", g_f32 (g_lon g))].
(** src/properties/request_status.rs:4-9 *)
Definition g_rs (r : request_status) : dbg :=
  GStruct (lit "RequestStatus") [(lit "statcode", g_f32 (rs_code r)); (lit "statdesc", g_str (rs_desc r)); (lit "extdata", g_opt g_str (rs_ext r))].
(** src/properties/date.rs:1-5; chrono's [Debug for DateTime<Local>]: the wall clock and the offset. *)
Definition g_datetime (d : datetime) : dbg :=
  match d with
  | Naive n => GTuple (lit "Naive") [GText (debug_ndt n)]
  | Local u => GTuple (lit "Local") [GText (debug_ndt (naive_local u) ++ debug_offset (tz_offset (ndt_ts u)))]
  end.
(** src/properties/date.rs:151-155 *)
Definition g_date (d : date) : dbg :=
  match d with DDate n => GTuple (lit "Date") [GText (debug_date n)] | DDateTime t => GTuple (lit "DateTime") [g_datetime t] end.
(** src/properties/period.rs:4-8,69-73,98-102 *)
Definition g_period (p : period) : dbg :=
  match p with
  | StartEnd s e => GTuple (lit "StartEnd") [GStruct (lit "StartEnd") [(lit "start", g_datetime s); (lit "end", g_datetime e)]]
  | StartDur s d => GTuple (lit "StartDur") [GStruct (lit "StartDur") [(lit "start", g_datetime s); (lit "duration", g_td d)]]
  end.
(** src/properties/rdate.rs:1-5 *)
Definition g_rdate (r : rdate) : dbg :=
  match r with RDates l => GTuple (lit "Date") [g_list g_date l] | RPeriods l => GTuple (lit "Period") [g_list g_period l] end.
(** src/properties/trigger.rs:5-9 *)
Definition g_trigger (t : trigger) : dbg :=
  match t with TrDateTime d => GTuple (lit "DateTime") [g_datetime d] | TrDuration d => GTuple (lit "Duration") [g_td d] end.
(** src/properties/class.rs:4-11 *)
Definition g_class (c : class) : dbg :=
  match c with
  | Public => GText (lit "Public") | Private => GText (lit "Private") | Confidential => GText (lit "Confidential")
  | Custom s => GTuple (lit "Custom") [g_str s]
  end.
(** src/properties/status.rs:4-22 *)
Definition g_status (s : status) : dbg := GText
  match s with
  | Tentative => lit "Tentative" | Confirmed => lit "Confirmed" | Cancelled => lit "Cancelled" | NeedsAction => lit "NeedsAction"
  | Completed => lit "Completed" | InProcess => lit "InProcess" | Draft => lit "Draft" | Final => lit "Final"
  end.
(** src/properties/time_transparency.rs:4-10 *)
Definition g_transp (t : transparency) : dbg := GText match t with Opaque => lit "Opaque" | Transparent => lit "Transparent" end.
(** src/properties/recur.rs:138-148 *)
Definition g_freq (f : freq) : dbg := GText
  match f with
  | Secondly => lit "Secondly" | Minutely => lit "Minutely" | Hourly => lit "Hourly" | Daily => lit "Daily" | Weekly => lit "Weekly"
  | Monthly => lit "Monthly" | Yearly => lit "Yearly"
  end.
(** src/properties/recur.rs:248-257; two names as the crate spells them *)
Definition g_weekday (w : weekday) : dbg := GText
  match w with
  | Sunday => lit "Sunday" | Monday => lit "Monday" | Tuesday => lit "Tuesday" | Wednesday => lit "Wenesday" | Thursday => lit "Thurday"
  | Friday => lit "Friday" | Saturday => lit "Saturday"
  end.
(** src/properties/recur.rs:204-208 *)
Definition g_wdn (w : weekdaynum) : dbg := GStruct (lit "WeekdayNum") [(lit "weekday", g_weekday (wn_weekday w)); (lit "ord", g_opt g_int (wn_ord w))].
(** src/properties/recur.rs:6-31 *)
Definition g_recur (r : recur) : dbg := GStruct (lit "Recur") [
  (lit "freq", g_freq (r_freq r)); (lit "until", g_opt g_date (r_until r)); (lit "count", g_opt g_int (r_count r)); (lit "interval", g_int (r_interval r));
  (lit "by_second", g_list g_int (r_by_second r)); (lit "by_minute", g_list g_int (r_by_minute r)); (lit "by_hour", g_list g_int (r_by_hour r));
  (lit "by_day", g_list g_wdn (r_by_day r)); (lit "by_monthday", g_list g_int (r_by_monthday r)); (lit "by_yearday", g_list g_int (r_by_yearday r));
  (lit "by_weekno", g_list g_int (r_by_weekno r)); (lit "by_month", g_list g_int (r_by_month r)); (lit "by_setpos", g_list g_int (r_by_setpos r));
  (lit "wkst", g_opt g_weekday (r_wkst r))].
(** src/components/valarm.rs:73-84 *)
Definition g_audio (v : audio) : dbg := GStruct (lit "Audio") [
  (lit "action", g_text (au_action v));
  (lit "trigger", g_trigger (au_trigger v));
  (lit "duration", g_opt g_td (au_duration v));
  (lit "repeat", g_opt g_int (au_repeat v));
  (lit "attach", g_list g_text (au_attach v));
  (lit "x_prop", g_map g_cl (au_x_prop v));
  (lit "iana_prop", g_map g_cl (au_iana_prop v))].
(** src/components/valarm.rs:101-112 *)
Definition g_display (v : display) : dbg := GStruct (lit "Display") [
  (lit "action", g_text (di_action v));
  (lit "trigger", g_trigger (di_trigger v));
  (lit "description", g_text (di_description v));
  (lit "duration", g_opt g_td (di_duration v));
  (lit "repeat", g_opt g_int (di_repeat v));
  (lit "x_prop", g_map g_cl (di_x_prop v));
  (lit "iana_prop", g_map g_cl (di_iana_prop v))].
(** src/components/valarm.rs:129-143 *)
Definition g_email (v : email) : dbg := GStruct (lit "Email") [
  (lit "action", g_text (em_action v));
  (lit "trigger", g_trigger (em_trigger v));
  (lit "description", g_text (em_description v));
  (lit "summary", g_text (em_summary v));
  (lit "attendee", g_list g_uri (em_attendee v));
  (lit "duration", g_opt g_td (em_duration v));
  (lit "repeat", g_opt g_int (em_repeat v));
  (lit "attach", g_list g_text (em_attach v));
  (lit "x_prop", g_map g_cl (em_x_prop v));
  (lit "iana_prop", g_map g_cl (em_iana_prop v))].
(** src/components/valarm.rs:4-9 *)
Definition g_valarm (a : valarm) : dbg :=
  match a with AAudio x => GTuple (lit "Audio") [g_audio x] | ADisplay x => GTuple (lit "Display") [g_display x] | AEmail x => GTuple (lit "Email") [g_email x] end.
(** src/components/vevent.rs:4-45 *)
Definition g_vevent (v : vevent) : dbg := GStruct (lit "VEvent") [
  (lit "dtstamp", g_datetime (ev_dtstamp v));
  (lit "uid", g_text (ev_uid v));
  (lit "dtstart", g_date (ev_dtstart v));
  (lit "class", g_opt g_class (ev_class v));
  (lit "created", g_opt g_datetime (ev_created v));
  (lit "description", g_opt g_text (ev_description v));
  (lit "geo", g_opt g_geo (ev_geo v));
  (lit "last_modified", g_opt g_datetime (ev_last_modified v));
  (lit "location", g_opt g_text (ev_location v));
  (lit "organizer", g_opt g_uri (ev_organizer v));
  (lit "priority", g_opt g_int (ev_priority v));
  (lit "sequence", g_opt g_int (ev_sequence v));
  (lit "status", g_opt g_status (ev_status v));
  (lit "summary", g_opt g_text (ev_summary v));
  (lit "transp", g_opt g_transp (ev_transp v));
  (lit "url", g_opt g_uri (ev_url v));
  (lit "recurid", g_opt g_date (ev_recurid v));
  (lit "rrule", g_opt g_recur (ev_rrule v));
  (lit "dtend", g_opt g_date (ev_dtend v));
  (lit "duration", g_opt g_td (ev_duration v));
  (lit "attach", g_list g_text (ev_attach v));
  (lit "attendee", g_list g_uri (ev_attendee v));
  (lit "categories", g_list g_text (ev_categories v));
  (lit "comment", g_list g_text (ev_comment v));
  (lit "contact", g_list g_text (ev_contact v));
  (lit "exdate", g_list g_date (ev_exdate v));
  (lit "rstatus", g_list g_rs (ev_rstatus v));
  (lit "related_to", g_list g_text (ev_related_to v));
  (lit "resources", g_list g_text (ev_resources v));
  (lit "rdate", g_list g_rdate (ev_rdate v));
  (lit "alarms", g_list g_valarm (ev_alarms v));
  (lit "x_prop", g_map g_cl (ev_x_prop v));
  (lit "iana_prop", g_map g_cl (ev_iana_prop v))].
(** src/components/vfreebusy.rs:4-22 *)
Definition g_vfreebusy (v : vfreebusy) : dbg := GStruct (lit "VFreebusy") [
  (lit "dtstamp", g_datetime (fb_dtstamp v));
  (lit "uid", g_text (fb_uid v));
  (lit "contact", g_opt g_text (fb_contact v));
  (lit "dtstart", g_opt g_date (fb_dtstart v));
  (lit "dtend", g_opt g_date (fb_dtend v));
  (lit "organizer", g_opt g_uri (fb_organizer v));
  (lit "url", g_opt g_uri (fb_url v));
  (lit "attendee", g_list g_uri (fb_attendee v));
  (lit "comment", g_list g_text (fb_comment v));
  (lit "freebusy", g_list g_period (fb_freebusy v));
  (lit "rstatus", g_list g_rs (fb_rstatus v));
  (lit "x_prop", g_map g_cl (fb_x_prop v));
  (lit "iana_prop", g_map g_cl (fb_iana_prop v))].
(** src/components/vjournal.rs:4-35 *)
Definition g_vjournal (v : vjournal) : dbg := GStruct (lit "VJournal") [
  (lit "dtstamp", g_datetime (jo_dtstamp v));
  (lit "uid", g_text (jo_uid v));
  (lit "class", g_opt g_class (jo_class v));
  (lit "created", g_opt g_datetime (jo_created v));
  (lit "dtstart", g_date (jo_dtstart v));
  (lit "last_modified", g_opt g_datetime (jo_last_modified v));
  (lit "organizer", g_opt g_uri (jo_organizer v));
  (lit "recurid", g_opt g_date (jo_recurid v));
  (lit "sequence", g_opt g_int (jo_sequence v));
  (lit "status", g_opt g_status (jo_status v));
  (lit "summary", g_opt g_text (jo_summary v));
  (lit "url", g_opt g_uri (jo_url v));
  (lit "rrule", g_opt g_recur (jo_rrule v));
  (lit "attach", g_list g_text (jo_attach v));
  (lit "attendee", g_list g_uri (jo_attendee v));
  (lit "categories", g_list g_text (jo_categories v));
  (lit "comment", g_list g_text (jo_comment v));
  (lit "contact", g_list g_text (jo_contact v));
  (lit "description", g_list g_text (jo_description v));
  (lit "exdate", g_list g_date (jo_exdate v));
  (lit "related_to", g_list g_text (jo_related_to v));
  (lit "rdate", g_list g_rdate (jo_rdate v));
  (lit "rstatus", g_list g_rs (jo_rstatus v));
  (lit "x_prop", g_map g_cl (jo_x_prop v));
  (lit "iana_prop", g_map g_cl (jo_iana_prop v))].
(** src/components/vtodo.rs:4-43 *)
Definition g_vtodo (v : vtodo) : dbg := GStruct (lit "VTodo") [
  (lit "dtstamp", g_datetime (to_dtstamp v));
  (lit "uid", g_text (to_uid v));
  (lit "class", g_opt g_class (to_class v));
  (lit "completed", g_opt g_datetime (to_completed v));
  (lit "created", g_opt g_datetime (to_created v));
  (lit "dtstart", g_opt g_date (to_dtstart v));
  (lit "geo", g_opt g_geo (to_geo v));
  (lit "last_modified", g_opt g_datetime (to_last_modified v));
  (lit "location", g_opt g_text (to_location v));
  (lit "organizer", g_opt g_uri (to_organizer v));
  (lit "percent_complete", g_opt g_int (to_percent_complete v));
  (lit "priority", g_opt g_int (to_priority v));
  (lit "recurid", g_opt g_date (to_recurid v));
  (lit "sequence", g_opt g_int (to_sequence v));
  (lit "status", g_opt g_status (to_status v));
  (lit "summary", g_opt g_text (to_summary v));
  (lit "url", g_opt g_uri (to_url v));
  (lit "rrule", g_opt g_recur (to_rrule v));
  (lit "due", g_opt g_date (to_due v));
  (lit "duration", g_opt g_td (to_duration v));
  (lit "attach", g_list g_text (to_attach v));
  (lit "attendee", g_list g_uri (to_attendee v));
  (lit "categories", g_list g_text (to_categories v));
  (lit "comment", g_list g_text (to_comment v));
  (lit "contact", g_list g_text (to_contact v));
  (lit "exdate", g_list g_date (to_exdate v));
  (lit "rstatus", g_list g_rs (to_rstatus v));
  (lit "related_to", g_list g_text (to_related_to v));
  (lit "resources", g_list g_text (to_resources v));
  (lit "rdate", g_list g_rdate (to_rdate v));
  (lit "x_prop", g_map g_cl (to_x_prop v));
  (lit "iana_prop", g_map g_cl (to_iana_prop v))].
(** src/components/vtimezone.rs:34-49,76 *)
Definition g_standard (v : standard) : dbg := GStruct (lit "Standard") [
  (lit "dtstart", g_date (st_dtstart v));
  (lit "tzoffsetto", g_offset (st_tzoffsetto v));
  (lit "tzoffsetfrom", g_offset (st_tzoffsetfrom v));
  (lit "rrule", g_opt g_recur (st_rrule v));
  (lit "comment", g_list g_text (st_comment v));
  (lit "rdate", g_list g_rdate (st_rdate v));
  (lit "tzname", g_list g_text (st_tzname v));
  (lit "x_prop", g_map g_cl (st_x_prop v));
  (lit "iana_prop", g_map g_cl (st_iana_prop v))].
(** src/components/vtimezone.rs:34-49,77 *)
Definition g_daylight (v : daylight) : dbg := GStruct (lit "Daylight") [
  (lit "dtstart", g_date (dl_dtstart v));
  (lit "tzoffsetto", g_offset (dl_tzoffsetto v));
  (lit "tzoffsetfrom", g_offset (dl_tzoffsetfrom v));
  (lit "rrule", g_opt g_recur (dl_rrule v));
  (lit "comment", g_list g_text (dl_comment v));
  (lit "rdate", g_list g_rdate (dl_rdate v));
  (lit "tzname", g_list g_text (dl_tzname v));
  (lit "x_prop", g_map g_cl (dl_x_prop v));
  (lit "iana_prop", g_map g_cl (dl_iana_prop v))].
(** src/components/vtimezone.rs:6-19 *)
Definition g_vtimezone (v : vtimezone) : dbg := GStruct (lit "VTimezone") [
  (lit "tzid", g_text (tz_tzid v));
  (lit "last_modified", g_opt g_datetime (tz_last_modified v));
  (lit "tzurl", g_opt g_uri (tz_tzurl v));
  (lit "standard", g_list g_standard (tz_standard v));
  (lit "daylight", g_list g_daylight (tz_daylight v));
  (lit "x_prop", g_map g_cl (tz_x_prop v));
  (lit "iana_prop", g_map g_cl (tz_iana_prop v))].
(** src/components/vcalendar.rs:4-26 *)
Definition g_vcalendar (v : vcalendar) : dbg := GStruct (lit "VCalendar") [
  (lit "prodid", g_text (ca_prodid v));
  (lit "version", g_text (ca_version v));
  (lit "calscale", g_opt g_text (ca_calscale v));
  (lit "method", g_opt g_text (ca_method v));
  (lit "alarms", g_list g_valarm (ca_alarms v));
  (lit "events", g_list g_vevent (ca_events v));
  (lit "freebusy", g_list g_vfreebusy (ca_freebusy v));
  (lit "journals", g_list g_vjournal (ca_journals v));
  (lit "todo", g_list g_vtodo (ca_todo v));
  (lit "timezones", g_list g_vtimezone (ca_timezones v));
  (lit "x_prop", g_map g_cl (ca_x_prop v));
  (lit "iana_prop", g_map g_cl (ca_iana_prop v))].
(** src/lib.rs:263: [format!("{component:#?}\n")] of a [Result] that is [Ok]; [None] otherwise. *)
Definition debug_result {A} (g : A -> dbg) (r : outcome A) : option str :=
  match r with Ok x => Some (pretty 0 (GTuple (lit "Ok") [g x]) ++ [LF]) | _ => None end.
End Debug.
