(** * The construction macros (derive/src/macros.rs, derive/src/lib.rs:27-46).

    The macros build a Rust expression from the tokens of the user; whether that
    expression compiles, and what it evaluates to, depends on the type of the
    field. Both steps are modelled: [expand_value] and [expand_map] follow
    macros.rs and build an [rexpr]; [check] types and evaluates it against a Rust
    type. [None] means that the program does not compile (or that the macro
    panics during the compilation).

    Simplifications: an expression given by the user is a literal, a variant name
    or an expression of a known type whose evaluation has no effect; of the type
    inference of Rust only what these expansions need is modelled (the impls of
    [From], [Into] and [FromStr] below); [ikal()] (macros.rs:3-15) and the spans are
    not modelled; the parsing of the tokens is in Tokens.v. *)
From Verif Require Import Base Env Chrono Types Parser Components.

(** Structs the macros build. *)
Inductive strct := SAudio | SDisplay | SEmail | SCalendar | SEvent | SFreebusy | SJournal | STimezone | STodo | SStandard | SDaylight | SGeo | SRecur | SRStatus.
(** Types of their fields. *)
Inductive rty :=
| TText | TUri | TDateTime | TDate | TDuration | TOffset | TClass | TStatus | TTransp | TFreq | TRDate | TPeriod | TTrigger | TWeekday | TWeekdayNum
| TU8 | TU32 | TI8 | TF32 | TString | TAlarm | TExt
| TStruct (s : strct) | TOpt (t : rty) | TVec (t : rty).
Definition strct_eq_dec (a b : strct) : {a = b} + {a <> b}.
Proof. decide equality. Defined.
Definition rty_eq_dec (a b : rty) : {a = b} + {a <> b}.
Proof. decide equality. apply strct_eq_dec. Defined.

Definition rec_of (s : strct) : Type :=
  match s with
  | SAudio => audio
  | SDisplay => display
  | SEmail => email
  | SCalendar => vcalendar
  | SEvent => vevent
  | SFreebusy => vfreebusy
  | SJournal => vjournal
  | STimezone => vtimezone
  | STodo => vtodo
  | SStandard => standard
  | SDaylight => daylight
  | SGeo => geo
  | SRecur => recur
  | SRStatus => request_status
  end.
(** [u8], [u32] and [i8] are integers; see [int_range]. *)
Fixpoint den (t : rty) : Type :=
  match t with
  | TText => text | TUri => uri | TDateTime => datetime | TDate => date | TDuration => tdelta | TOffset => Z
  | TClass => class | TStatus => status | TTransp => transparency | TFreq => freq | TRDate => rdate | TPeriod => period
  | TTrigger => trigger | TWeekday => weekday | TWeekdayNum => weekdaynum
  | TU8 | TU32 | TI8 => Z | TF32 => f32 | TString => str | TAlarm => valarm | TExt => smap content_line
  | TStruct s => rec_of s | TOpt t => option (den t) | TVec t => list (den t)
  end.
Definition typed := {t : rty & den t}.
Definition cast (x : typed) (t : rty) : option (den t) :=
  match rty_eq_dec (projT1 x) t with left e => Some (eq_rect _ den (projT2 x) _ e) | right _ => None end.

(** The path of a struct from the crate root, as the macros write it; derive/src/lib.rs:38-46 and
    macros.rs:205-214 (src/components/mod.rs:10-20: [valarm] and [vtimezone] are public modules). *)
Definition struct_name (s : strct) : str :=
  match s with
  | SAudio => lit "valarm::Audio"
  | SDisplay => lit "valarm::Display"
  | SEmail => lit "valarm::Email"
  | SCalendar => lit "VCalendar"
  | SEvent => lit "VEvent"
  | SFreebusy => lit "VFreebusy"
  | SJournal => lit "VJournal"
  | STimezone => lit "VTimezone"
  | STodo => lit "VTodo"
  | SStandard => lit "vtimezone::Standard"
  | SDaylight => lit "vtimezone::Daylight"
  | SGeo => lit "Geo"
  | SRecur => lit "Recur"
  | SRStatus => lit "RequestStatus"
  end.
Definition all_structs : list strct := [SAudio; SDisplay; SEmail; SCalendar; SEvent; SFreebusy; SJournal; STimezone; STodo; SStandard; SDaylight; SGeo; SRecur; SRStatus].
Definition struct_of_name (n : str) : option strct := find (fun s => str_eqb (struct_name s) n) all_structs.

(** The fields and their types: src/components/valarm.rs:74-84, src/components/valarm.rs:102-112, src/components/valarm.rs:130-143, src/components/vcalendar.rs:5-26, src/components/vevent.rs:5-45, src/components/vfreebusy.rs:5-22, src/components/vjournal.rs:5-35, src/components/vtimezone.rs:7-19, src/components/vtodo.rs:5-43, src/components/vtimezone.rs:37-49, src/properties/geo.rs:5-8, src/properties/recur.rs:7-31, src/properties/request_status.rs:5-9. *)
Definition struct_fields (s : strct) : list (str * rty) :=
  match s with
  | SAudio => [(lit "action", TText); (lit "trigger", TTrigger); (lit "duration", TOpt (TDuration)); (lit "repeat", TOpt (TU32)); (lit "attach", TVec (TText)); (lit "x_prop", TExt); (lit "iana_prop", TExt)]
  | SDisplay => [(lit "action", TText); (lit "trigger", TTrigger); (lit "description", TText); (lit "duration", TOpt (TDuration)); (lit "repeat", TOpt (TU32)); (lit "x_prop", TExt); (lit "iana_prop", TExt)]
  | SEmail => [(lit "action", TText); (lit "trigger", TTrigger); (lit "description", TText); (lit "summary", TText); (lit "attendee", TVec (TUri)); (lit "duration", TOpt (TDuration)); (lit "repeat", TOpt (TU32)); (lit "attach", TVec (TText)); (lit "x_prop", TExt); (lit "iana_prop", TExt)]
  | SCalendar => [(lit "prodid", TText); (lit "version", TText); (lit "calscale", TOpt (TText)); (lit "method", TOpt (TText)); (lit "alarms", TVec (TAlarm)); (lit "events", TVec (TStruct SEvent)); (lit "freebusy", TVec (TStruct SFreebusy)); (lit "journals", TVec (TStruct SJournal)); (lit "todo", TVec (TStruct STodo)); (lit "timezones", TVec (TStruct STimezone)); (lit "x_prop", TExt); (lit "iana_prop", TExt)]
  | SEvent => [(lit "dtstamp", TDateTime); (lit "uid", TText); (lit "dtstart", TDate); (lit "class", TOpt (TClass)); (lit "created", TOpt (TDateTime)); (lit "description", TOpt (TText)); (lit "geo", TOpt (TStruct SGeo)); (lit "last_modified", TOpt (TDateTime)); (lit "location", TOpt (TText)); (lit "organizer", TOpt (TUri)); (lit "priority", TOpt (TU8)); (lit "sequence", TOpt (TU32)); (lit "status", TOpt (TStatus)); (lit "summary", TOpt (TText)); (lit "transp", TOpt (TTransp)); (lit "url", TOpt (TUri)); (lit "recurid", TOpt (TDate)); (lit "rrule", TOpt (TStruct SRecur)); (lit "dtend", TOpt (TDate)); (lit "duration", TOpt (TDuration)); (lit "attach", TVec (TText)); (lit "attendee", TVec (TUri)); (lit "categories", TVec (TText)); (lit "comment", TVec (TText)); (lit "contact", TVec (TText)); (lit "exdate", TVec (TDate)); (lit "rstatus", TVec (TStruct SRStatus)); (lit "related_to", TVec (TText)); (lit "resources", TVec (TText)); (lit "rdate", TVec (TRDate)); (lit "alarms", TVec (TAlarm)); (lit "x_prop", TExt); (lit "iana_prop", TExt)]
  | SFreebusy => [(lit "dtstamp", TDateTime); (lit "uid", TText); (lit "contact", TOpt (TText)); (lit "dtstart", TOpt (TDate)); (lit "dtend", TOpt (TDate)); (lit "organizer", TOpt (TUri)); (lit "url", TOpt (TUri)); (lit "attendee", TVec (TUri)); (lit "comment", TVec (TText)); (lit "freebusy", TVec (TPeriod)); (lit "rstatus", TVec (TStruct SRStatus)); (lit "x_prop", TExt); (lit "iana_prop", TExt)]
  | SJournal => [(lit "dtstamp", TDateTime); (lit "uid", TText); (lit "class", TOpt (TClass)); (lit "created", TOpt (TDateTime)); (lit "dtstart", TDate); (lit "last_modified", TOpt (TDateTime)); (lit "organizer", TOpt (TUri)); (lit "recurid", TOpt (TDate)); (lit "sequence", TOpt (TU32)); (lit "status", TOpt (TStatus)); (lit "summary", TOpt (TText)); (lit "url", TOpt (TUri)); (lit "rrule", TOpt (TStruct SRecur)); (lit "attach", TVec (TText)); (lit "attendee", TVec (TUri)); (lit "categories", TVec (TText)); (lit "comment", TVec (TText)); (lit "contact", TVec (TText)); (lit "description", TVec (TText)); (lit "exdate", TVec (TDate)); (lit "related_to", TVec (TText)); (lit "rdate", TVec (TRDate)); (lit "rstatus", TVec (TStruct SRStatus)); (lit "x_prop", TExt); (lit "iana_prop", TExt)]
  | STimezone => [(lit "tzid", TText); (lit "last_modified", TOpt (TDateTime)); (lit "tzurl", TOpt (TUri)); (lit "standard", TVec (TStruct SStandard)); (lit "daylight", TVec (TStruct SDaylight)); (lit "x_prop", TExt); (lit "iana_prop", TExt)]
  | STodo => [(lit "dtstamp", TDateTime); (lit "uid", TText); (lit "class", TOpt (TClass)); (lit "completed", TOpt (TDateTime)); (lit "created", TOpt (TDateTime)); (lit "dtstart", TOpt (TDate)); (lit "geo", TOpt (TStruct SGeo)); (lit "last_modified", TOpt (TDateTime)); (lit "location", TOpt (TText)); (lit "organizer", TOpt (TUri)); (lit "percent_complete", TOpt (TU8)); (lit "priority", TOpt (TU8)); (lit "recurid", TOpt (TDate)); (lit "sequence", TOpt (TU32)); (lit "status", TOpt (TStatus)); (lit "summary", TOpt (TText)); (lit "url", TOpt (TUri)); (lit "rrule", TOpt (TStruct SRecur)); (lit "due", TOpt (TDate)); (lit "duration", TOpt (TDuration)); (lit "attach", TVec (TText)); (lit "attendee", TVec (TUri)); (lit "categories", TVec (TText)); (lit "comment", TVec (TText)); (lit "contact", TVec (TText)); (lit "exdate", TVec (TDate)); (lit "rstatus", TVec (TStruct SRStatus)); (lit "related_to", TVec (TText)); (lit "resources", TVec (TText)); (lit "rdate", TVec (TRDate)); (lit "x_prop", TExt); (lit "iana_prop", TExt)]
  | SStandard => [(lit "dtstart", TDate); (lit "tzoffsetto", TOffset); (lit "tzoffsetfrom", TOffset); (lit "rrule", TOpt (TStruct SRecur)); (lit "comment", TVec (TText)); (lit "rdate", TVec (TRDate)); (lit "tzname", TVec (TText)); (lit "x_prop", TExt); (lit "iana_prop", TExt)]
  | SDaylight => [(lit "dtstart", TDate); (lit "tzoffsetto", TOffset); (lit "tzoffsetfrom", TOffset); (lit "rrule", TOpt (TStruct SRecur)); (lit "comment", TVec (TText)); (lit "rdate", TVec (TRDate)); (lit "tzname", TVec (TText)); (lit "x_prop", TExt); (lit "iana_prop", TExt)]
  | SGeo => [(lit "lat", TF32); (lit "lon", TF32)]
  | SRecur => [(lit "freq", TFreq); (lit "until", TOpt (TDate)); (lit "count", TOpt (TU8)); (lit "interval", TU8); (lit "by_second", TVec (TI8)); (lit "by_minute", TVec (TI8)); (lit "by_hour", TVec (TI8)); (lit "by_day", TVec (TWeekdayNum)); (lit "by_monthday", TVec (TI8)); (lit "by_yearday", TVec (TI8)); (lit "by_weekno", TVec (TI8)); (lit "by_month", TVec (TI8)); (lit "by_setpos", TVec (TI8)); (lit "wkst", TOpt (TWeekday))]
  | SRStatus => [(lit "statcode", TF32); (lit "statdesc", TString); (lit "extdata", TOpt (TString))]
  end.
Definition field_type (s : strct) (f : str) : option rty := option_map snd (find (fun ft => str_eqb (fst ft) f) (struct_fields s)).

(** Reading and replacing a field by name. *)
Definition get_audio (v : audio) : list (str * typed) :=
  [(lit "action", existT den (TText) (au_action v));
   (lit "trigger", existT den (TTrigger) (au_trigger v));
   (lit "duration", existT den (TOpt (TDuration)) (au_duration v));
   (lit "repeat", existT den (TOpt (TU32)) (au_repeat v));
   (lit "attach", existT den (TVec (TText)) (au_attach v));
   (lit "x_prop", existT den (TExt) (au_x_prop v));
   (lit "iana_prop", existT den (TExt) (au_iana_prop v))].
Definition put_audio (f : str) (x : typed) (v : audio) : option audio :=
  if str_eqb f (lit "action") then option_map (fun y => mk_audio y (au_trigger v) (au_duration v) (au_repeat v) (au_attach v) (au_x_prop v) (au_iana_prop v)) (cast x (TText))
  else if str_eqb f (lit "trigger") then option_map (fun y => mk_audio (au_action v) y (au_duration v) (au_repeat v) (au_attach v) (au_x_prop v) (au_iana_prop v)) (cast x (TTrigger))
  else if str_eqb f (lit "duration") then option_map (fun y => mk_audio (au_action v) (au_trigger v) y (au_repeat v) (au_attach v) (au_x_prop v) (au_iana_prop v)) (cast x (TOpt (TDuration)))
  else if str_eqb f (lit "repeat") then option_map (fun y => mk_audio (au_action v) (au_trigger v) (au_duration v) y (au_attach v) (au_x_prop v) (au_iana_prop v)) (cast x (TOpt (TU32)))
  else if str_eqb f (lit "attach") then option_map (fun y => mk_audio (au_action v) (au_trigger v) (au_duration v) (au_repeat v) y (au_x_prop v) (au_iana_prop v)) (cast x (TVec (TText)))
  else if str_eqb f (lit "x_prop") then option_map (fun y => mk_audio (au_action v) (au_trigger v) (au_duration v) (au_repeat v) (au_attach v) y (au_iana_prop v)) (cast x (TExt))
  else if str_eqb f (lit "iana_prop") then option_map (fun y => mk_audio (au_action v) (au_trigger v) (au_duration v) (au_repeat v) (au_attach v) (au_x_prop v) y) (cast x (TExt))
  else None.
Definition get_display (v : display) : list (str * typed) :=
  [(lit "action", existT den (TText) (di_action v));
   (lit "trigger", existT den (TTrigger) (di_trigger v));
   (lit "description", existT den (TText) (di_description v));
   (lit "duration", existT den (TOpt (TDuration)) (di_duration v));
   (lit "repeat", existT den (TOpt (TU32)) (di_repeat v));
   (lit "x_prop", existT den (TExt) (di_x_prop v));
   (lit "iana_prop", existT den (TExt) (di_iana_prop v))].
Definition put_display (f : str) (x : typed) (v : display) : option display :=
  if str_eqb f (lit "action") then option_map (fun y => mk_display y (di_trigger v) (di_description v) (di_duration v) (di_repeat v) (di_x_prop v) (di_iana_prop v)) (cast x (TText))
  else if str_eqb f (lit "trigger") then option_map (fun y => mk_display (di_action v) y (di_description v) (di_duration v) (di_repeat v) (di_x_prop v) (di_iana_prop v)) (cast x (TTrigger))
  else if str_eqb f (lit "description") then option_map (fun y => mk_display (di_action v) (di_trigger v) y (di_duration v) (di_repeat v) (di_x_prop v) (di_iana_prop v)) (cast x (TText))
  else if str_eqb f (lit "duration") then option_map (fun y => mk_display (di_action v) (di_trigger v) (di_description v) y (di_repeat v) (di_x_prop v) (di_iana_prop v)) (cast x (TOpt (TDuration)))
  else if str_eqb f (lit "repeat") then option_map (fun y => mk_display (di_action v) (di_trigger v) (di_description v) (di_duration v) y (di_x_prop v) (di_iana_prop v)) (cast x (TOpt (TU32)))
  else if str_eqb f (lit "x_prop") then option_map (fun y => mk_display (di_action v) (di_trigger v) (di_description v) (di_duration v) (di_repeat v) y (di_iana_prop v)) (cast x (TExt))
  else if str_eqb f (lit "iana_prop") then option_map (fun y => mk_display (di_action v) (di_trigger v) (di_description v) (di_duration v) (di_repeat v) (di_x_prop v) y) (cast x (TExt))
  else None.
Definition get_email (v : email) : list (str * typed) :=
  [(lit "action", existT den (TText) (em_action v));
   (lit "trigger", existT den (TTrigger) (em_trigger v));
   (lit "description", existT den (TText) (em_description v));
   (lit "summary", existT den (TText) (em_summary v));
   (lit "attendee", existT den (TVec (TUri)) (em_attendee v));
   (lit "duration", existT den (TOpt (TDuration)) (em_duration v));
   (lit "repeat", existT den (TOpt (TU32)) (em_repeat v));
   (lit "attach", existT den (TVec (TText)) (em_attach v));
   (lit "x_prop", existT den (TExt) (em_x_prop v));
   (lit "iana_prop", existT den (TExt) (em_iana_prop v))].
Definition put_email (f : str) (x : typed) (v : email) : option email :=
  if str_eqb f (lit "action") then option_map (fun y => mk_email y (em_trigger v) (em_description v) (em_summary v) (em_attendee v) (em_duration v) (em_repeat v) (em_attach v) (em_x_prop v) (em_iana_prop v)) (cast x (TText))
  else if str_eqb f (lit "trigger") then option_map (fun y => mk_email (em_action v) y (em_description v) (em_summary v) (em_attendee v) (em_duration v) (em_repeat v) (em_attach v) (em_x_prop v) (em_iana_prop v)) (cast x (TTrigger))
  else if str_eqb f (lit "description") then option_map (fun y => mk_email (em_action v) (em_trigger v) y (em_summary v) (em_attendee v) (em_duration v) (em_repeat v) (em_attach v) (em_x_prop v) (em_iana_prop v)) (cast x (TText))
  else if str_eqb f (lit "summary") then option_map (fun y => mk_email (em_action v) (em_trigger v) (em_description v) y (em_attendee v) (em_duration v) (em_repeat v) (em_attach v) (em_x_prop v) (em_iana_prop v)) (cast x (TText))
  else if str_eqb f (lit "attendee") then option_map (fun y => mk_email (em_action v) (em_trigger v) (em_description v) (em_summary v) y (em_duration v) (em_repeat v) (em_attach v) (em_x_prop v) (em_iana_prop v)) (cast x (TVec (TUri)))
  else if str_eqb f (lit "duration") then option_map (fun y => mk_email (em_action v) (em_trigger v) (em_description v) (em_summary v) (em_attendee v) y (em_repeat v) (em_attach v) (em_x_prop v) (em_iana_prop v)) (cast x (TOpt (TDuration)))
  else if str_eqb f (lit "repeat") then option_map (fun y => mk_email (em_action v) (em_trigger v) (em_description v) (em_summary v) (em_attendee v) (em_duration v) y (em_attach v) (em_x_prop v) (em_iana_prop v)) (cast x (TOpt (TU32)))
  else if str_eqb f (lit "attach") then option_map (fun y => mk_email (em_action v) (em_trigger v) (em_description v) (em_summary v) (em_attendee v) (em_duration v) (em_repeat v) y (em_x_prop v) (em_iana_prop v)) (cast x (TVec (TText)))
  else if str_eqb f (lit "x_prop") then option_map (fun y => mk_email (em_action v) (em_trigger v) (em_description v) (em_summary v) (em_attendee v) (em_duration v) (em_repeat v) (em_attach v) y (em_iana_prop v)) (cast x (TExt))
  else if str_eqb f (lit "iana_prop") then option_map (fun y => mk_email (em_action v) (em_trigger v) (em_description v) (em_summary v) (em_attendee v) (em_duration v) (em_repeat v) (em_attach v) (em_x_prop v) y) (cast x (TExt))
  else None.
Definition get_vcalendar (v : vcalendar) : list (str * typed) :=
  [(lit "prodid", existT den (TText) (ca_prodid v));
   (lit "version", existT den (TText) (ca_version v));
   (lit "calscale", existT den (TOpt (TText)) (ca_calscale v));
   (lit "method", existT den (TOpt (TText)) (ca_method v));
   (lit "alarms", existT den (TVec (TAlarm)) (ca_alarms v));
   (lit "events", existT den (TVec (TStruct SEvent)) (ca_events v));
   (lit "freebusy", existT den (TVec (TStruct SFreebusy)) (ca_freebusy v));
   (lit "journals", existT den (TVec (TStruct SJournal)) (ca_journals v));
   (lit "todo", existT den (TVec (TStruct STodo)) (ca_todo v));
   (lit "timezones", existT den (TVec (TStruct STimezone)) (ca_timezones v));
   (lit "x_prop", existT den (TExt) (ca_x_prop v));
   (lit "iana_prop", existT den (TExt) (ca_iana_prop v))].
Definition put_vcalendar (f : str) (x : typed) (v : vcalendar) : option vcalendar :=
  if str_eqb f (lit "prodid") then option_map (fun y => mk_vcalendar y (ca_version v) (ca_calscale v) (ca_method v) (ca_alarms v) (ca_events v) (ca_freebusy v) (ca_journals v) (ca_todo v) (ca_timezones v) (ca_x_prop v) (ca_iana_prop v)) (cast x (TText))
  else if str_eqb f (lit "version") then option_map (fun y => mk_vcalendar (ca_prodid v) y (ca_calscale v) (ca_method v) (ca_alarms v) (ca_events v) (ca_freebusy v) (ca_journals v) (ca_todo v) (ca_timezones v) (ca_x_prop v) (ca_iana_prop v)) (cast x (TText))
  else if str_eqb f (lit "calscale") then option_map (fun y => mk_vcalendar (ca_prodid v) (ca_version v) y (ca_method v) (ca_alarms v) (ca_events v) (ca_freebusy v) (ca_journals v) (ca_todo v) (ca_timezones v) (ca_x_prop v) (ca_iana_prop v)) (cast x (TOpt (TText)))
  else if str_eqb f (lit "method") then option_map (fun y => mk_vcalendar (ca_prodid v) (ca_version v) (ca_calscale v) y (ca_alarms v) (ca_events v) (ca_freebusy v) (ca_journals v) (ca_todo v) (ca_timezones v) (ca_x_prop v) (ca_iana_prop v)) (cast x (TOpt (TText)))
  else if str_eqb f (lit "alarms") then option_map (fun y => mk_vcalendar (ca_prodid v) (ca_version v) (ca_calscale v) (ca_method v) y (ca_events v) (ca_freebusy v) (ca_journals v) (ca_todo v) (ca_timezones v) (ca_x_prop v) (ca_iana_prop v)) (cast x (TVec (TAlarm)))
  else if str_eqb f (lit "events") then option_map (fun y => mk_vcalendar (ca_prodid v) (ca_version v) (ca_calscale v) (ca_method v) (ca_alarms v) y (ca_freebusy v) (ca_journals v) (ca_todo v) (ca_timezones v) (ca_x_prop v) (ca_iana_prop v)) (cast x (TVec (TStruct SEvent)))
  else if str_eqb f (lit "freebusy") then option_map (fun y => mk_vcalendar (ca_prodid v) (ca_version v) (ca_calscale v) (ca_method v) (ca_alarms v) (ca_events v) y (ca_journals v) (ca_todo v) (ca_timezones v) (ca_x_prop v) (ca_iana_prop v)) (cast x (TVec (TStruct SFreebusy)))
  else if str_eqb f (lit "journals") then option_map (fun y => mk_vcalendar (ca_prodid v) (ca_version v) (ca_calscale v) (ca_method v) (ca_alarms v) (ca_events v) (ca_freebusy v) y (ca_todo v) (ca_timezones v) (ca_x_prop v) (ca_iana_prop v)) (cast x (TVec (TStruct SJournal)))
  else if str_eqb f (lit "todo") then option_map (fun y => mk_vcalendar (ca_prodid v) (ca_version v) (ca_calscale v) (ca_method v) (ca_alarms v) (ca_events v) (ca_freebusy v) (ca_journals v) y (ca_timezones v) (ca_x_prop v) (ca_iana_prop v)) (cast x (TVec (TStruct STodo)))
  else if str_eqb f (lit "timezones") then option_map (fun y => mk_vcalendar (ca_prodid v) (ca_version v) (ca_calscale v) (ca_method v) (ca_alarms v) (ca_events v) (ca_freebusy v) (ca_journals v) (ca_todo v) y (ca_x_prop v) (ca_iana_prop v)) (cast x (TVec (TStruct STimezone)))
  else if str_eqb f (lit "x_prop") then option_map (fun y => mk_vcalendar (ca_prodid v) (ca_version v) (ca_calscale v) (ca_method v) (ca_alarms v) (ca_events v) (ca_freebusy v) (ca_journals v) (ca_todo v) (ca_timezones v) y (ca_iana_prop v)) (cast x (TExt))
  else if str_eqb f (lit "iana_prop") then option_map (fun y => mk_vcalendar (ca_prodid v) (ca_version v) (ca_calscale v) (ca_method v) (ca_alarms v) (ca_events v) (ca_freebusy v) (ca_journals v) (ca_todo v) (ca_timezones v) (ca_x_prop v) y) (cast x (TExt))
  else None.
Definition get_vevent (v : vevent) : list (str * typed) :=
  [(lit "dtstamp", existT den (TDateTime) (ev_dtstamp v));
   (lit "uid", existT den (TText) (ev_uid v));
   (lit "dtstart", existT den (TDate) (ev_dtstart v));
   (lit "class", existT den (TOpt (TClass)) (ev_class v));
   (lit "created", existT den (TOpt (TDateTime)) (ev_created v));
   (lit "description", existT den (TOpt (TText)) (ev_description v));
   (lit "geo", existT den (TOpt (TStruct SGeo)) (ev_geo v));
   (lit "last_modified", existT den (TOpt (TDateTime)) (ev_last_modified v));
   (lit "location", existT den (TOpt (TText)) (ev_location v));
   (lit "organizer", existT den (TOpt (TUri)) (ev_organizer v));
   (lit "priority", existT den (TOpt (TU8)) (ev_priority v));
   (lit "sequence", existT den (TOpt (TU32)) (ev_sequence v));
   (lit "status", existT den (TOpt (TStatus)) (ev_status v));
   (lit "summary", existT den (TOpt (TText)) (ev_summary v));
   (lit "transp", existT den (TOpt (TTransp)) (ev_transp v));
   (lit "url", existT den (TOpt (TUri)) (ev_url v));
   (lit "recurid", existT den (TOpt (TDate)) (ev_recurid v));
   (lit "rrule", existT den (TOpt (TStruct SRecur)) (ev_rrule v));
   (lit "dtend", existT den (TOpt (TDate)) (ev_dtend v));
   (lit "duration", existT den (TOpt (TDuration)) (ev_duration v));
   (lit "attach", existT den (TVec (TText)) (ev_attach v));
   (lit "attendee", existT den (TVec (TUri)) (ev_attendee v));
   (lit "categories", existT den (TVec (TText)) (ev_categories v));
   (lit "comment", existT den (TVec (TText)) (ev_comment v));
   (lit "contact", existT den (TVec (TText)) (ev_contact v));
   (lit "exdate", existT den (TVec (TDate)) (ev_exdate v));
   (lit "rstatus", existT den (TVec (TStruct SRStatus)) (ev_rstatus v));
   (lit "related_to", existT den (TVec (TText)) (ev_related_to v));
   (lit "resources", existT den (TVec (TText)) (ev_resources v));
   (lit "rdate", existT den (TVec (TRDate)) (ev_rdate v));
   (lit "alarms", existT den (TVec (TAlarm)) (ev_alarms v));
   (lit "x_prop", existT den (TExt) (ev_x_prop v));
   (lit "iana_prop", existT den (TExt) (ev_iana_prop v))].
Definition put_vevent (f : str) (x : typed) (v : vevent) : option vevent :=
  if str_eqb f (lit "dtstamp") then option_map (fun y => mk_vevent y (ev_uid v) (ev_dtstart v) (ev_class v) (ev_created v) (ev_description v) (ev_geo v) (ev_last_modified v) (ev_location v) (ev_organizer v) (ev_priority v) (ev_sequence v) (ev_status v) (ev_summary v) (ev_transp v) (ev_url v) (ev_recurid v) (ev_rrule v) (ev_dtend v) (ev_duration v) (ev_attach v) (ev_attendee v) (ev_categories v) (ev_comment v) (ev_contact v) (ev_exdate v) (ev_rstatus v) (ev_related_to v) (ev_resources v) (ev_rdate v) (ev_alarms v) (ev_x_prop v) (ev_iana_prop v)) (cast x (TDateTime))
  else if str_eqb f (lit "uid") then option_map (fun y => mk_vevent (ev_dtstamp v) y (ev_dtstart v) (ev_class v) (ev_created v) (ev_description v) (ev_geo v) (ev_last_modified v) (ev_location v) (ev_organizer v) (ev_priority v) (ev_sequence v) (ev_status v) (ev_summary v) (ev_transp v) (ev_url v) (ev_recurid v) (ev_rrule v) (ev_dtend v) (ev_duration v) (ev_attach v) (ev_attendee v) (ev_categories v) (ev_comment v) (ev_contact v) (ev_exdate v) (ev_rstatus v) (ev_related_to v) (ev_resources v) (ev_rdate v) (ev_alarms v) (ev_x_prop v) (ev_iana_prop v)) (cast x (TText))
  else if str_eqb f (lit "dtstart") then option_map (fun y => mk_vevent (ev_dtstamp v) (ev_uid v) y (ev_class v) (ev_created v) (ev_description v) (ev_geo v) (ev_last_modified v) (ev_location v) (ev_organizer v) (ev_priority v) (ev_sequence v) (ev_status v) (ev_summary v) (ev_transp v) (ev_url v) (ev_recurid v) (ev_rrule v) (ev_dtend v) (ev_duration v) (ev_attach v) (ev_attendee v) (ev_categories v) (ev_comment v) (ev_contact v) (ev_exdate v) (ev_rstatus v) (ev_related_to v) (ev_resources v) (ev_rdate v) (ev_alarms v) (ev_x_prop v) (ev_iana_prop v)) (cast x (TDate))
  else if str_eqb f (lit "class") then option_map (fun y => mk_vevent (ev_dtstamp v) (ev_uid v) (ev_dtstart v) y (ev_created v) (ev_description v) (ev_geo v) (ev_last_modified v) (ev_location v) (ev_organizer v) (ev_priority v) (ev_sequence v) (ev_status v) (ev_summary v) (ev_transp v) (ev_url v) (ev_recurid v) (ev_rrule v) (ev_dtend v) (ev_duration v) (ev_attach v) (ev_attendee v) (ev_categories v) (ev_comment v) (ev_contact v) (ev_exdate v) (ev_rstatus v) (ev_related_to v) (ev_resources v) (ev_rdate v) (ev_alarms v) (ev_x_prop v) (ev_iana_prop v)) (cast x (TOpt (TClass)))
  else if str_eqb f (lit "created") then option_map (fun y => mk_vevent (ev_dtstamp v) (ev_uid v) (ev_dtstart v) (ev_class v) y (ev_description v) (ev_geo v) (ev_last_modified v) (ev_location v) (ev_organizer v) (ev_priority v) (ev_sequence v) (ev_status v) (ev_summary v) (ev_transp v) (ev_url v) (ev_recurid v) (ev_rrule v) (ev_dtend v) (ev_duration v) (ev_attach v) (ev_attendee v) (ev_categories v) (ev_comment v) (ev_contact v) (ev_exdate v) (ev_rstatus v) (ev_related_to v) (ev_resources v) (ev_rdate v) (ev_alarms v) (ev_x_prop v) (ev_iana_prop v)) (cast x (TOpt (TDateTime)))
  else if str_eqb f (lit "description") then option_map (fun y => mk_vevent (ev_dtstamp v) (ev_uid v) (ev_dtstart v) (ev_class v) (ev_created v) y (ev_geo v) (ev_last_modified v) (ev_location v) (ev_organizer v) (ev_priority v) (ev_sequence v) (ev_status v) (ev_summary v) (ev_transp v) (ev_url v) (ev_recurid v) (ev_rrule v) (ev_dtend v) (ev_duration v) (ev_attach v) (ev_attendee v) (ev_categories v) (ev_comment v) (ev_contact v) (ev_exdate v) (ev_rstatus v) (ev_related_to v) (ev_resources v) (ev_rdate v) (ev_alarms v) (ev_x_prop v) (ev_iana_prop v)) (cast x (TOpt (TText)))
  else if str_eqb f (lit "geo") then option_map (fun y => mk_vevent (ev_dtstamp v) (ev_uid v) (ev_dtstart v) (ev_class v) (ev_created v) (ev_description v) y (ev_last_modified v) (ev_location v) (ev_organizer v) (ev_priority v) (ev_sequence v) (ev_status v) (ev_summary v) (ev_transp v) (ev_url v) (ev_recurid v) (ev_rrule v) (ev_dtend v) (ev_duration v) (ev_attach v) (ev_attendee v) (ev_categories v) (ev_comment v) (ev_contact v) (ev_exdate v) (ev_rstatus v) (ev_related_to v) (ev_resources v) (ev_rdate v) (ev_alarms v) (ev_x_prop v) (ev_iana_prop v)) (cast x (TOpt (TStruct SGeo)))
  else if str_eqb f (lit "last_modified") then option_map (fun y => mk_vevent (ev_dtstamp v) (ev_uid v) (ev_dtstart v) (ev_class v) (ev_created v) (ev_description v) (ev_geo v) y (ev_location v) (ev_organizer v) (ev_priority v) (ev_sequence v) (ev_status v) (ev_summary v) (ev_transp v) (ev_url v) (ev_recurid v) (ev_rrule v) (ev_dtend v) (ev_duration v) (ev_attach v) (ev_attendee v) (ev_categories v) (ev_comment v) (ev_contact v) (ev_exdate v) (ev_rstatus v) (ev_related_to v) (ev_resources v) (ev_rdate v) (ev_alarms v) (ev_x_prop v) (ev_iana_prop v)) (cast x (TOpt (TDateTime)))
  else if str_eqb f (lit "location") then option_map (fun y => mk_vevent (ev_dtstamp v) (ev_uid v) (ev_dtstart v) (ev_class v) (ev_created v) (ev_description v) (ev_geo v) (ev_last_modified v) y (ev_organizer v) (ev_priority v) (ev_sequence v) (ev_status v) (ev_summary v) (ev_transp v) (ev_url v) (ev_recurid v) (ev_rrule v) (ev_dtend v) (ev_duration v) (ev_attach v) (ev_attendee v) (ev_categories v) (ev_comment v) (ev_contact v) (ev_exdate v) (ev_rstatus v) (ev_related_to v) (ev_resources v) (ev_rdate v) (ev_alarms v) (ev_x_prop v) (ev_iana_prop v)) (cast x (TOpt (TText)))
  else if str_eqb f (lit "organizer") then option_map (fun y => mk_vevent (ev_dtstamp v) (ev_uid v) (ev_dtstart v) (ev_class v) (ev_created v) (ev_description v) (ev_geo v) (ev_last_modified v) (ev_location v) y (ev_priority v) (ev_sequence v) (ev_status v) (ev_summary v) (ev_transp v) (ev_url v) (ev_recurid v) (ev_rrule v) (ev_dtend v) (ev_duration v) (ev_attach v) (ev_attendee v) (ev_categories v) (ev_comment v) (ev_contact v) (ev_exdate v) (ev_rstatus v) (ev_related_to v) (ev_resources v) (ev_rdate v) (ev_alarms v) (ev_x_prop v) (ev_iana_prop v)) (cast x (TOpt (TUri)))
  else if str_eqb f (lit "priority") then option_map (fun y => mk_vevent (ev_dtstamp v) (ev_uid v) (ev_dtstart v) (ev_class v) (ev_created v) (ev_description v) (ev_geo v) (ev_last_modified v) (ev_location v) (ev_organizer v) y (ev_sequence v) (ev_status v) (ev_summary v) (ev_transp v) (ev_url v) (ev_recurid v) (ev_rrule v) (ev_dtend v) (ev_duration v) (ev_attach v) (ev_attendee v) (ev_categories v) (ev_comment v) (ev_contact v) (ev_exdate v) (ev_rstatus v) (ev_related_to v) (ev_resources v) (ev_rdate v) (ev_alarms v) (ev_x_prop v) (ev_iana_prop v)) (cast x (TOpt (TU8)))
  else if str_eqb f (lit "sequence") then option_map (fun y => mk_vevent (ev_dtstamp v) (ev_uid v) (ev_dtstart v) (ev_class v) (ev_created v) (ev_description v) (ev_geo v) (ev_last_modified v) (ev_location v) (ev_organizer v) (ev_priority v) y (ev_status v) (ev_summary v) (ev_transp v) (ev_url v) (ev_recurid v) (ev_rrule v) (ev_dtend v) (ev_duration v) (ev_attach v) (ev_attendee v) (ev_categories v) (ev_comment v) (ev_contact v) (ev_exdate v) (ev_rstatus v) (ev_related_to v) (ev_resources v) (ev_rdate v) (ev_alarms v) (ev_x_prop v) (ev_iana_prop v)) (cast x (TOpt (TU32)))
  else if str_eqb f (lit "status") then option_map (fun y => mk_vevent (ev_dtstamp v) (ev_uid v) (ev_dtstart v) (ev_class v) (ev_created v) (ev_description v) (ev_geo v) (ev_last_modified v) (ev_location v) (ev_organizer v) (ev_priority v) (ev_sequence v) y (ev_summary v) (ev_transp v) (ev_url v) (ev_recurid v) (ev_rrule v) (ev_dtend v) (ev_duration v) (ev_attach v) (ev_attendee v) (ev_categories v) (ev_comment v) (ev_contact v) (ev_exdate v) (ev_rstatus v) (ev_related_to v) (ev_resources v) (ev_rdate v) (ev_alarms v) (ev_x_prop v) (ev_iana_prop v)) (cast x (TOpt (TStatus)))
  else if str_eqb f (lit "summary") then option_map (fun y => mk_vevent (ev_dtstamp v) (ev_uid v) (ev_dtstart v) (ev_class v) (ev_created v) (ev_description v) (ev_geo v) (ev_last_modified v) (ev_location v) (ev_organizer v) (ev_priority v) (ev_sequence v) (ev_status v) y (ev_transp v) (ev_url v) (ev_recurid v) (ev_rrule v) (ev_dtend v) (ev_duration v) (ev_attach v) (ev_attendee v) (ev_categories v) (ev_comment v) (ev_contact v) (ev_exdate v) (ev_rstatus v) (ev_related_to v) (ev_resources v) (ev_rdate v) (ev_alarms v) (ev_x_prop v) (ev_iana_prop v)) (cast x (TOpt (TText)))
  else if str_eqb f (lit "transp") then option_map (fun y => mk_vevent (ev_dtstamp v) (ev_uid v) (ev_dtstart v) (ev_class v) (ev_created v) (ev_description v) (ev_geo v) (ev_last_modified v) (ev_location v) (ev_organizer v) (ev_priority v) (ev_sequence v) (ev_status v) (ev_summary v) y (ev_url v) (ev_recurid v) (ev_rrule v) (ev_dtend v) (ev_duration v) (ev_attach v) (ev_attendee v) (ev_categories v) (ev_comment v) (ev_contact v) (ev_exdate v) (ev_rstatus v) (ev_related_to v) (ev_resources v) (ev_rdate v) (ev_alarms v) (ev_x_prop v) (ev_iana_prop v)) (cast x (TOpt (TTransp)))
  else if str_eqb f (lit "url") then option_map (fun y => mk_vevent (ev_dtstamp v) (ev_uid v) (ev_dtstart v) (ev_class v) (ev_created v) (ev_description v) (ev_geo v) (ev_last_modified v) (ev_location v) (ev_organizer v) (ev_priority v) (ev_sequence v) (ev_status v) (ev_summary v) (ev_transp v) y (ev_recurid v) (ev_rrule v) (ev_dtend v) (ev_duration v) (ev_attach v) (ev_attendee v) (ev_categories v) (ev_comment v) (ev_contact v) (ev_exdate v) (ev_rstatus v) (ev_related_to v) (ev_resources v) (ev_rdate v) (ev_alarms v) (ev_x_prop v) (ev_iana_prop v)) (cast x (TOpt (TUri)))
  else if str_eqb f (lit "recurid") then option_map (fun y => mk_vevent (ev_dtstamp v) (ev_uid v) (ev_dtstart v) (ev_class v) (ev_created v) (ev_description v) (ev_geo v) (ev_last_modified v) (ev_location v) (ev_organizer v) (ev_priority v) (ev_sequence v) (ev_status v) (ev_summary v) (ev_transp v) (ev_url v) y (ev_rrule v) (ev_dtend v) (ev_duration v) (ev_attach v) (ev_attendee v) (ev_categories v) (ev_comment v) (ev_contact v) (ev_exdate v) (ev_rstatus v) (ev_related_to v) (ev_resources v) (ev_rdate v) (ev_alarms v) (ev_x_prop v) (ev_iana_prop v)) (cast x (TOpt (TDate)))
  else if str_eqb f (lit "rrule") then option_map (fun y => mk_vevent (ev_dtstamp v) (ev_uid v) (ev_dtstart v) (ev_class v) (ev_created v) (ev_description v) (ev_geo v) (ev_last_modified v) (ev_location v) (ev_organizer v) (ev_priority v) (ev_sequence v) (ev_status v) (ev_summary v) (ev_transp v) (ev_url v) (ev_recurid v) y (ev_dtend v) (ev_duration v) (ev_attach v) (ev_attendee v) (ev_categories v) (ev_comment v) (ev_contact v) (ev_exdate v) (ev_rstatus v) (ev_related_to v) (ev_resources v) (ev_rdate v) (ev_alarms v) (ev_x_prop v) (ev_iana_prop v)) (cast x (TOpt (TStruct SRecur)))
  else if str_eqb f (lit "dtend") then option_map (fun y => mk_vevent (ev_dtstamp v) (ev_uid v) (ev_dtstart v) (ev_class v) (ev_created v) (ev_description v) (ev_geo v) (ev_last_modified v) (ev_location v) (ev_organizer v) (ev_priority v) (ev_sequence v) (ev_status v) (ev_summary v) (ev_transp v) (ev_url v) (ev_recurid v) (ev_rrule v) y (ev_duration v) (ev_attach v) (ev_attendee v) (ev_categories v) (ev_comment v) (ev_contact v) (ev_exdate v) (ev_rstatus v) (ev_related_to v) (ev_resources v) (ev_rdate v) (ev_alarms v) (ev_x_prop v) (ev_iana_prop v)) (cast x (TOpt (TDate)))
  else if str_eqb f (lit "duration") then option_map (fun y => mk_vevent (ev_dtstamp v) (ev_uid v) (ev_dtstart v) (ev_class v) (ev_created v) (ev_description v) (ev_geo v) (ev_last_modified v) (ev_location v) (ev_organizer v) (ev_priority v) (ev_sequence v) (ev_status v) (ev_summary v) (ev_transp v) (ev_url v) (ev_recurid v) (ev_rrule v) (ev_dtend v) y (ev_attach v) (ev_attendee v) (ev_categories v) (ev_comment v) (ev_contact v) (ev_exdate v) (ev_rstatus v) (ev_related_to v) (ev_resources v) (ev_rdate v) (ev_alarms v) (ev_x_prop v) (ev_iana_prop v)) (cast x (TOpt (TDuration)))
  else if str_eqb f (lit "attach") then option_map (fun y => mk_vevent (ev_dtstamp v) (ev_uid v) (ev_dtstart v) (ev_class v) (ev_created v) (ev_description v) (ev_geo v) (ev_last_modified v) (ev_location v) (ev_organizer v) (ev_priority v) (ev_sequence v) (ev_status v) (ev_summary v) (ev_transp v) (ev_url v) (ev_recurid v) (ev_rrule v) (ev_dtend v) (ev_duration v) y (ev_attendee v) (ev_categories v) (ev_comment v) (ev_contact v) (ev_exdate v) (ev_rstatus v) (ev_related_to v) (ev_resources v) (ev_rdate v) (ev_alarms v) (ev_x_prop v) (ev_iana_prop v)) (cast x (TVec (TText)))
  else if str_eqb f (lit "attendee") then option_map (fun y => mk_vevent (ev_dtstamp v) (ev_uid v) (ev_dtstart v) (ev_class v) (ev_created v) (ev_description v) (ev_geo v) (ev_last_modified v) (ev_location v) (ev_organizer v) (ev_priority v) (ev_sequence v) (ev_status v) (ev_summary v) (ev_transp v) (ev_url v) (ev_recurid v) (ev_rrule v) (ev_dtend v) (ev_duration v) (ev_attach v) y (ev_categories v) (ev_comment v) (ev_contact v) (ev_exdate v) (ev_rstatus v) (ev_related_to v) (ev_resources v) (ev_rdate v) (ev_alarms v) (ev_x_prop v) (ev_iana_prop v)) (cast x (TVec (TUri)))
  else if str_eqb f (lit "categories") then option_map (fun y => mk_vevent (ev_dtstamp v) (ev_uid v) (ev_dtstart v) (ev_class v) (ev_created v) (ev_description v) (ev_geo v) (ev_last_modified v) (ev_location v) (ev_organizer v) (ev_priority v) (ev_sequence v) (ev_status v) (ev_summary v) (ev_transp v) (ev_url v) (ev_recurid v) (ev_rrule v) (ev_dtend v) (ev_duration v) (ev_attach v) (ev_attendee v) y (ev_comment v) (ev_contact v) (ev_exdate v) (ev_rstatus v) (ev_related_to v) (ev_resources v) (ev_rdate v) (ev_alarms v) (ev_x_prop v) (ev_iana_prop v)) (cast x (TVec (TText)))
  else if str_eqb f (lit "comment") then option_map (fun y => mk_vevent (ev_dtstamp v) (ev_uid v) (ev_dtstart v) (ev_class v) (ev_created v) (ev_description v) (ev_geo v) (ev_last_modified v) (ev_location v) (ev_organizer v) (ev_priority v) (ev_sequence v) (ev_status v) (ev_summary v) (ev_transp v) (ev_url v) (ev_recurid v) (ev_rrule v) (ev_dtend v) (ev_duration v) (ev_attach v) (ev_attendee v) (ev_categories v) y (ev_contact v) (ev_exdate v) (ev_rstatus v) (ev_related_to v) (ev_resources v) (ev_rdate v) (ev_alarms v) (ev_x_prop v) (ev_iana_prop v)) (cast x (TVec (TText)))
  else if str_eqb f (lit "contact") then option_map (fun y => mk_vevent (ev_dtstamp v) (ev_uid v) (ev_dtstart v) (ev_class v) (ev_created v) (ev_description v) (ev_geo v) (ev_last_modified v) (ev_location v) (ev_organizer v) (ev_priority v) (ev_sequence v) (ev_status v) (ev_summary v) (ev_transp v) (ev_url v) (ev_recurid v) (ev_rrule v) (ev_dtend v) (ev_duration v) (ev_attach v) (ev_attendee v) (ev_categories v) (ev_comment v) y (ev_exdate v) (ev_rstatus v) (ev_related_to v) (ev_resources v) (ev_rdate v) (ev_alarms v) (ev_x_prop v) (ev_iana_prop v)) (cast x (TVec (TText)))
  else if str_eqb f (lit "exdate") then option_map (fun y => mk_vevent (ev_dtstamp v) (ev_uid v) (ev_dtstart v) (ev_class v) (ev_created v) (ev_description v) (ev_geo v) (ev_last_modified v) (ev_location v) (ev_organizer v) (ev_priority v) (ev_sequence v) (ev_status v) (ev_summary v) (ev_transp v) (ev_url v) (ev_recurid v) (ev_rrule v) (ev_dtend v) (ev_duration v) (ev_attach v) (ev_attendee v) (ev_categories v) (ev_comment v) (ev_contact v) y (ev_rstatus v) (ev_related_to v) (ev_resources v) (ev_rdate v) (ev_alarms v) (ev_x_prop v) (ev_iana_prop v)) (cast x (TVec (TDate)))
  else if str_eqb f (lit "rstatus") then option_map (fun y => mk_vevent (ev_dtstamp v) (ev_uid v) (ev_dtstart v) (ev_class v) (ev_created v) (ev_description v) (ev_geo v) (ev_last_modified v) (ev_location v) (ev_organizer v) (ev_priority v) (ev_sequence v) (ev_status v) (ev_summary v) (ev_transp v) (ev_url v) (ev_recurid v) (ev_rrule v) (ev_dtend v) (ev_duration v) (ev_attach v) (ev_attendee v) (ev_categories v) (ev_comment v) (ev_contact v) (ev_exdate v) y (ev_related_to v) (ev_resources v) (ev_rdate v) (ev_alarms v) (ev_x_prop v) (ev_iana_prop v)) (cast x (TVec (TStruct SRStatus)))
  else if str_eqb f (lit "related_to") then option_map (fun y => mk_vevent (ev_dtstamp v) (ev_uid v) (ev_dtstart v) (ev_class v) (ev_created v) (ev_description v) (ev_geo v) (ev_last_modified v) (ev_location v) (ev_organizer v) (ev_priority v) (ev_sequence v) (ev_status v) (ev_summary v) (ev_transp v) (ev_url v) (ev_recurid v) (ev_rrule v) (ev_dtend v) (ev_duration v) (ev_attach v) (ev_attendee v) (ev_categories v) (ev_comment v) (ev_contact v) (ev_exdate v) (ev_rstatus v) y (ev_resources v) (ev_rdate v) (ev_alarms v) (ev_x_prop v) (ev_iana_prop v)) (cast x (TVec (TText)))
  else if str_eqb f (lit "resources") then option_map (fun y => mk_vevent (ev_dtstamp v) (ev_uid v) (ev_dtstart v) (ev_class v) (ev_created v) (ev_description v) (ev_geo v) (ev_last_modified v) (ev_location v) (ev_organizer v) (ev_priority v) (ev_sequence v) (ev_status v) (ev_summary v) (ev_transp v) (ev_url v) (ev_recurid v) (ev_rrule v) (ev_dtend v) (ev_duration v) (ev_attach v) (ev_attendee v) (ev_categories v) (ev_comment v) (ev_contact v) (ev_exdate v) (ev_rstatus v) (ev_related_to v) y (ev_rdate v) (ev_alarms v) (ev_x_prop v) (ev_iana_prop v)) (cast x (TVec (TText)))
  else if str_eqb f (lit "rdate") then option_map (fun y => mk_vevent (ev_dtstamp v) (ev_uid v) (ev_dtstart v) (ev_class v) (ev_created v) (ev_description v) (ev_geo v) (ev_last_modified v) (ev_location v) (ev_organizer v) (ev_priority v) (ev_sequence v) (ev_status v) (ev_summary v) (ev_transp v) (ev_url v) (ev_recurid v) (ev_rrule v) (ev_dtend v) (ev_duration v) (ev_attach v) (ev_attendee v) (ev_categories v) (ev_comment v) (ev_contact v) (ev_exdate v) (ev_rstatus v) (ev_related_to v) (ev_resources v) y (ev_alarms v) (ev_x_prop v) (ev_iana_prop v)) (cast x (TVec (TRDate)))
  else if str_eqb f (lit "alarms") then option_map (fun y => mk_vevent (ev_dtstamp v) (ev_uid v) (ev_dtstart v) (ev_class v) (ev_created v) (ev_description v) (ev_geo v) (ev_last_modified v) (ev_location v) (ev_organizer v) (ev_priority v) (ev_sequence v) (ev_status v) (ev_summary v) (ev_transp v) (ev_url v) (ev_recurid v) (ev_rrule v) (ev_dtend v) (ev_duration v) (ev_attach v) (ev_attendee v) (ev_categories v) (ev_comment v) (ev_contact v) (ev_exdate v) (ev_rstatus v) (ev_related_to v) (ev_resources v) (ev_rdate v) y (ev_x_prop v) (ev_iana_prop v)) (cast x (TVec (TAlarm)))
  else if str_eqb f (lit "x_prop") then option_map (fun y => mk_vevent (ev_dtstamp v) (ev_uid v) (ev_dtstart v) (ev_class v) (ev_created v) (ev_description v) (ev_geo v) (ev_last_modified v) (ev_location v) (ev_organizer v) (ev_priority v) (ev_sequence v) (ev_status v) (ev_summary v) (ev_transp v) (ev_url v) (ev_recurid v) (ev_rrule v) (ev_dtend v) (ev_duration v) (ev_attach v) (ev_attendee v) (ev_categories v) (ev_comment v) (ev_contact v) (ev_exdate v) (ev_rstatus v) (ev_related_to v) (ev_resources v) (ev_rdate v) (ev_alarms v) y (ev_iana_prop v)) (cast x (TExt))
  else if str_eqb f (lit "iana_prop") then option_map (fun y => mk_vevent (ev_dtstamp v) (ev_uid v) (ev_dtstart v) (ev_class v) (ev_created v) (ev_description v) (ev_geo v) (ev_last_modified v) (ev_location v) (ev_organizer v) (ev_priority v) (ev_sequence v) (ev_status v) (ev_summary v) (ev_transp v) (ev_url v) (ev_recurid v) (ev_rrule v) (ev_dtend v) (ev_duration v) (ev_attach v) (ev_attendee v) (ev_categories v) (ev_comment v) (ev_contact v) (ev_exdate v) (ev_rstatus v) (ev_related_to v) (ev_resources v) (ev_rdate v) (ev_alarms v) (ev_x_prop v) y) (cast x (TExt))
  else None.
Definition get_vfreebusy (v : vfreebusy) : list (str * typed) :=
  [(lit "dtstamp", existT den (TDateTime) (fb_dtstamp v));
   (lit "uid", existT den (TText) (fb_uid v));
   (lit "contact", existT den (TOpt (TText)) (fb_contact v));
   (lit "dtstart", existT den (TOpt (TDate)) (fb_dtstart v));
   (lit "dtend", existT den (TOpt (TDate)) (fb_dtend v));
   (lit "organizer", existT den (TOpt (TUri)) (fb_organizer v));
   (lit "url", existT den (TOpt (TUri)) (fb_url v));
   (lit "attendee", existT den (TVec (TUri)) (fb_attendee v));
   (lit "comment", existT den (TVec (TText)) (fb_comment v));
   (lit "freebusy", existT den (TVec (TPeriod)) (fb_freebusy v));
   (lit "rstatus", existT den (TVec (TStruct SRStatus)) (fb_rstatus v));
   (lit "x_prop", existT den (TExt) (fb_x_prop v));
   (lit "iana_prop", existT den (TExt) (fb_iana_prop v))].
Definition put_vfreebusy (f : str) (x : typed) (v : vfreebusy) : option vfreebusy :=
  if str_eqb f (lit "dtstamp") then option_map (fun y => mk_vfreebusy y (fb_uid v) (fb_contact v) (fb_dtstart v) (fb_dtend v) (fb_organizer v) (fb_url v) (fb_attendee v) (fb_comment v) (fb_freebusy v) (fb_rstatus v) (fb_x_prop v) (fb_iana_prop v)) (cast x (TDateTime))
  else if str_eqb f (lit "uid") then option_map (fun y => mk_vfreebusy (fb_dtstamp v) y (fb_contact v) (fb_dtstart v) (fb_dtend v) (fb_organizer v) (fb_url v) (fb_attendee v) (fb_comment v) (fb_freebusy v) (fb_rstatus v) (fb_x_prop v) (fb_iana_prop v)) (cast x (TText))
  else if str_eqb f (lit "contact") then option_map (fun y => mk_vfreebusy (fb_dtstamp v) (fb_uid v) y (fb_dtstart v) (fb_dtend v) (fb_organizer v) (fb_url v) (fb_attendee v) (fb_comment v) (fb_freebusy v) (fb_rstatus v) (fb_x_prop v) (fb_iana_prop v)) (cast x (TOpt (TText)))
  else if str_eqb f (lit "dtstart") then option_map (fun y => mk_vfreebusy (fb_dtstamp v) (fb_uid v) (fb_contact v) y (fb_dtend v) (fb_organizer v) (fb_url v) (fb_attendee v) (fb_comment v) (fb_freebusy v) (fb_rstatus v) (fb_x_prop v) (fb_iana_prop v)) (cast x (TOpt (TDate)))
  else if str_eqb f (lit "dtend") then option_map (fun y => mk_vfreebusy (fb_dtstamp v) (fb_uid v) (fb_contact v) (fb_dtstart v) y (fb_organizer v) (fb_url v) (fb_attendee v) (fb_comment v) (fb_freebusy v) (fb_rstatus v) (fb_x_prop v) (fb_iana_prop v)) (cast x (TOpt (TDate)))
  else if str_eqb f (lit "organizer") then option_map (fun y => mk_vfreebusy (fb_dtstamp v) (fb_uid v) (fb_contact v) (fb_dtstart v) (fb_dtend v) y (fb_url v) (fb_attendee v) (fb_comment v) (fb_freebusy v) (fb_rstatus v) (fb_x_prop v) (fb_iana_prop v)) (cast x (TOpt (TUri)))
  else if str_eqb f (lit "url") then option_map (fun y => mk_vfreebusy (fb_dtstamp v) (fb_uid v) (fb_contact v) (fb_dtstart v) (fb_dtend v) (fb_organizer v) y (fb_attendee v) (fb_comment v) (fb_freebusy v) (fb_rstatus v) (fb_x_prop v) (fb_iana_prop v)) (cast x (TOpt (TUri)))
  else if str_eqb f (lit "attendee") then option_map (fun y => mk_vfreebusy (fb_dtstamp v) (fb_uid v) (fb_contact v) (fb_dtstart v) (fb_dtend v) (fb_organizer v) (fb_url v) y (fb_comment v) (fb_freebusy v) (fb_rstatus v) (fb_x_prop v) (fb_iana_prop v)) (cast x (TVec (TUri)))
  else if str_eqb f (lit "comment") then option_map (fun y => mk_vfreebusy (fb_dtstamp v) (fb_uid v) (fb_contact v) (fb_dtstart v) (fb_dtend v) (fb_organizer v) (fb_url v) (fb_attendee v) y (fb_freebusy v) (fb_rstatus v) (fb_x_prop v) (fb_iana_prop v)) (cast x (TVec (TText)))
  else if str_eqb f (lit "freebusy") then option_map (fun y => mk_vfreebusy (fb_dtstamp v) (fb_uid v) (fb_contact v) (fb_dtstart v) (fb_dtend v) (fb_organizer v) (fb_url v) (fb_attendee v) (fb_comment v) y (fb_rstatus v) (fb_x_prop v) (fb_iana_prop v)) (cast x (TVec (TPeriod)))
  else if str_eqb f (lit "rstatus") then option_map (fun y => mk_vfreebusy (fb_dtstamp v) (fb_uid v) (fb_contact v) (fb_dtstart v) (fb_dtend v) (fb_organizer v) (fb_url v) (fb_attendee v) (fb_comment v) (fb_freebusy v) y (fb_x_prop v) (fb_iana_prop v)) (cast x (TVec (TStruct SRStatus)))
  else if str_eqb f (lit "x_prop") then option_map (fun y => mk_vfreebusy (fb_dtstamp v) (fb_uid v) (fb_contact v) (fb_dtstart v) (fb_dtend v) (fb_organizer v) (fb_url v) (fb_attendee v) (fb_comment v) (fb_freebusy v) (fb_rstatus v) y (fb_iana_prop v)) (cast x (TExt))
  else if str_eqb f (lit "iana_prop") then option_map (fun y => mk_vfreebusy (fb_dtstamp v) (fb_uid v) (fb_contact v) (fb_dtstart v) (fb_dtend v) (fb_organizer v) (fb_url v) (fb_attendee v) (fb_comment v) (fb_freebusy v) (fb_rstatus v) (fb_x_prop v) y) (cast x (TExt))
  else None.
Definition get_vjournal (v : vjournal) : list (str * typed) :=
  [(lit "dtstamp", existT den (TDateTime) (jo_dtstamp v));
   (lit "uid", existT den (TText) (jo_uid v));
   (lit "class", existT den (TOpt (TClass)) (jo_class v));
   (lit "created", existT den (TOpt (TDateTime)) (jo_created v));
   (lit "dtstart", existT den (TDate) (jo_dtstart v));
   (lit "last_modified", existT den (TOpt (TDateTime)) (jo_last_modified v));
   (lit "organizer", existT den (TOpt (TUri)) (jo_organizer v));
   (lit "recurid", existT den (TOpt (TDate)) (jo_recurid v));
   (lit "sequence", existT den (TOpt (TU32)) (jo_sequence v));
   (lit "status", existT den (TOpt (TStatus)) (jo_status v));
   (lit "summary", existT den (TOpt (TText)) (jo_summary v));
   (lit "url", existT den (TOpt (TUri)) (jo_url v));
   (lit "rrule", existT den (TOpt (TStruct SRecur)) (jo_rrule v));
   (lit "attach", existT den (TVec (TText)) (jo_attach v));
   (lit "attendee", existT den (TVec (TUri)) (jo_attendee v));
   (lit "categories", existT den (TVec (TText)) (jo_categories v));
   (lit "comment", existT den (TVec (TText)) (jo_comment v));
   (lit "contact", existT den (TVec (TText)) (jo_contact v));
   (lit "description", existT den (TVec (TText)) (jo_description v));
   (lit "exdate", existT den (TVec (TDate)) (jo_exdate v));
   (lit "related_to", existT den (TVec (TText)) (jo_related_to v));
   (lit "rdate", existT den (TVec (TRDate)) (jo_rdate v));
   (lit "rstatus", existT den (TVec (TStruct SRStatus)) (jo_rstatus v));
   (lit "x_prop", existT den (TExt) (jo_x_prop v));
   (lit "iana_prop", existT den (TExt) (jo_iana_prop v))].
Definition put_vjournal (f : str) (x : typed) (v : vjournal) : option vjournal :=
  if str_eqb f (lit "dtstamp") then option_map (fun y => mk_vjournal y (jo_uid v) (jo_class v) (jo_created v) (jo_dtstart v) (jo_last_modified v) (jo_organizer v) (jo_recurid v) (jo_sequence v) (jo_status v) (jo_summary v) (jo_url v) (jo_rrule v) (jo_attach v) (jo_attendee v) (jo_categories v) (jo_comment v) (jo_contact v) (jo_description v) (jo_exdate v) (jo_related_to v) (jo_rdate v) (jo_rstatus v) (jo_x_prop v) (jo_iana_prop v)) (cast x (TDateTime))
  else if str_eqb f (lit "uid") then option_map (fun y => mk_vjournal (jo_dtstamp v) y (jo_class v) (jo_created v) (jo_dtstart v) (jo_last_modified v) (jo_organizer v) (jo_recurid v) (jo_sequence v) (jo_status v) (jo_summary v) (jo_url v) (jo_rrule v) (jo_attach v) (jo_attendee v) (jo_categories v) (jo_comment v) (jo_contact v) (jo_description v) (jo_exdate v) (jo_related_to v) (jo_rdate v) (jo_rstatus v) (jo_x_prop v) (jo_iana_prop v)) (cast x (TText))
  else if str_eqb f (lit "class") then option_map (fun y => mk_vjournal (jo_dtstamp v) (jo_uid v) y (jo_created v) (jo_dtstart v) (jo_last_modified v) (jo_organizer v) (jo_recurid v) (jo_sequence v) (jo_status v) (jo_summary v) (jo_url v) (jo_rrule v) (jo_attach v) (jo_attendee v) (jo_categories v) (jo_comment v) (jo_contact v) (jo_description v) (jo_exdate v) (jo_related_to v) (jo_rdate v) (jo_rstatus v) (jo_x_prop v) (jo_iana_prop v)) (cast x (TOpt (TClass)))
  else if str_eqb f (lit "created") then option_map (fun y => mk_vjournal (jo_dtstamp v) (jo_uid v) (jo_class v) y (jo_dtstart v) (jo_last_modified v) (jo_organizer v) (jo_recurid v) (jo_sequence v) (jo_status v) (jo_summary v) (jo_url v) (jo_rrule v) (jo_attach v) (jo_attendee v) (jo_categories v) (jo_comment v) (jo_contact v) (jo_description v) (jo_exdate v) (jo_related_to v) (jo_rdate v) (jo_rstatus v) (jo_x_prop v) (jo_iana_prop v)) (cast x (TOpt (TDateTime)))
  else if str_eqb f (lit "dtstart") then option_map (fun y => mk_vjournal (jo_dtstamp v) (jo_uid v) (jo_class v) (jo_created v) y (jo_last_modified v) (jo_organizer v) (jo_recurid v) (jo_sequence v) (jo_status v) (jo_summary v) (jo_url v) (jo_rrule v) (jo_attach v) (jo_attendee v) (jo_categories v) (jo_comment v) (jo_contact v) (jo_description v) (jo_exdate v) (jo_related_to v) (jo_rdate v) (jo_rstatus v) (jo_x_prop v) (jo_iana_prop v)) (cast x (TDate))
  else if str_eqb f (lit "last_modified") then option_map (fun y => mk_vjournal (jo_dtstamp v) (jo_uid v) (jo_class v) (jo_created v) (jo_dtstart v) y (jo_organizer v) (jo_recurid v) (jo_sequence v) (jo_status v) (jo_summary v) (jo_url v) (jo_rrule v) (jo_attach v) (jo_attendee v) (jo_categories v) (jo_comment v) (jo_contact v) (jo_description v) (jo_exdate v) (jo_related_to v) (jo_rdate v) (jo_rstatus v) (jo_x_prop v) (jo_iana_prop v)) (cast x (TOpt (TDateTime)))
  else if str_eqb f (lit "organizer") then option_map (fun y => mk_vjournal (jo_dtstamp v) (jo_uid v) (jo_class v) (jo_created v) (jo_dtstart v) (jo_last_modified v) y (jo_recurid v) (jo_sequence v) (jo_status v) (jo_summary v) (jo_url v) (jo_rrule v) (jo_attach v) (jo_attendee v) (jo_categories v) (jo_comment v) (jo_contact v) (jo_description v) (jo_exdate v) (jo_related_to v) (jo_rdate v) (jo_rstatus v) (jo_x_prop v) (jo_iana_prop v)) (cast x (TOpt (TUri)))
  else if str_eqb f (lit "recurid") then option_map (fun y => mk_vjournal (jo_dtstamp v) (jo_uid v) (jo_class v) (jo_created v) (jo_dtstart v) (jo_last_modified v) (jo_organizer v) y (jo_sequence v) (jo_status v) (jo_summary v) (jo_url v) (jo_rrule v) (jo_attach v) (jo_attendee v) (jo_categories v) (jo_comment v) (jo_contact v) (jo_description v) (jo_exdate v) (jo_related_to v) (jo_rdate v) (jo_rstatus v) (jo_x_prop v) (jo_iana_prop v)) (cast x (TOpt (TDate)))
  else if str_eqb f (lit "sequence") then option_map (fun y => mk_vjournal (jo_dtstamp v) (jo_uid v) (jo_class v) (jo_created v) (jo_dtstart v) (jo_last_modified v) (jo_organizer v) (jo_recurid v) y (jo_status v) (jo_summary v) (jo_url v) (jo_rrule v) (jo_attach v) (jo_attendee v) (jo_categories v) (jo_comment v) (jo_contact v) (jo_description v) (jo_exdate v) (jo_related_to v) (jo_rdate v) (jo_rstatus v) (jo_x_prop v) (jo_iana_prop v)) (cast x (TOpt (TU32)))
  else if str_eqb f (lit "status") then option_map (fun y => mk_vjournal (jo_dtstamp v) (jo_uid v) (jo_class v) (jo_created v) (jo_dtstart v) (jo_last_modified v) (jo_organizer v) (jo_recurid v) (jo_sequence v) y (jo_summary v) (jo_url v) (jo_rrule v) (jo_attach v) (jo_attendee v) (jo_categories v) (jo_comment v) (jo_contact v) (jo_description v) (jo_exdate v) (jo_related_to v) (jo_rdate v) (jo_rstatus v) (jo_x_prop v) (jo_iana_prop v)) (cast x (TOpt (TStatus)))
  else if str_eqb f (lit "summary") then option_map (fun y => mk_vjournal (jo_dtstamp v) (jo_uid v) (jo_class v) (jo_created v) (jo_dtstart v) (jo_last_modified v) (jo_organizer v) (jo_recurid v) (jo_sequence v) (jo_status v) y (jo_url v) (jo_rrule v) (jo_attach v) (jo_attendee v) (jo_categories v) (jo_comment v) (jo_contact v) (jo_description v) (jo_exdate v) (jo_related_to v) (jo_rdate v) (jo_rstatus v) (jo_x_prop v) (jo_iana_prop v)) (cast x (TOpt (TText)))
  else if str_eqb f (lit "url") then option_map (fun y => mk_vjournal (jo_dtstamp v) (jo_uid v) (jo_class v) (jo_created v) (jo_dtstart v) (jo_last_modified v) (jo_organizer v) (jo_recurid v) (jo_sequence v) (jo_status v) (jo_summary v) y (jo_rrule v) (jo_attach v) (jo_attendee v) (jo_categories v) (jo_comment v) (jo_contact v) (jo_description v) (jo_exdate v) (jo_related_to v) (jo_rdate v) (jo_rstatus v) (jo_x_prop v) (jo_iana_prop v)) (cast x (TOpt (TUri)))
  else if str_eqb f (lit "rrule") then option_map (fun y => mk_vjournal (jo_dtstamp v) (jo_uid v) (jo_class v) (jo_created v) (jo_dtstart v) (jo_last_modified v) (jo_organizer v) (jo_recurid v) (jo_sequence v) (jo_status v) (jo_summary v) (jo_url v) y (jo_attach v) (jo_attendee v) (jo_categories v) (jo_comment v) (jo_contact v) (jo_description v) (jo_exdate v) (jo_related_to v) (jo_rdate v) (jo_rstatus v) (jo_x_prop v) (jo_iana_prop v)) (cast x (TOpt (TStruct SRecur)))
  else if str_eqb f (lit "attach") then option_map (fun y => mk_vjournal (jo_dtstamp v) (jo_uid v) (jo_class v) (jo_created v) (jo_dtstart v) (jo_last_modified v) (jo_organizer v) (jo_recurid v) (jo_sequence v) (jo_status v) (jo_summary v) (jo_url v) (jo_rrule v) y (jo_attendee v) (jo_categories v) (jo_comment v) (jo_contact v) (jo_description v) (jo_exdate v) (jo_related_to v) (jo_rdate v) (jo_rstatus v) (jo_x_prop v) (jo_iana_prop v)) (cast x (TVec (TText)))
  else if str_eqb f (lit "attendee") then option_map (fun y => mk_vjournal (jo_dtstamp v) (jo_uid v) (jo_class v) (jo_created v) (jo_dtstart v) (jo_last_modified v) (jo_organizer v) (jo_recurid v) (jo_sequence v) (jo_status v) (jo_summary v) (jo_url v) (jo_rrule v) (jo_attach v) y (jo_categories v) (jo_comment v) (jo_contact v) (jo_description v) (jo_exdate v) (jo_related_to v) (jo_rdate v) (jo_rstatus v) (jo_x_prop v) (jo_iana_prop v)) (cast x (TVec (TUri)))
  else if str_eqb f (lit "categories") then option_map (fun y => mk_vjournal (jo_dtstamp v) (jo_uid v) (jo_class v) (jo_created v) (jo_dtstart v) (jo_last_modified v) (jo_organizer v) (jo_recurid v) (jo_sequence v) (jo_status v) (jo_summary v) (jo_url v) (jo_rrule v) (jo_attach v) (jo_attendee v) y (jo_comment v) (jo_contact v) (jo_description v) (jo_exdate v) (jo_related_to v) (jo_rdate v) (jo_rstatus v) (jo_x_prop v) (jo_iana_prop v)) (cast x (TVec (TText)))
  else if str_eqb f (lit "comment") then option_map (fun y => mk_vjournal (jo_dtstamp v) (jo_uid v) (jo_class v) (jo_created v) (jo_dtstart v) (jo_last_modified v) (jo_organizer v) (jo_recurid v) (jo_sequence v) (jo_status v) (jo_summary v) (jo_url v) (jo_rrule v) (jo_attach v) (jo_attendee v) (jo_categories v) y (jo_contact v) (jo_description v) (jo_exdate v) (jo_related_to v) (jo_rdate v) (jo_rstatus v) (jo_x_prop v) (jo_iana_prop v)) (cast x (TVec (TText)))
  else if str_eqb f (lit "contact") then option_map (fun y => mk_vjournal (jo_dtstamp v) (jo_uid v) (jo_class v) (jo_created v) (jo_dtstart v) (jo_last_modified v) (jo_organizer v) (jo_recurid v) (jo_sequence v) (jo_status v) (jo_summary v) (jo_url v) (jo_rrule v) (jo_attach v) (jo_attendee v) (jo_categories v) (jo_comment v) y (jo_description v) (jo_exdate v) (jo_related_to v) (jo_rdate v) (jo_rstatus v) (jo_x_prop v) (jo_iana_prop v)) (cast x (TVec (TText)))
  else if str_eqb f (lit "description") then option_map (fun y => mk_vjournal (jo_dtstamp v) (jo_uid v) (jo_class v) (jo_created v) (jo_dtstart v) (jo_last_modified v) (jo_organizer v) (jo_recurid v) (jo_sequence v) (jo_status v) (jo_summary v) (jo_url v) (jo_rrule v) (jo_attach v) (jo_attendee v) (jo_categories v) (jo_comment v) (jo_contact v) y (jo_exdate v) (jo_related_to v) (jo_rdate v) (jo_rstatus v) (jo_x_prop v) (jo_iana_prop v)) (cast x (TVec (TText)))
  else if str_eqb f (lit "exdate") then option_map (fun y => mk_vjournal (jo_dtstamp v) (jo_uid v) (jo_class v) (jo_created v) (jo_dtstart v) (jo_last_modified v) (jo_organizer v) (jo_recurid v) (jo_sequence v) (jo_status v) (jo_summary v) (jo_url v) (jo_rrule v) (jo_attach v) (jo_attendee v) (jo_categories v) (jo_comment v) (jo_contact v) (jo_description v) y (jo_related_to v) (jo_rdate v) (jo_rstatus v) (jo_x_prop v) (jo_iana_prop v)) (cast x (TVec (TDate)))
  else if str_eqb f (lit "related_to") then option_map (fun y => mk_vjournal (jo_dtstamp v) (jo_uid v) (jo_class v) (jo_created v) (jo_dtstart v) (jo_last_modified v) (jo_organizer v) (jo_recurid v) (jo_sequence v) (jo_status v) (jo_summary v) (jo_url v) (jo_rrule v) (jo_attach v) (jo_attendee v) (jo_categories v) (jo_comment v) (jo_contact v) (jo_description v) (jo_exdate v) y (jo_rdate v) (jo_rstatus v) (jo_x_prop v) (jo_iana_prop v)) (cast x (TVec (TText)))
  else if str_eqb f (lit "rdate") then option_map (fun y => mk_vjournal (jo_dtstamp v) (jo_uid v) (jo_class v) (jo_created v) (jo_dtstart v) (jo_last_modified v) (jo_organizer v) (jo_recurid v) (jo_sequence v) (jo_status v) (jo_summary v) (jo_url v) (jo_rrule v) (jo_attach v) (jo_attendee v) (jo_categories v) (jo_comment v) (jo_contact v) (jo_description v) (jo_exdate v) (jo_related_to v) y (jo_rstatus v) (jo_x_prop v) (jo_iana_prop v)) (cast x (TVec (TRDate)))
  else if str_eqb f (lit "rstatus") then option_map (fun y => mk_vjournal (jo_dtstamp v) (jo_uid v) (jo_class v) (jo_created v) (jo_dtstart v) (jo_last_modified v) (jo_organizer v) (jo_recurid v) (jo_sequence v) (jo_status v) (jo_summary v) (jo_url v) (jo_rrule v) (jo_attach v) (jo_attendee v) (jo_categories v) (jo_comment v) (jo_contact v) (jo_description v) (jo_exdate v) (jo_related_to v) (jo_rdate v) y (jo_x_prop v) (jo_iana_prop v)) (cast x (TVec (TStruct SRStatus)))
  else if str_eqb f (lit "x_prop") then option_map (fun y => mk_vjournal (jo_dtstamp v) (jo_uid v) (jo_class v) (jo_created v) (jo_dtstart v) (jo_last_modified v) (jo_organizer v) (jo_recurid v) (jo_sequence v) (jo_status v) (jo_summary v) (jo_url v) (jo_rrule v) (jo_attach v) (jo_attendee v) (jo_categories v) (jo_comment v) (jo_contact v) (jo_description v) (jo_exdate v) (jo_related_to v) (jo_rdate v) (jo_rstatus v) y (jo_iana_prop v)) (cast x (TExt))
  else if str_eqb f (lit "iana_prop") then option_map (fun y => mk_vjournal (jo_dtstamp v) (jo_uid v) (jo_class v) (jo_created v) (jo_dtstart v) (jo_last_modified v) (jo_organizer v) (jo_recurid v) (jo_sequence v) (jo_status v) (jo_summary v) (jo_url v) (jo_rrule v) (jo_attach v) (jo_attendee v) (jo_categories v) (jo_comment v) (jo_contact v) (jo_description v) (jo_exdate v) (jo_related_to v) (jo_rdate v) (jo_rstatus v) (jo_x_prop v) y) (cast x (TExt))
  else None.
Definition get_vtimezone (v : vtimezone) : list (str * typed) :=
  [(lit "tzid", existT den (TText) (tz_tzid v));
   (lit "last_modified", existT den (TOpt (TDateTime)) (tz_last_modified v));
   (lit "tzurl", existT den (TOpt (TUri)) (tz_tzurl v));
   (lit "standard", existT den (TVec (TStruct SStandard)) (tz_standard v));
   (lit "daylight", existT den (TVec (TStruct SDaylight)) (tz_daylight v));
   (lit "x_prop", existT den (TExt) (tz_x_prop v));
   (lit "iana_prop", existT den (TExt) (tz_iana_prop v))].
Definition put_vtimezone (f : str) (x : typed) (v : vtimezone) : option vtimezone :=
  if str_eqb f (lit "tzid") then option_map (fun y => mk_vtimezone y (tz_last_modified v) (tz_tzurl v) (tz_standard v) (tz_daylight v) (tz_x_prop v) (tz_iana_prop v)) (cast x (TText))
  else if str_eqb f (lit "last_modified") then option_map (fun y => mk_vtimezone (tz_tzid v) y (tz_tzurl v) (tz_standard v) (tz_daylight v) (tz_x_prop v) (tz_iana_prop v)) (cast x (TOpt (TDateTime)))
  else if str_eqb f (lit "tzurl") then option_map (fun y => mk_vtimezone (tz_tzid v) (tz_last_modified v) y (tz_standard v) (tz_daylight v) (tz_x_prop v) (tz_iana_prop v)) (cast x (TOpt (TUri)))
  else if str_eqb f (lit "standard") then option_map (fun y => mk_vtimezone (tz_tzid v) (tz_last_modified v) (tz_tzurl v) y (tz_daylight v) (tz_x_prop v) (tz_iana_prop v)) (cast x (TVec (TStruct SStandard)))
  else if str_eqb f (lit "daylight") then option_map (fun y => mk_vtimezone (tz_tzid v) (tz_last_modified v) (tz_tzurl v) (tz_standard v) y (tz_x_prop v) (tz_iana_prop v)) (cast x (TVec (TStruct SDaylight)))
  else if str_eqb f (lit "x_prop") then option_map (fun y => mk_vtimezone (tz_tzid v) (tz_last_modified v) (tz_tzurl v) (tz_standard v) (tz_daylight v) y (tz_iana_prop v)) (cast x (TExt))
  else if str_eqb f (lit "iana_prop") then option_map (fun y => mk_vtimezone (tz_tzid v) (tz_last_modified v) (tz_tzurl v) (tz_standard v) (tz_daylight v) (tz_x_prop v) y) (cast x (TExt))
  else None.
Definition get_vtodo (v : vtodo) : list (str * typed) :=
  [(lit "dtstamp", existT den (TDateTime) (to_dtstamp v));
   (lit "uid", existT den (TText) (to_uid v));
   (lit "class", existT den (TOpt (TClass)) (to_class v));
   (lit "completed", existT den (TOpt (TDateTime)) (to_completed v));
   (lit "created", existT den (TOpt (TDateTime)) (to_created v));
   (lit "dtstart", existT den (TOpt (TDate)) (to_dtstart v));
   (lit "geo", existT den (TOpt (TStruct SGeo)) (to_geo v));
   (lit "last_modified", existT den (TOpt (TDateTime)) (to_last_modified v));
   (lit "location", existT den (TOpt (TText)) (to_location v));
   (lit "organizer", existT den (TOpt (TUri)) (to_organizer v));
   (lit "percent_complete", existT den (TOpt (TU8)) (to_percent_complete v));
   (lit "priority", existT den (TOpt (TU8)) (to_priority v));
   (lit "recurid", existT den (TOpt (TDate)) (to_recurid v));
   (lit "sequence", existT den (TOpt (TU32)) (to_sequence v));
   (lit "status", existT den (TOpt (TStatus)) (to_status v));
   (lit "summary", existT den (TOpt (TText)) (to_summary v));
   (lit "url", existT den (TOpt (TUri)) (to_url v));
   (lit "rrule", existT den (TOpt (TStruct SRecur)) (to_rrule v));
   (lit "due", existT den (TOpt (TDate)) (to_due v));
   (lit "duration", existT den (TOpt (TDuration)) (to_duration v));
   (lit "attach", existT den (TVec (TText)) (to_attach v));
   (lit "attendee", existT den (TVec (TUri)) (to_attendee v));
   (lit "categories", existT den (TVec (TText)) (to_categories v));
   (lit "comment", existT den (TVec (TText)) (to_comment v));
   (lit "contact", existT den (TVec (TText)) (to_contact v));
   (lit "exdate", existT den (TVec (TDate)) (to_exdate v));
   (lit "rstatus", existT den (TVec (TStruct SRStatus)) (to_rstatus v));
   (lit "related_to", existT den (TVec (TText)) (to_related_to v));
   (lit "resources", existT den (TVec (TText)) (to_resources v));
   (lit "rdate", existT den (TVec (TRDate)) (to_rdate v));
   (lit "x_prop", existT den (TExt) (to_x_prop v));
   (lit "iana_prop", existT den (TExt) (to_iana_prop v))].
Definition put_vtodo (f : str) (x : typed) (v : vtodo) : option vtodo :=
  if str_eqb f (lit "dtstamp") then option_map (fun y => mk_vtodo y (to_uid v) (to_class v) (to_completed v) (to_created v) (to_dtstart v) (to_geo v) (to_last_modified v) (to_location v) (to_organizer v) (to_percent_complete v) (to_priority v) (to_recurid v) (to_sequence v) (to_status v) (to_summary v) (to_url v) (to_rrule v) (to_due v) (to_duration v) (to_attach v) (to_attendee v) (to_categories v) (to_comment v) (to_contact v) (to_exdate v) (to_rstatus v) (to_related_to v) (to_resources v) (to_rdate v) (to_x_prop v) (to_iana_prop v)) (cast x (TDateTime))
  else if str_eqb f (lit "uid") then option_map (fun y => mk_vtodo (to_dtstamp v) y (to_class v) (to_completed v) (to_created v) (to_dtstart v) (to_geo v) (to_last_modified v) (to_location v) (to_organizer v) (to_percent_complete v) (to_priority v) (to_recurid v) (to_sequence v) (to_status v) (to_summary v) (to_url v) (to_rrule v) (to_due v) (to_duration v) (to_attach v) (to_attendee v) (to_categories v) (to_comment v) (to_contact v) (to_exdate v) (to_rstatus v) (to_related_to v) (to_resources v) (to_rdate v) (to_x_prop v) (to_iana_prop v)) (cast x (TText))
  else if str_eqb f (lit "class") then option_map (fun y => mk_vtodo (to_dtstamp v) (to_uid v) y (to_completed v) (to_created v) (to_dtstart v) (to_geo v) (to_last_modified v) (to_location v) (to_organizer v) (to_percent_complete v) (to_priority v) (to_recurid v) (to_sequence v) (to_status v) (to_summary v) (to_url v) (to_rrule v) (to_due v) (to_duration v) (to_attach v) (to_attendee v) (to_categories v) (to_comment v) (to_contact v) (to_exdate v) (to_rstatus v) (to_related_to v) (to_resources v) (to_rdate v) (to_x_prop v) (to_iana_prop v)) (cast x (TOpt (TClass)))
  else if str_eqb f (lit "completed") then option_map (fun y => mk_vtodo (to_dtstamp v) (to_uid v) (to_class v) y (to_created v) (to_dtstart v) (to_geo v) (to_last_modified v) (to_location v) (to_organizer v) (to_percent_complete v) (to_priority v) (to_recurid v) (to_sequence v) (to_status v) (to_summary v) (to_url v) (to_rrule v) (to_due v) (to_duration v) (to_attach v) (to_attendee v) (to_categories v) (to_comment v) (to_contact v) (to_exdate v) (to_rstatus v) (to_related_to v) (to_resources v) (to_rdate v) (to_x_prop v) (to_iana_prop v)) (cast x (TOpt (TDateTime)))
  else if str_eqb f (lit "created") then option_map (fun y => mk_vtodo (to_dtstamp v) (to_uid v) (to_class v) (to_completed v) y (to_dtstart v) (to_geo v) (to_last_modified v) (to_location v) (to_organizer v) (to_percent_complete v) (to_priority v) (to_recurid v) (to_sequence v) (to_status v) (to_summary v) (to_url v) (to_rrule v) (to_due v) (to_duration v) (to_attach v) (to_attendee v) (to_categories v) (to_comment v) (to_contact v) (to_exdate v) (to_rstatus v) (to_related_to v) (to_resources v) (to_rdate v) (to_x_prop v) (to_iana_prop v)) (cast x (TOpt (TDateTime)))
  else if str_eqb f (lit "dtstart") then option_map (fun y => mk_vtodo (to_dtstamp v) (to_uid v) (to_class v) (to_completed v) (to_created v) y (to_geo v) (to_last_modified v) (to_location v) (to_organizer v) (to_percent_complete v) (to_priority v) (to_recurid v) (to_sequence v) (to_status v) (to_summary v) (to_url v) (to_rrule v) (to_due v) (to_duration v) (to_attach v) (to_attendee v) (to_categories v) (to_comment v) (to_contact v) (to_exdate v) (to_rstatus v) (to_related_to v) (to_resources v) (to_rdate v) (to_x_prop v) (to_iana_prop v)) (cast x (TOpt (TDate)))
  else if str_eqb f (lit "geo") then option_map (fun y => mk_vtodo (to_dtstamp v) (to_uid v) (to_class v) (to_completed v) (to_created v) (to_dtstart v) y (to_last_modified v) (to_location v) (to_organizer v) (to_percent_complete v) (to_priority v) (to_recurid v) (to_sequence v) (to_status v) (to_summary v) (to_url v) (to_rrule v) (to_due v) (to_duration v) (to_attach v) (to_attendee v) (to_categories v) (to_comment v) (to_contact v) (to_exdate v) (to_rstatus v) (to_related_to v) (to_resources v) (to_rdate v) (to_x_prop v) (to_iana_prop v)) (cast x (TOpt (TStruct SGeo)))
  else if str_eqb f (lit "last_modified") then option_map (fun y => mk_vtodo (to_dtstamp v) (to_uid v) (to_class v) (to_completed v) (to_created v) (to_dtstart v) (to_geo v) y (to_location v) (to_organizer v) (to_percent_complete v) (to_priority v) (to_recurid v) (to_sequence v) (to_status v) (to_summary v) (to_url v) (to_rrule v) (to_due v) (to_duration v) (to_attach v) (to_attendee v) (to_categories v) (to_comment v) (to_contact v) (to_exdate v) (to_rstatus v) (to_related_to v) (to_resources v) (to_rdate v) (to_x_prop v) (to_iana_prop v)) (cast x (TOpt (TDateTime)))
  else if str_eqb f (lit "location") then option_map (fun y => mk_vtodo (to_dtstamp v) (to_uid v) (to_class v) (to_completed v) (to_created v) (to_dtstart v) (to_geo v) (to_last_modified v) y (to_organizer v) (to_percent_complete v) (to_priority v) (to_recurid v) (to_sequence v) (to_status v) (to_summary v) (to_url v) (to_rrule v) (to_due v) (to_duration v) (to_attach v) (to_attendee v) (to_categories v) (to_comment v) (to_contact v) (to_exdate v) (to_rstatus v) (to_related_to v) (to_resources v) (to_rdate v) (to_x_prop v) (to_iana_prop v)) (cast x (TOpt (TText)))
  else if str_eqb f (lit "organizer") then option_map (fun y => mk_vtodo (to_dtstamp v) (to_uid v) (to_class v) (to_completed v) (to_created v) (to_dtstart v) (to_geo v) (to_last_modified v) (to_location v) y (to_percent_complete v) (to_priority v) (to_recurid v) (to_sequence v) (to_status v) (to_summary v) (to_url v) (to_rrule v) (to_due v) (to_duration v) (to_attach v) (to_attendee v) (to_categories v) (to_comment v) (to_contact v) (to_exdate v) (to_rstatus v) (to_related_to v) (to_resources v) (to_rdate v) (to_x_prop v) (to_iana_prop v)) (cast x (TOpt (TUri)))
  else if str_eqb f (lit "percent_complete") then option_map (fun y => mk_vtodo (to_dtstamp v) (to_uid v) (to_class v) (to_completed v) (to_created v) (to_dtstart v) (to_geo v) (to_last_modified v) (to_location v) (to_organizer v) y (to_priority v) (to_recurid v) (to_sequence v) (to_status v) (to_summary v) (to_url v) (to_rrule v) (to_due v) (to_duration v) (to_attach v) (to_attendee v) (to_categories v) (to_comment v) (to_contact v) (to_exdate v) (to_rstatus v) (to_related_to v) (to_resources v) (to_rdate v) (to_x_prop v) (to_iana_prop v)) (cast x (TOpt (TU8)))
  else if str_eqb f (lit "priority") then option_map (fun y => mk_vtodo (to_dtstamp v) (to_uid v) (to_class v) (to_completed v) (to_created v) (to_dtstart v) (to_geo v) (to_last_modified v) (to_location v) (to_organizer v) (to_percent_complete v) y (to_recurid v) (to_sequence v) (to_status v) (to_summary v) (to_url v) (to_rrule v) (to_due v) (to_duration v) (to_attach v) (to_attendee v) (to_categories v) (to_comment v) (to_contact v) (to_exdate v) (to_rstatus v) (to_related_to v) (to_resources v) (to_rdate v) (to_x_prop v) (to_iana_prop v)) (cast x (TOpt (TU8)))
  else if str_eqb f (lit "recurid") then option_map (fun y => mk_vtodo (to_dtstamp v) (to_uid v) (to_class v) (to_completed v) (to_created v) (to_dtstart v) (to_geo v) (to_last_modified v) (to_location v) (to_organizer v) (to_percent_complete v) (to_priority v) y (to_sequence v) (to_status v) (to_summary v) (to_url v) (to_rrule v) (to_due v) (to_duration v) (to_attach v) (to_attendee v) (to_categories v) (to_comment v) (to_contact v) (to_exdate v) (to_rstatus v) (to_related_to v) (to_resources v) (to_rdate v) (to_x_prop v) (to_iana_prop v)) (cast x (TOpt (TDate)))
  else if str_eqb f (lit "sequence") then option_map (fun y => mk_vtodo (to_dtstamp v) (to_uid v) (to_class v) (to_completed v) (to_created v) (to_dtstart v) (to_geo v) (to_last_modified v) (to_location v) (to_organizer v) (to_percent_complete v) (to_priority v) (to_recurid v) y (to_status v) (to_summary v) (to_url v) (to_rrule v) (to_due v) (to_duration v) (to_attach v) (to_attendee v) (to_categories v) (to_comment v) (to_contact v) (to_exdate v) (to_rstatus v) (to_related_to v) (to_resources v) (to_rdate v) (to_x_prop v) (to_iana_prop v)) (cast x (TOpt (TU32)))
  else if str_eqb f (lit "status") then option_map (fun y => mk_vtodo (to_dtstamp v) (to_uid v) (to_class v) (to_completed v) (to_created v) (to_dtstart v) (to_geo v) (to_last_modified v) (to_location v) (to_organizer v) (to_percent_complete v) (to_priority v) (to_recurid v) (to_sequence v) y (to_summary v) (to_url v) (to_rrule v) (to_due v) (to_duration v) (to_attach v) (to_attendee v) (to_categories v) (to_comment v) (to_contact v) (to_exdate v) (to_rstatus v) (to_related_to v) (to_resources v) (to_rdate v) (to_x_prop v) (to_iana_prop v)) (cast x (TOpt (TStatus)))
  else if str_eqb f (lit "summary") then option_map (fun y => mk_vtodo (to_dtstamp v) (to_uid v) (to_class v) (to_completed v) (to_created v) (to_dtstart v) (to_geo v) (to_last_modified v) (to_location v) (to_organizer v) (to_percent_complete v) (to_priority v) (to_recurid v) (to_sequence v) (to_status v) y (to_url v) (to_rrule v) (to_due v) (to_duration v) (to_attach v) (to_attendee v) (to_categories v) (to_comment v) (to_contact v) (to_exdate v) (to_rstatus v) (to_related_to v) (to_resources v) (to_rdate v) (to_x_prop v) (to_iana_prop v)) (cast x (TOpt (TText)))
  else if str_eqb f (lit "url") then option_map (fun y => mk_vtodo (to_dtstamp v) (to_uid v) (to_class v) (to_completed v) (to_created v) (to_dtstart v) (to_geo v) (to_last_modified v) (to_location v) (to_organizer v) (to_percent_complete v) (to_priority v) (to_recurid v) (to_sequence v) (to_status v) (to_summary v) y (to_rrule v) (to_due v) (to_duration v) (to_attach v) (to_attendee v) (to_categories v) (to_comment v) (to_contact v) (to_exdate v) (to_rstatus v) (to_related_to v) (to_resources v) (to_rdate v) (to_x_prop v) (to_iana_prop v)) (cast x (TOpt (TUri)))
  else if str_eqb f (lit "rrule") then option_map (fun y => mk_vtodo (to_dtstamp v) (to_uid v) (to_class v) (to_completed v) (to_created v) (to_dtstart v) (to_geo v) (to_last_modified v) (to_location v) (to_organizer v) (to_percent_complete v) (to_priority v) (to_recurid v) (to_sequence v) (to_status v) (to_summary v) (to_url v) y (to_due v) (to_duration v) (to_attach v) (to_attendee v) (to_categories v) (to_comment v) (to_contact v) (to_exdate v) (to_rstatus v) (to_related_to v) (to_resources v) (to_rdate v) (to_x_prop v) (to_iana_prop v)) (cast x (TOpt (TStruct SRecur)))
  else if str_eqb f (lit "due") then option_map (fun y => mk_vtodo (to_dtstamp v) (to_uid v) (to_class v) (to_completed v) (to_created v) (to_dtstart v) (to_geo v) (to_last_modified v) (to_location v) (to_organizer v) (to_percent_complete v) (to_priority v) (to_recurid v) (to_sequence v) (to_status v) (to_summary v) (to_url v) (to_rrule v) y (to_duration v) (to_attach v) (to_attendee v) (to_categories v) (to_comment v) (to_contact v) (to_exdate v) (to_rstatus v) (to_related_to v) (to_resources v) (to_rdate v) (to_x_prop v) (to_iana_prop v)) (cast x (TOpt (TDate)))
  else if str_eqb f (lit "duration") then option_map (fun y => mk_vtodo (to_dtstamp v) (to_uid v) (to_class v) (to_completed v) (to_created v) (to_dtstart v) (to_geo v) (to_last_modified v) (to_location v) (to_organizer v) (to_percent_complete v) (to_priority v) (to_recurid v) (to_sequence v) (to_status v) (to_summary v) (to_url v) (to_rrule v) (to_due v) y (to_attach v) (to_attendee v) (to_categories v) (to_comment v) (to_contact v) (to_exdate v) (to_rstatus v) (to_related_to v) (to_resources v) (to_rdate v) (to_x_prop v) (to_iana_prop v)) (cast x (TOpt (TDuration)))
  else if str_eqb f (lit "attach") then option_map (fun y => mk_vtodo (to_dtstamp v) (to_uid v) (to_class v) (to_completed v) (to_created v) (to_dtstart v) (to_geo v) (to_last_modified v) (to_location v) (to_organizer v) (to_percent_complete v) (to_priority v) (to_recurid v) (to_sequence v) (to_status v) (to_summary v) (to_url v) (to_rrule v) (to_due v) (to_duration v) y (to_attendee v) (to_categories v) (to_comment v) (to_contact v) (to_exdate v) (to_rstatus v) (to_related_to v) (to_resources v) (to_rdate v) (to_x_prop v) (to_iana_prop v)) (cast x (TVec (TText)))
  else if str_eqb f (lit "attendee") then option_map (fun y => mk_vtodo (to_dtstamp v) (to_uid v) (to_class v) (to_completed v) (to_created v) (to_dtstart v) (to_geo v) (to_last_modified v) (to_location v) (to_organizer v) (to_percent_complete v) (to_priority v) (to_recurid v) (to_sequence v) (to_status v) (to_summary v) (to_url v) (to_rrule v) (to_due v) (to_duration v) (to_attach v) y (to_categories v) (to_comment v) (to_contact v) (to_exdate v) (to_rstatus v) (to_related_to v) (to_resources v) (to_rdate v) (to_x_prop v) (to_iana_prop v)) (cast x (TVec (TUri)))
  else if str_eqb f (lit "categories") then option_map (fun y => mk_vtodo (to_dtstamp v) (to_uid v) (to_class v) (to_completed v) (to_created v) (to_dtstart v) (to_geo v) (to_last_modified v) (to_location v) (to_organizer v) (to_percent_complete v) (to_priority v) (to_recurid v) (to_sequence v) (to_status v) (to_summary v) (to_url v) (to_rrule v) (to_due v) (to_duration v) (to_attach v) (to_attendee v) y (to_comment v) (to_contact v) (to_exdate v) (to_rstatus v) (to_related_to v) (to_resources v) (to_rdate v) (to_x_prop v) (to_iana_prop v)) (cast x (TVec (TText)))
  else if str_eqb f (lit "comment") then option_map (fun y => mk_vtodo (to_dtstamp v) (to_uid v) (to_class v) (to_completed v) (to_created v) (to_dtstart v) (to_geo v) (to_last_modified v) (to_location v) (to_organizer v) (to_percent_complete v) (to_priority v) (to_recurid v) (to_sequence v) (to_status v) (to_summary v) (to_url v) (to_rrule v) (to_due v) (to_duration v) (to_attach v) (to_attendee v) (to_categories v) y (to_contact v) (to_exdate v) (to_rstatus v) (to_related_to v) (to_resources v) (to_rdate v) (to_x_prop v) (to_iana_prop v)) (cast x (TVec (TText)))
  else if str_eqb f (lit "contact") then option_map (fun y => mk_vtodo (to_dtstamp v) (to_uid v) (to_class v) (to_completed v) (to_created v) (to_dtstart v) (to_geo v) (to_last_modified v) (to_location v) (to_organizer v) (to_percent_complete v) (to_priority v) (to_recurid v) (to_sequence v) (to_status v) (to_summary v) (to_url v) (to_rrule v) (to_due v) (to_duration v) (to_attach v) (to_attendee v) (to_categories v) (to_comment v) y (to_exdate v) (to_rstatus v) (to_related_to v) (to_resources v) (to_rdate v) (to_x_prop v) (to_iana_prop v)) (cast x (TVec (TText)))
  else if str_eqb f (lit "exdate") then option_map (fun y => mk_vtodo (to_dtstamp v) (to_uid v) (to_class v) (to_completed v) (to_created v) (to_dtstart v) (to_geo v) (to_last_modified v) (to_location v) (to_organizer v) (to_percent_complete v) (to_priority v) (to_recurid v) (to_sequence v) (to_status v) (to_summary v) (to_url v) (to_rrule v) (to_due v) (to_duration v) (to_attach v) (to_attendee v) (to_categories v) (to_comment v) (to_contact v) y (to_rstatus v) (to_related_to v) (to_resources v) (to_rdate v) (to_x_prop v) (to_iana_prop v)) (cast x (TVec (TDate)))
  else if str_eqb f (lit "rstatus") then option_map (fun y => mk_vtodo (to_dtstamp v) (to_uid v) (to_class v) (to_completed v) (to_created v) (to_dtstart v) (to_geo v) (to_last_modified v) (to_location v) (to_organizer v) (to_percent_complete v) (to_priority v) (to_recurid v) (to_sequence v) (to_status v) (to_summary v) (to_url v) (to_rrule v) (to_due v) (to_duration v) (to_attach v) (to_attendee v) (to_categories v) (to_comment v) (to_contact v) (to_exdate v) y (to_related_to v) (to_resources v) (to_rdate v) (to_x_prop v) (to_iana_prop v)) (cast x (TVec (TStruct SRStatus)))
  else if str_eqb f (lit "related_to") then option_map (fun y => mk_vtodo (to_dtstamp v) (to_uid v) (to_class v) (to_completed v) (to_created v) (to_dtstart v) (to_geo v) (to_last_modified v) (to_location v) (to_organizer v) (to_percent_complete v) (to_priority v) (to_recurid v) (to_sequence v) (to_status v) (to_summary v) (to_url v) (to_rrule v) (to_due v) (to_duration v) (to_attach v) (to_attendee v) (to_categories v) (to_comment v) (to_contact v) (to_exdate v) (to_rstatus v) y (to_resources v) (to_rdate v) (to_x_prop v) (to_iana_prop v)) (cast x (TVec (TText)))
  else if str_eqb f (lit "resources") then option_map (fun y => mk_vtodo (to_dtstamp v) (to_uid v) (to_class v) (to_completed v) (to_created v) (to_dtstart v) (to_geo v) (to_last_modified v) (to_location v) (to_organizer v) (to_percent_complete v) (to_priority v) (to_recurid v) (to_sequence v) (to_status v) (to_summary v) (to_url v) (to_rrule v) (to_due v) (to_duration v) (to_attach v) (to_attendee v) (to_categories v) (to_comment v) (to_contact v) (to_exdate v) (to_rstatus v) (to_related_to v) y (to_rdate v) (to_x_prop v) (to_iana_prop v)) (cast x (TVec (TText)))
  else if str_eqb f (lit "rdate") then option_map (fun y => mk_vtodo (to_dtstamp v) (to_uid v) (to_class v) (to_completed v) (to_created v) (to_dtstart v) (to_geo v) (to_last_modified v) (to_location v) (to_organizer v) (to_percent_complete v) (to_priority v) (to_recurid v) (to_sequence v) (to_status v) (to_summary v) (to_url v) (to_rrule v) (to_due v) (to_duration v) (to_attach v) (to_attendee v) (to_categories v) (to_comment v) (to_contact v) (to_exdate v) (to_rstatus v) (to_related_to v) (to_resources v) y (to_x_prop v) (to_iana_prop v)) (cast x (TVec (TRDate)))
  else if str_eqb f (lit "x_prop") then option_map (fun y => mk_vtodo (to_dtstamp v) (to_uid v) (to_class v) (to_completed v) (to_created v) (to_dtstart v) (to_geo v) (to_last_modified v) (to_location v) (to_organizer v) (to_percent_complete v) (to_priority v) (to_recurid v) (to_sequence v) (to_status v) (to_summary v) (to_url v) (to_rrule v) (to_due v) (to_duration v) (to_attach v) (to_attendee v) (to_categories v) (to_comment v) (to_contact v) (to_exdate v) (to_rstatus v) (to_related_to v) (to_resources v) (to_rdate v) y (to_iana_prop v)) (cast x (TExt))
  else if str_eqb f (lit "iana_prop") then option_map (fun y => mk_vtodo (to_dtstamp v) (to_uid v) (to_class v) (to_completed v) (to_created v) (to_dtstart v) (to_geo v) (to_last_modified v) (to_location v) (to_organizer v) (to_percent_complete v) (to_priority v) (to_recurid v) (to_sequence v) (to_status v) (to_summary v) (to_url v) (to_rrule v) (to_due v) (to_duration v) (to_attach v) (to_attendee v) (to_categories v) (to_comment v) (to_contact v) (to_exdate v) (to_rstatus v) (to_related_to v) (to_resources v) (to_rdate v) (to_x_prop v) y) (cast x (TExt))
  else None.
Definition get_standard (v : standard) : list (str * typed) :=
  [(lit "dtstart", existT den (TDate) (st_dtstart v));
   (lit "tzoffsetto", existT den (TOffset) (st_tzoffsetto v));
   (lit "tzoffsetfrom", existT den (TOffset) (st_tzoffsetfrom v));
   (lit "rrule", existT den (TOpt (TStruct SRecur)) (st_rrule v));
   (lit "comment", existT den (TVec (TText)) (st_comment v));
   (lit "rdate", existT den (TVec (TRDate)) (st_rdate v));
   (lit "tzname", existT den (TVec (TText)) (st_tzname v));
   (lit "x_prop", existT den (TExt) (st_x_prop v));
   (lit "iana_prop", existT den (TExt) (st_iana_prop v))].
Definition put_standard (f : str) (x : typed) (v : standard) : option standard :=
  if str_eqb f (lit "dtstart") then option_map (fun y => mk_standard y (st_tzoffsetto v) (st_tzoffsetfrom v) (st_rrule v) (st_comment v) (st_rdate v) (st_tzname v) (st_x_prop v) (st_iana_prop v)) (cast x (TDate))
  else if str_eqb f (lit "tzoffsetto") then option_map (fun y => mk_standard (st_dtstart v) y (st_tzoffsetfrom v) (st_rrule v) (st_comment v) (st_rdate v) (st_tzname v) (st_x_prop v) (st_iana_prop v)) (cast x (TOffset))
  else if str_eqb f (lit "tzoffsetfrom") then option_map (fun y => mk_standard (st_dtstart v) (st_tzoffsetto v) y (st_rrule v) (st_comment v) (st_rdate v) (st_tzname v) (st_x_prop v) (st_iana_prop v)) (cast x (TOffset))
  else if str_eqb f (lit "rrule") then option_map (fun y => mk_standard (st_dtstart v) (st_tzoffsetto v) (st_tzoffsetfrom v) y (st_comment v) (st_rdate v) (st_tzname v) (st_x_prop v) (st_iana_prop v)) (cast x (TOpt (TStruct SRecur)))
  else if str_eqb f (lit "comment") then option_map (fun y => mk_standard (st_dtstart v) (st_tzoffsetto v) (st_tzoffsetfrom v) (st_rrule v) y (st_rdate v) (st_tzname v) (st_x_prop v) (st_iana_prop v)) (cast x (TVec (TText)))
  else if str_eqb f (lit "rdate") then option_map (fun y => mk_standard (st_dtstart v) (st_tzoffsetto v) (st_tzoffsetfrom v) (st_rrule v) (st_comment v) y (st_tzname v) (st_x_prop v) (st_iana_prop v)) (cast x (TVec (TRDate)))
  else if str_eqb f (lit "tzname") then option_map (fun y => mk_standard (st_dtstart v) (st_tzoffsetto v) (st_tzoffsetfrom v) (st_rrule v) (st_comment v) (st_rdate v) y (st_x_prop v) (st_iana_prop v)) (cast x (TVec (TText)))
  else if str_eqb f (lit "x_prop") then option_map (fun y => mk_standard (st_dtstart v) (st_tzoffsetto v) (st_tzoffsetfrom v) (st_rrule v) (st_comment v) (st_rdate v) (st_tzname v) y (st_iana_prop v)) (cast x (TExt))
  else if str_eqb f (lit "iana_prop") then option_map (fun y => mk_standard (st_dtstart v) (st_tzoffsetto v) (st_tzoffsetfrom v) (st_rrule v) (st_comment v) (st_rdate v) (st_tzname v) (st_x_prop v) y) (cast x (TExt))
  else None.
Definition get_daylight (v : daylight) : list (str * typed) :=
  [(lit "dtstart", existT den (TDate) (dl_dtstart v));
   (lit "tzoffsetto", existT den (TOffset) (dl_tzoffsetto v));
   (lit "tzoffsetfrom", existT den (TOffset) (dl_tzoffsetfrom v));
   (lit "rrule", existT den (TOpt (TStruct SRecur)) (dl_rrule v));
   (lit "comment", existT den (TVec (TText)) (dl_comment v));
   (lit "rdate", existT den (TVec (TRDate)) (dl_rdate v));
   (lit "tzname", existT den (TVec (TText)) (dl_tzname v));
   (lit "x_prop", existT den (TExt) (dl_x_prop v));
   (lit "iana_prop", existT den (TExt) (dl_iana_prop v))].
Definition put_daylight (f : str) (x : typed) (v : daylight) : option daylight :=
  if str_eqb f (lit "dtstart") then option_map (fun y => mk_daylight y (dl_tzoffsetto v) (dl_tzoffsetfrom v) (dl_rrule v) (dl_comment v) (dl_rdate v) (dl_tzname v) (dl_x_prop v) (dl_iana_prop v)) (cast x (TDate))
  else if str_eqb f (lit "tzoffsetto") then option_map (fun y => mk_daylight (dl_dtstart v) y (dl_tzoffsetfrom v) (dl_rrule v) (dl_comment v) (dl_rdate v) (dl_tzname v) (dl_x_prop v) (dl_iana_prop v)) (cast x (TOffset))
  else if str_eqb f (lit "tzoffsetfrom") then option_map (fun y => mk_daylight (dl_dtstart v) (dl_tzoffsetto v) y (dl_rrule v) (dl_comment v) (dl_rdate v) (dl_tzname v) (dl_x_prop v) (dl_iana_prop v)) (cast x (TOffset))
  else if str_eqb f (lit "rrule") then option_map (fun y => mk_daylight (dl_dtstart v) (dl_tzoffsetto v) (dl_tzoffsetfrom v) y (dl_comment v) (dl_rdate v) (dl_tzname v) (dl_x_prop v) (dl_iana_prop v)) (cast x (TOpt (TStruct SRecur)))
  else if str_eqb f (lit "comment") then option_map (fun y => mk_daylight (dl_dtstart v) (dl_tzoffsetto v) (dl_tzoffsetfrom v) (dl_rrule v) y (dl_rdate v) (dl_tzname v) (dl_x_prop v) (dl_iana_prop v)) (cast x (TVec (TText)))
  else if str_eqb f (lit "rdate") then option_map (fun y => mk_daylight (dl_dtstart v) (dl_tzoffsetto v) (dl_tzoffsetfrom v) (dl_rrule v) (dl_comment v) y (dl_tzname v) (dl_x_prop v) (dl_iana_prop v)) (cast x (TVec (TRDate)))
  else if str_eqb f (lit "tzname") then option_map (fun y => mk_daylight (dl_dtstart v) (dl_tzoffsetto v) (dl_tzoffsetfrom v) (dl_rrule v) (dl_comment v) (dl_rdate v) y (dl_x_prop v) (dl_iana_prop v)) (cast x (TVec (TText)))
  else if str_eqb f (lit "x_prop") then option_map (fun y => mk_daylight (dl_dtstart v) (dl_tzoffsetto v) (dl_tzoffsetfrom v) (dl_rrule v) (dl_comment v) (dl_rdate v) (dl_tzname v) y (dl_iana_prop v)) (cast x (TExt))
  else if str_eqb f (lit "iana_prop") then option_map (fun y => mk_daylight (dl_dtstart v) (dl_tzoffsetto v) (dl_tzoffsetfrom v) (dl_rrule v) (dl_comment v) (dl_rdate v) (dl_tzname v) (dl_x_prop v) y) (cast x (TExt))
  else None.
Definition get_geo (v : geo) : list (str * typed) :=
  [(lit "lat", existT den (TF32) (g_lat v));
   (lit "lon", existT den (TF32) (g_lon v))].
Definition put_geo (f : str) (x : typed) (v : geo) : option geo :=
  if str_eqb f (lit "lat") then option_map (fun y => mk_geo y (g_lon v)) (cast x (TF32))
  else if str_eqb f (lit "lon") then option_map (fun y => mk_geo (g_lat v) y) (cast x (TF32))
  else None.
Definition get_recur (v : recur) : list (str * typed) :=
  [(lit "freq", existT den (TFreq) (r_freq v));
   (lit "until", existT den (TOpt (TDate)) (r_until v));
   (lit "count", existT den (TOpt (TU8)) (r_count v));
   (lit "interval", existT den (TU8) (r_interval v));
   (lit "by_second", existT den (TVec (TI8)) (r_by_second v));
   (lit "by_minute", existT den (TVec (TI8)) (r_by_minute v));
   (lit "by_hour", existT den (TVec (TI8)) (r_by_hour v));
   (lit "by_day", existT den (TVec (TWeekdayNum)) (r_by_day v));
   (lit "by_monthday", existT den (TVec (TI8)) (r_by_monthday v));
   (lit "by_yearday", existT den (TVec (TI8)) (r_by_yearday v));
   (lit "by_weekno", existT den (TVec (TI8)) (r_by_weekno v));
   (lit "by_month", existT den (TVec (TI8)) (r_by_month v));
   (lit "by_setpos", existT den (TVec (TI8)) (r_by_setpos v));
   (lit "wkst", existT den (TOpt (TWeekday)) (r_wkst v))].
Definition put_recur (f : str) (x : typed) (v : recur) : option recur :=
  if str_eqb f (lit "freq") then option_map (fun y => mk_recur y (r_until v) (r_count v) (r_interval v) (r_by_second v) (r_by_minute v) (r_by_hour v) (r_by_day v) (r_by_monthday v) (r_by_yearday v) (r_by_weekno v) (r_by_month v) (r_by_setpos v) (r_wkst v)) (cast x (TFreq))
  else if str_eqb f (lit "until") then option_map (fun y => mk_recur (r_freq v) y (r_count v) (r_interval v) (r_by_second v) (r_by_minute v) (r_by_hour v) (r_by_day v) (r_by_monthday v) (r_by_yearday v) (r_by_weekno v) (r_by_month v) (r_by_setpos v) (r_wkst v)) (cast x (TOpt (TDate)))
  else if str_eqb f (lit "count") then option_map (fun y => mk_recur (r_freq v) (r_until v) y (r_interval v) (r_by_second v) (r_by_minute v) (r_by_hour v) (r_by_day v) (r_by_monthday v) (r_by_yearday v) (r_by_weekno v) (r_by_month v) (r_by_setpos v) (r_wkst v)) (cast x (TOpt (TU8)))
  else if str_eqb f (lit "interval") then option_map (fun y => mk_recur (r_freq v) (r_until v) (r_count v) y (r_by_second v) (r_by_minute v) (r_by_hour v) (r_by_day v) (r_by_monthday v) (r_by_yearday v) (r_by_weekno v) (r_by_month v) (r_by_setpos v) (r_wkst v)) (cast x (TU8))
  else if str_eqb f (lit "by_second") then option_map (fun y => mk_recur (r_freq v) (r_until v) (r_count v) (r_interval v) y (r_by_minute v) (r_by_hour v) (r_by_day v) (r_by_monthday v) (r_by_yearday v) (r_by_weekno v) (r_by_month v) (r_by_setpos v) (r_wkst v)) (cast x (TVec (TI8)))
  else if str_eqb f (lit "by_minute") then option_map (fun y => mk_recur (r_freq v) (r_until v) (r_count v) (r_interval v) (r_by_second v) y (r_by_hour v) (r_by_day v) (r_by_monthday v) (r_by_yearday v) (r_by_weekno v) (r_by_month v) (r_by_setpos v) (r_wkst v)) (cast x (TVec (TI8)))
  else if str_eqb f (lit "by_hour") then option_map (fun y => mk_recur (r_freq v) (r_until v) (r_count v) (r_interval v) (r_by_second v) (r_by_minute v) y (r_by_day v) (r_by_monthday v) (r_by_yearday v) (r_by_weekno v) (r_by_month v) (r_by_setpos v) (r_wkst v)) (cast x (TVec (TI8)))
  else if str_eqb f (lit "by_day") then option_map (fun y => mk_recur (r_freq v) (r_until v) (r_count v) (r_interval v) (r_by_second v) (r_by_minute v) (r_by_hour v) y (r_by_monthday v) (r_by_yearday v) (r_by_weekno v) (r_by_month v) (r_by_setpos v) (r_wkst v)) (cast x (TVec (TWeekdayNum)))
  else if str_eqb f (lit "by_monthday") then option_map (fun y => mk_recur (r_freq v) (r_until v) (r_count v) (r_interval v) (r_by_second v) (r_by_minute v) (r_by_hour v) (r_by_day v) y (r_by_yearday v) (r_by_weekno v) (r_by_month v) (r_by_setpos v) (r_wkst v)) (cast x (TVec (TI8)))
  else if str_eqb f (lit "by_yearday") then option_map (fun y => mk_recur (r_freq v) (r_until v) (r_count v) (r_interval v) (r_by_second v) (r_by_minute v) (r_by_hour v) (r_by_day v) (r_by_monthday v) y (r_by_weekno v) (r_by_month v) (r_by_setpos v) (r_wkst v)) (cast x (TVec (TI8)))
  else if str_eqb f (lit "by_weekno") then option_map (fun y => mk_recur (r_freq v) (r_until v) (r_count v) (r_interval v) (r_by_second v) (r_by_minute v) (r_by_hour v) (r_by_day v) (r_by_monthday v) (r_by_yearday v) y (r_by_month v) (r_by_setpos v) (r_wkst v)) (cast x (TVec (TI8)))
  else if str_eqb f (lit "by_month") then option_map (fun y => mk_recur (r_freq v) (r_until v) (r_count v) (r_interval v) (r_by_second v) (r_by_minute v) (r_by_hour v) (r_by_day v) (r_by_monthday v) (r_by_yearday v) (r_by_weekno v) y (r_by_setpos v) (r_wkst v)) (cast x (TVec (TI8)))
  else if str_eqb f (lit "by_setpos") then option_map (fun y => mk_recur (r_freq v) (r_until v) (r_count v) (r_interval v) (r_by_second v) (r_by_minute v) (r_by_hour v) (r_by_day v) (r_by_monthday v) (r_by_yearday v) (r_by_weekno v) (r_by_month v) y (r_wkst v)) (cast x (TVec (TI8)))
  else if str_eqb f (lit "wkst") then option_map (fun y => mk_recur (r_freq v) (r_until v) (r_count v) (r_interval v) (r_by_second v) (r_by_minute v) (r_by_hour v) (r_by_day v) (r_by_monthday v) (r_by_yearday v) (r_by_weekno v) (r_by_month v) (r_by_setpos v) y) (cast x (TOpt (TWeekday)))
  else None.
Definition get_request_status (v : request_status) : list (str * typed) :=
  [(lit "statcode", existT den (TF32) (rs_code v));
   (lit "statdesc", existT den (TString) (rs_desc v));
   (lit "extdata", existT den (TOpt (TString)) (rs_ext v))].
Definition put_request_status (f : str) (x : typed) (v : request_status) : option request_status :=
  if str_eqb f (lit "statcode") then option_map (fun y => mk_rs y (rs_desc v) (rs_ext v)) (cast x (TF32))
  else if str_eqb f (lit "statdesc") then option_map (fun y => mk_rs (rs_code v) y (rs_ext v)) (cast x (TString))
  else if str_eqb f (lit "extdata") then option_map (fun y => mk_rs (rs_code v) (rs_desc v) y) (cast x (TOpt (TString)))
  else None.
Definition fields_of (s : strct) : rec_of s -> list (str * typed) :=
  match s with
  | SAudio => get_audio
  | SDisplay => get_display
  | SEmail => get_email
  | SCalendar => get_vcalendar
  | SEvent => get_vevent
  | SFreebusy => get_vfreebusy
  | SJournal => get_vjournal
  | STimezone => get_vtimezone
  | STodo => get_vtodo
  | SStandard => get_standard
  | SDaylight => get_daylight
  | SGeo => get_geo
  | SRecur => get_recur
  | SRStatus => get_request_status
  end.
Definition put_field (s : strct) : str -> typed -> rec_of s -> option (rec_of s) :=
  match s with
  | SAudio => put_audio
  | SDisplay => put_display
  | SEmail => put_email
  | SCalendar => put_vcalendar
  | SEvent => put_vevent
  | SFreebusy => put_vfreebusy
  | SJournal => put_vjournal
  | STimezone => put_vtimezone
  | STodo => put_vtodo
  | SStandard => put_standard
  | SDaylight => put_daylight
  | SGeo => put_geo
  | SRecur => put_recur
  | SRStatus => put_request_status
  end.
(** [Default] of each struct (derived; src/components/vtimezone.rs:51-74 for Standard and Daylight; properties/geo.rs:4,
    request_status.rs:4, recur.rs:6): the default of every field. [0] is the bit pattern of [0.0_f32]. Also [X::new()] (vevent.rs:47-51 and alike). *)
Definition default_of (s : strct) : rec_of s :=
  match s with
  | SAudio => mk_audio text_default trigger_default None None [] [] []
  | SDisplay => mk_display text_default trigger_default text_default None None [] []
  | SEmail => mk_email text_default trigger_default text_default text_default [] None None [] [] []
  | SCalendar => mk_vcalendar text_default text_default None None [] [] [] [] [] [] [] []
  | SEvent => mk_vevent datetime_default text_default date_default None None None None None None None None None None None None None None None None None [] [] [] [] [] [] [] [] [] [] [] [] []
  | SFreebusy => mk_vfreebusy datetime_default text_default None None None None None [] [] [] [] [] []
  | SJournal => mk_vjournal datetime_default text_default None None date_default None None None None None None None None [] [] [] [] [] [] [] [] [] [] [] []
  | STimezone => mk_vtimezone text_default None None [] [] [] []
  | STodo => mk_vtodo datetime_default text_default None None None None None None None None None None None None None None None None None None [] [] [] [] [] [] [] [] [] [] [] []
  | SStandard => mk_standard date_default 0 0 None [] [] [] [] []
  | SDaylight => mk_daylight date_default 0 0 None [] [] [] [] []
  | SGeo => mk_geo 0 0
  | SRecur => mk_recur Daily None None 0 [] [] [] [] [] [] [] [] [] None
  | SRStatus => mk_rs 0 [] None
  end.

(** ** The tables of macros.rs *)
Definition among (f : str) (l : list str) : bool := existsb (str_eqb f) l.
(** macros.rs:229-258 [Type::is_option] *)
Definition is_option (ty field : str) : bool :=
  (str_eqb ty (lit "VEvent") && str_eqb field (lit "description"))
  || (str_eqb ty (lit "VFreebusy") && str_eqb field (lit "dtstart"))
  || (negb (str_eqb ty (lit "valarm::Email")) && str_eqb field (lit "summary"))
  || (str_eqb ty (lit "VFreebusy") && str_eqb field (lit "contact"))
  || (str_eqb ty (lit "VTodo") && str_eqb field (lit "dtstart"))
  || among field [lit "class"; lit "completed"; lit "created"; lit "dtend"; lit "due"; lit "duration"; lit "extdata"; lit "geo"; lit "last_modified";
       lit "location"; lit "organizer"; lit "priority"; lit "recurid"; lit "rrule"; lit "sequence"; lit "status"; lit "transp"; lit "tzurl"; lit "url"].
(** macros.rs:260-262 *)
Definition should_convert (field : str) : bool := negb (among field [lit "lat"; lit "lon"; lit "sequence"]).
(** macros.rs:264-286 *)
Definition should_parsed (field : str) : bool :=
  among field [lit "completed"; lit "dtstamp"; lit "dtstart"; lit "duration"; lit "created"; lit "due"; lit "last_modified"; lit "dtend"; lit "tzoffsetfrom";
    lit "tzoffsetto"; lit "trigger"; lit "geo"; lit "rrule"; lit "rstatus"; lit "rdate"; lit "exdate"; lit "recurid"].
(** macros.rs:288-302 [Type::enum] *)
Definition enum_of (field : str) : option str :=
  if str_eqb field (lit "class") then Some (lit "Class")
  else if str_eqb field (lit "freq") then Some (lit "Freq")
  else if str_eqb field (lit "status") then Some (lit "Status")
  else if str_eqb field (lit "transp") then Some (lit "TimeTransparency")
  else None.
(** macros.rs:204-214: the struct of a nested object; [None] is [todo!()]. *)
Definition object_of (field : str) : option str :=
  if str_eqb field (lit "alarms") then Some (lit "VAlarm")
  else if str_eqb field (lit "daylight") then Some (lit "vtimezone::Daylight")
  else if str_eqb field (lit "events") then Some (lit "VEvent")
  else if str_eqb field (lit "geo") then Some (lit "Geo")
  else if str_eqb field (lit "rrule") then Some (lit "Recur")
  else if str_eqb field (lit "rstatus") then Some (lit "RequestStatus")
  else if str_eqb field (lit "standard") then Some (lit "vtimezone::Standard")
  else None.

(** ** Expansion *)
(** The name of a variant, with its arguments. *)
Inductive variant := VClass (c : class) | VStatus (s : status) | VTransp (t : transparency) | VFreq (f : freq).
(** An expression written by the user: one of type [&str] (a literal, usually), an integer or float literal, the name of a variant, or an expression of
    a known type; a [String] is [EVal (existT den TString s)]. *)
Inductive uexpr := EStr (s : str) | EInt (n : Z) | EFloat (f : f32) | EVariant (v : variant) | EVal (x : typed).
(** macros.rs:113-119 [Value]; [VNone] is the shorthand [key,]. *)
Inductive value := VNone | VSingle (e : uexpr) | VObject (l : list (str * value)) | VCollection (l : list value).
(** The expression built by the macro. [RShort] is the shorthand field initialiser; [RTodo] stops the compilation. *)
Inductive rexpr :=
| RUser (e : uexpr) | RPath (ty : str) (e : uexpr) | RParse (r : rexpr) | RParseDuration (r : rexpr) | RInto (r : rexpr) | RSome (r : rexpr)
| RVec (l : list rexpr) | RStruct (ty : str) (l : list (str * rexpr)) | RShort | REmpty | RTodo.
(** macros.rs:163-192: a single value *)
Definition expand_single (ty field : str) (e : uexpr) : rexpr :=
  let v := match enum_of field with Some p => RPath p e | None => RUser e end in
  let v := if should_parsed field then if str_eqb field (lit "duration") then RParseDuration v else RParse v
           else if should_convert field then RInto v else v in
  if is_option ty field then RSome v else v.
(** macros.rs:160-225 [TypedValue::to_tokens] and, in the list of an object, 94-110 [TypedEntry::to_tokens] *)
Fixpoint expand_value (ty field : str) (v : value) {struct v} : rexpr :=
  match v with
  | VNone => REmpty
  | VSingle e => expand_single ty field e
  | VCollection l => RVec (map (expand_value ty field) l)
  | VObject l =>
      match object_of field with
      | None => RTodo
      | Some ty' =>
          let r := RStruct ty' (map (fun kv => (fst kv, let r := expand_value ty' (fst kv) (snd kv) in match snd kv with VNone => RShort | _ => r end)) l) in
          if is_option ty field then RSome r else r
      end
  end.
(** macros.rs:72-89 [Map::to_tokens] *)
Definition expand_map (ty : str) (l : list (str * value)) : rexpr :=
  RStruct ty (map (fun kv => (fst kv, let r := expand_value ty (fst kv) (snd kv) in match snd kv with VNone => RShort | _ => r end)) l).

(** ** Typing and evaluation *)
(** The literals of an integer type; others are rejected by the compiler ([overflowing_literals]). *)
Definition int_range (t : rty) (n : Z) : bool :=
  match t with TU8 => (0 <=? n) && (n <=? 255) | TU32 => (0 <=? n) && (n <=? 4294967295) | TI8 => (-128 <=? n) && (n <=? 127) | _ => false end.
Definition of_int (t : rty) (n : Z) : option (den t) :=
  match t as t0 return option (den t0) with
  | TU8 => if int_range TU8 n then Some n else None
  | TU32 => if int_range TU32 n then Some n else None
  | TI8 => if int_range TI8 n then Some n else None
  | _ => None end.
Section Env.
Context {E : Env}.
(** [FromStr]: date.rs:110-124,189-199, geo.rs:26-32, recur.rs:49-55, request_status.rs:27-33, trigger.rs:24-34, period.rs:36-42, class.rs:29,
    status.rs:40, time_transparency.rs:28, recur.rs:166,226,275 and chrono's for [FixedOffset] ([parse_offset]). Integers, floats and strings also
    have one, for no field that the macros parse. [RDate], [Option] and [Vec] have none. *)
Definition str_parse (t : rty) (s : str) : option (outcome (den t)) :=
  match t as t0 return option (outcome (den t0)) with
  | TDateTime => Some (datetime_of_str s) | TDate => Some (date_of_str s) | TTrigger => Some (trigger_of_str s) | TPeriod => Some (period_of_str s)
  | TOffset => Some (parse_offset (cl_of_str s)) | TClass => Some (class_of_str s) | TStatus => Some (status_of_str s) | TTransp => Some (transp_of_str s)
  | TFreq => Some (freq_of_str s) | TWeekday => Some (weekday_of_str s) | TWeekdayNum => Some (wdn_of_str s)
  | TStruct SGeo => Some (parse_geo (cl_of_str s)) | TStruct SRecur => Some (recur_of_str s) | TStruct SRStatus => Some (parse_rstatus (cl_of_str s))
  | _ => None end.
(** [Into] from a string literal: text.rs:53-57, uri.rs:44-51, std for [String]; and content_line.rs:44 (no field has that type). *)
Definition str_into (t : rty) (s : str) : option (den t) :=
  match t as t0 return option (den t0) with
  | TText => Some (text_of_str s) | TUri => Some (uri_of_str s) | TString => Some s | _ => None end.
(** [Into] from an integer literal: the only integer type that [u8], [i8] and [Option<T>] come from is their own; [u32] and [f32] come from
    several, and the literal falls back to [i32], which they do not come from. *)
Definition int_into (t : rty) (n : Z) : option (den t) :=
  match t as t0 return option (den t0) with
  | TU8 => of_int TU8 n | TI8 => of_int TI8 n | TOpt t' => option_map Some (of_int t' n) | _ => None end.
(** [Into] from a float literal *)
Definition float_into (t : rty) (f : f32) : option (den t) :=
  match t as t0 return option (den t0) with TF32 => Some f | TOpt TF32 => Some (Some f) | _ => None end.
(** [Into] from a value: itself, [Option], date.rs:42-49,210-214, valarm.rs:93-99,121-127,152-158 (which set the action) and, from a [String],
    text.rs:44-51, uri.rs:35-42. *)
Definition from_impl (x : typed) (t : rty) : option (den t) :=
  match t as t0 return option (den t0) with
  | TText => option_map text_of_str (cast x TString)
  | TUri => option_map uri_of_str (cast x TString)
  | TDateTime => option_map datetime_of_date (cast x TDate)
  | TDate => option_map DDateTime (cast x TDateTime)
  | TAlarm => match cast x (TStruct SAudio) with
              | Some a => Some (valarm_of_audio a)
              | None => match cast x (TStruct SDisplay) with
                        | Some a => Some (valarm_of_display a)
                        | None => option_map valarm_of_email (cast x (TStruct SEmail)) end end
  | TOpt t' => option_map Some (cast x t')
  | _ => None end.
Definition val_into (x : typed) (t : rty) : option (den t) :=
  match cast x t with Some y => Some y | None => from_impl x t end.
(** [Path::Variant] *)
Definition path_value (ty : str) (e : uexpr) : option typed :=
  match e with
  | EVariant (VClass c) => if str_eqb ty (lit "Class") then Some (existT den TClass c) else None
  | EVariant (VStatus s) => if str_eqb ty (lit "Status") then Some (existT den TStatus s) else None
  | EVariant (VTransp t) => if str_eqb ty (lit "TimeTransparency") then Some (existT den TTransp t) else None
  | EVariant (VFreq f) => if str_eqb ty (lit "Freq") then Some (existT den TFreq f) else None
  | _ => None
  end.
(** A string: a literal or a [String]. *)
Definition as_str (r : rexpr) : option str :=
  match r with RUser (EStr s) => Some s | RUser (EVal x) => cast x TString | _ => None end.
(** Options of outcomes: does it compile, and then what does it give. *)
Definition seq_list {A} (l : list (option (outcome A))) : option (outcome (list A)) :=
  fold_right (fun a r => match a, r with Some x, Some y => Some (let* x' := x in let* y' := y in Ok (x' :: y')) | _, _ => None end) (Some (Ok [])) l.
Fixpoint no_twice (l : list str) : bool := match l with [] => true | x :: r => negb (among x r) && no_twice r end.
(** Assigning fields in order. *)
Fixpoint assign (s : strct) (l : list (str * typed)) (v : rec_of s) : option (rec_of s) :=
  match l with [] => Some v | (f, x) :: r => match put_field s f x v with Some v' => assign s r v' | None => None end end.
Section Scope.
(** The variables in scope where the macro is used, for the shorthand fields. *)
Context (scope : str -> option typed).
(** Evaluation against a type. [-1.into()] is [-(1.into())], which does not compile: the type of the operand is not known (a float is its bit pattern, the
    sign is the highest bit). A struct literal evaluates its fields in the order written; a field given twice, or
    unknown, does not compile. *)
Fixpoint check (r : rexpr) (t : rty) {struct r} : option (outcome (den t)) :=
  match r with
  | RUser (EInt n) => option_map Ok (of_int t n)
  | RUser (EFloat f) => option_map Ok (match t as t0 return option (den t0) with TF32 => Some f | _ => None end)
  | RUser (EVal x) => option_map Ok (cast x t)
  | RUser _ => None
  | RPath p e => match path_value p e with Some x => option_map Ok (cast x t) | None => None end
  | RParse r' => match as_str r' with Some s => str_parse t s | None => None end
  | RParseDuration r' =>
      match (match r' with RUser (EStr s) => Some s | _ => None end) with
      | Some s => match t as t0 return option (outcome (den t0)) with TDuration => Some (parse_duration s) | _ => None end
      | None => None end
  | RInto (RUser (EStr s)) => option_map Ok (str_into t s)
  | RInto (RUser (EInt n)) => if n <? 0 then None else option_map Ok (int_into t n)
  | RInto (RUser (EFloat f)) => if 2147483648 <=? f then None else option_map Ok (float_into t f)
  | RInto (RUser (EVal x)) => option_map Ok (val_into x t)
  | RInto (RPath p e) => match path_value p e with Some x => option_map Ok (val_into x t) | None => None end
  | RInto _ => None
  | RSome r' => match t as t0 return option (outcome (den t0)) with TOpt t' => option_map (omap Some) (check r' t') | _ => None end
  | RVec l => match t as t0 return option (outcome (den t0)) with TVec t' => seq_list (map (fun r' => check r' t') l) | _ => None end
  | RStruct ty l =>
      match struct_of_name ty with
      | None => None
      | Some s =>
          if no_twice (map fst l) then
            match seq_list (map (fun fr => match field_type s (fst fr) with
                                 | Some t' => option_map (omap (fun x => (fst fr, existT den t' x)))
                                     (let o := check (snd fr) t' in
                                      match snd fr with
                                      | RShort => match scope (fst fr) with Some x => option_map Ok (cast x t') | None => None end
                                      | _ => o end)
                                 | None => None end) l) with
            | Some (Ok xs) => match assign s xs (default_of s) with Some v => option_map Ok (cast (existT den (TStruct s) v) t) | None => None end
            | Some (Err e) => if rty_eq_dec (TStruct s) t then Some (Err e) else None
            | Some Panic => if rty_eq_dec (TStruct s) t then Some Panic else None
            | None => None end
          else None
      end
  | RShort | REmpty | RTodo => None
  end.
(** macros.rs:17-28 and derive/src/lib.rs:24-35: the value of [vevent! { ... }] and of the others *)
Definition macro_value (s : strct) (l : list (str * value)) : option (outcome (rec_of s)) := check (expand_map (struct_name s) l) (TStruct s).
(** src/lib.rs:120-124 [valarm! { @kind, ... }] *)
Inductive alarm_kind := KAudio | KDisplay | KEmail.
Definition valarm_macro (k : alarm_kind) (l : list (str * value)) : option (outcome valarm) :=
  match k with
  | KAudio => option_map (omap valarm_of_audio) (macro_value SAudio l)
  | KDisplay => option_map (omap valarm_of_display) (macro_value SDisplay l)
  | KEmail => option_map (omap valarm_of_email) (macro_value SEmail l) end.
End Scope.
End Env.
