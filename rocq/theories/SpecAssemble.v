(** * Texts put together: the children saved one by one and placed before the END
    line of their container, which was saved without them. *)
From Verif Require Import Base Env Types Ser Components SpecRound SpecCrowd SpecFile.
Definition around (name b : str) : str := lit "BEGIN:" ++ name ++ CRLF ++ b ++ lit "END:" ++ name ++ CRLF.
Definition splice (name : str) (h : str) (outs : list str) (out : str) : Prop :=
  exists b, h = around name b /\ out = around name (b ++ concat outs).
Section Env.
Context {E : Env}.
(** ** An event and its alarms *)
Definition event_bare (v : vevent) : vevent := set_ev_alarms v [].
Definition event_assembled (v : vevent) (h : str) (outs : list str) (out : str) : Prop :=
  s_ical ser_vevent (event_bare v) = Ok h /\ Forall2 (fun a o => s_ical ser_valarm a = Ok o) (ev_alarms v) outs /\ splice (lit "VEVENT") h outs out.
(** ** A timezone and its parts, in any order *)
Definition standards_of (ps : list tz_part) := flat_map (fun c => match c with TStandard x => [x] | _ => [] end) ps.
Definition daylights_of (ps : list tz_part) := flat_map (fun c => match c with TDaylight x => [x] | _ => [] end) ps.
Definition timezone_bare (v : vtimezone) : vtimezone := set_tz_daylight (set_tz_standard v []) [].
Definition timezone_with (v : vtimezone) (ps : list tz_part) : vtimezone := set_tz_daylight (set_tz_standard v (standards_of ps)) (daylights_of ps).
Definition part_saved (p : tz_part) (o : str) : Prop :=
  match p with TStandard x => s_ical ser_standard x = Ok o | TDaylight x => s_ical ser_daylight x = Ok o end.
Definition part_loads (o : str) (p : tz_part) : Prop :=
  match p with TStandard x => standard_of_str o = Ok x | TDaylight x => daylight_of_str o = Ok x end.
Definition timezone_assembled (v : vtimezone) (ps : list tz_part) (h : str) (outs : list str) (out : str) : Prop :=
  tz_standard v = standards_of ps /\ tz_daylight v = daylights_of ps /\
  s_ical ser_vtimezone (timezone_bare v) = Ok h /\ Forall2 part_saved ps outs /\ splice (lit "VTIMEZONE") h outs out.
(** ** A calendar and its components, in any order *)
Definition calendar_with (v : vcalendar) (cs : list component) : vcalendar :=
  mk_vcalendar (ca_prodid v) (ca_version v) (ca_calscale v) (ca_method v) (alarms_of cs) (events_of cs) (freebusy_of cs) (journals_of cs)
    (todos_of cs) (timezones_of cs) (ca_x_prop v) (ca_iana_prop v).
Definition calendar_bare (v : vcalendar) : vcalendar := calendar_with v [].
Inductive child_saved : component -> str -> Prop :=
| cs_alarm a o : s_ical ser_valarm a = Ok o -> child_saved (CAlarm a) o
| cs_event e h outs o : event_assembled e h outs o -> child_saved (CEvent e) o
| cs_freebusy f o : s_ical ser_vfreebusy f = Ok o -> child_saved (CFreebusy f) o
| cs_journal j o : s_ical ser_vjournal j = Ok o -> child_saved (CJournal j) o
| cs_timezone z ps h outs o : timezone_assembled z ps h outs o -> child_saved (CTimezone z) o
| cs_todo t o : s_ical ser_vtodo t = Ok o -> child_saved (CTodo t) o.
Definition child_loads (o : str) (c : component) : Prop :=
  match c with
  | CAlarm x => valarm_of_str o = Ok x | CEvent x => vevent_of_str o = Ok x | CFreebusy x => vfreebusy_of_str o = Ok x
  | CJournal x => vjournal_of_str o = Ok x | CTimezone x => vtimezone_of_str o = Ok x | CTodo x => vtodo_of_str o = Ok x
  end.
Definition calendar_assembled (v : vcalendar) (cs : list component) (h : str) (outs : list str) (out : str) : Prop :=
  v = calendar_with v cs /\ s_ical ser_vcalendar (calendar_bare v) = Ok h /\ Forall2 child_saved cs outs /\ splice (lit "VCALENDAR") h outs out.
(** ** Safe, whatever the number of children *)
Definition event_safe (v : vevent) : Prop := vevent_safe (event_bare v) /\ Forall valarm_safe (ev_alarms v).
Definition timezone_safe (v : vtimezone) : Prop :=
  vtimezone_safe (timezone_bare v) /\ Forall standard_safe (tz_standard v) /\ Forall daylight_safe (tz_daylight v).
Definition calendar_safe (v : vcalendar) : Prop :=
  vcalendar_safe (calendar_bare v) /\ Forall valarm_safe (ca_alarms v) /\ Forall event_safe (ca_events v) /\ Forall vfreebusy_safe (ca_freebusy v) /\
  Forall vjournal_safe (ca_journals v) /\ Forall vtodo_safe (ca_todo v) /\ Forall timezone_safe (ca_timezones v).
(** ** Nothing to fold inside a multi-byte character *)
Definition ascii_lines (ls : list content_line) : Prop := Forall ascii_line ls.
Definition event_ascii (v : vevent) : Prop := ascii_lines (vevent_written v) /\ Forall (fun a => ascii_lines (valarm_written a)) (ev_alarms v).
Definition timezone_ascii (v : vtimezone) : Prop :=
  ascii_lines (vtimezone_written v) /\ Forall (fun x => ascii_lines (standard_written x)) (tz_standard v) /\ Forall (fun x => ascii_lines (daylight_written x)) (tz_daylight v).
Definition calendar_ascii (v : vcalendar) : Prop :=
  ascii_lines (vcalendar_written v) /\ Forall (fun x => ascii_lines (valarm_written x)) (ca_alarms v) /\ Forall event_ascii (ca_events v) /\
  Forall (fun x => ascii_lines (vfreebusy_written x)) (ca_freebusy v) /\ Forall (fun x => ascii_lines (vjournal_written x)) (ca_journals v) /\
  Forall (fun x => ascii_lines (vtodo_written x)) (ca_todo v) /\ Forall timezone_ascii (ca_timezones v).
End Env.
