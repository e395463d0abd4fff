(** * Components written into a file by hand, before its END line. *)
From Verif Require Import Base Env Types Ser Parser Components SpecText SpecLine SpecFile SpecAssemble.
(** [s] is [p], then the line END:[name], which occurs nowhere in [p], folded or not. *)
Definition closing (name p s : str) : Prop :=
  s = p ++ lit "END:" ++ name ++ CRLF /\ ~ contains (lit "END:" ++ name) (unfold_lines p).
Definition name_of (c : component) : str :=
  match c with
  | CAlarm _ => lit "VALARM" | CEvent _ => lit "VEVENT" | CFreebusy _ => lit "VFREEBUSY" | CJournal _ => lit "VJOURNAL"
  | CTimezone _ => lit "VTIMEZONE" | CTodo _ => lit "VTODO"
  end.
Definition part_name (p : tz_part) : str := match p with TStandard _ => lit "STANDARD" | TDaylight _ => lit "DAYLIGHT" end.
Section Env.
Context {E : Env}.
(** [o] is the text of one component and nothing more, without a double quote. *)
Definition whole_child (o : str) (c : component) : Prop := child_loads o c /\ (exists p, closing (name_of c) p o) /\ ~ In QUOTE o.
Definition whole_part (o : str) (c : tz_part) : Prop := part_loads o c /\ (exists p, closing (part_name c) p o) /\ ~ In QUOTE o.
Definition whole_alarm (o : str) (a : valarm) : Prop := whole_child o (CAlarm a).
(** The same calendar (event, timezone) with more at the end. *)
Definition calendar_more (v : vcalendar) (cs : list component) : vcalendar :=
  mk_vcalendar (ca_prodid v) (ca_version v) (ca_calscale v) (ca_method v) (ca_alarms v ++ alarms_of cs) (ca_events v ++ events_of cs)
    (ca_freebusy v ++ freebusy_of cs) (ca_journals v ++ journals_of cs) (ca_todo v ++ todos_of cs) (ca_timezones v ++ timezones_of cs) (ca_x_prop v) (ca_iana_prop v).
Definition event_more (v : vevent) (l : list valarm) : vevent := set_ev_alarms v (ev_alarms v ++ l).
Definition timezone_more (v : vtimezone) (l : list tz_part) : vtimezone :=
  set_tz_daylight (set_tz_standard v (tz_standard v ++ standards_of l)) (tz_daylight v ++ daylights_of l).
End Env.
