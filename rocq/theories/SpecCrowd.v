(** * Components with several children of a kind, or with alarms. *)
From Verif Require Import Base Env Types Components SpecRound.
Section Env.
Context {E : Env}.
(** The strings of the component and of its children can stand on one line. *)
Definition event_tidy (v : vevent) : Prop := vevent_tidy (set_ev_alarms v []) /\ Forall valarm_tidy (ev_alarms v).
Definition timezone_tidy (v : vtimezone) : Prop := vtimezone_tidy v /\ Forall standard_tidy (tz_standard v) /\ Forall daylight_tidy (tz_daylight v).
Definition calendar_tidy (v : vcalendar) : Prop :=
  vcalendar_tidy v /\ Forall valarm_tidy (ca_alarms v) /\ Forall event_tidy (ca_events v) /\ Forall vfreebusy_tidy (ca_freebusy v) /\
  Forall vjournal_tidy (ca_journals v) /\ Forall vtodo_tidy (ca_todo v) /\ Forall timezone_tidy (ca_timezones v).
(** Two of a kind, or an alarm, here or in a child. *)
Definition several {A} (l : list A) : Prop := exists x y r, l = x :: y :: r.
Definition event_crowded (v : vevent) : Prop := ev_alarms v <> [].
Definition timezone_crowded (v : vtimezone) : Prop := several (tz_standard v) \/ several (tz_daylight v).
Definition calendar_crowded (v : vcalendar) : Prop :=
  ca_alarms v <> [] \/ several (ca_events v) \/ several (ca_freebusy v) \/ several (ca_journals v) \/ several (ca_todo v) \/ several (ca_timezones v) \/
  (exists e, In e (ca_events v) /\ event_crowded e) \/ (exists z, In z (ca_timezones v) /\ timezone_crowded z).
(** Extension properties, written after the children. *)
Definition timezone_trailing (v : vtimezone) : Prop := (tz_standard v <> [] \/ tz_daylight v <> []) /\ (tz_x_prop v <> [] \/ tz_iana_prop v <> []).
Definition calendar_trailing (v : vcalendar) : Prop :=
  (ca_alarms v <> [] \/ ca_events v <> [] \/ ca_freebusy v <> [] \/ ca_journals v <> [] \/ ca_todo v <> [] \/ ca_timezones v <> []) /\
  (ca_x_prop v <> [] \/ ca_iana_prop v <> []).
End Env.
