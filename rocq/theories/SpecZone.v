(** * Time zones and values without one; independent of the code. *)
From Verif Require Import Base Env Types Components.

(** The same process in another time zone. *)
Definition in_zone (E : Env) (offset : Z -> Z) (local : Z -> mapped) : Env := {|
  tz_offset := offset; tz_local := local;
  f32_show := @f32_show E; f32_show1 := @f32_show1 E; f32_parse := @f32_parse E; upper_nonascii := @upper_nonascii E |}.

(** No date-time in UTC or in a zone. *)
Definition floating_dt (d : datetime) : Prop := match d with Naive _ => True | Local _ => False end.
Definition floating_date (d : date) : Prop := match d with DDate _ => True | DDateTime t => floating_dt t end.
Definition floating_opt {A} (P : A -> Prop) (o : option A) : Prop := match o with Some x => P x | None => True end.
Definition floating_rule (r : recur) : Prop := floating_opt floating_date (r_until r).
Definition floating_period (p : period) : Prop :=
  match p with StartEnd s e => floating_dt s /\ floating_dt e | StartDur s _ => floating_dt s end.
Definition floating_rdate (r : rdate) : Prop :=
  match r with RDates l => Forall floating_date l | RPeriods l => Forall floating_period l end.
Definition floating_trigger (t : trigger) : Prop := match t with TrDateTime d => floating_dt d | TrDuration _ => True end.
Definition audio_floating (v : audio) : Prop :=
  floating_trigger (au_trigger v).
Definition display_floating (v : display) : Prop :=
  floating_trigger (di_trigger v).
Definition email_floating (v : email) : Prop :=
  floating_trigger (em_trigger v).
Definition floating_alarm (a : valarm) : Prop :=
  match a with AAudio a => audio_floating a | ADisplay a => display_floating a | AEmail a => email_floating a end.
Definition vevent_floating (v : vevent) : Prop :=
  floating_dt (ev_dtstamp v) /\ floating_date (ev_dtstart v) /\ floating_opt floating_dt (ev_created v) /\ floating_opt floating_dt (ev_last_modified v) /\ floating_opt floating_date (ev_recurid v) /\ floating_opt floating_rule (ev_rrule v) /\ floating_opt floating_date (ev_dtend v) /\ Forall floating_date (ev_exdate v) /\ Forall floating_rdate (ev_rdate v) /\ Forall floating_alarm (ev_alarms v).
Definition vfreebusy_floating (v : vfreebusy) : Prop :=
  floating_dt (fb_dtstamp v) /\ floating_opt floating_date (fb_dtstart v) /\ floating_opt floating_date (fb_dtend v) /\ Forall floating_period (fb_freebusy v).
Definition vjournal_floating (v : vjournal) : Prop :=
  floating_dt (jo_dtstamp v) /\ floating_opt floating_dt (jo_created v) /\ floating_date (jo_dtstart v) /\ floating_opt floating_dt (jo_last_modified v) /\ floating_opt floating_date (jo_recurid v) /\ floating_opt floating_rule (jo_rrule v) /\ Forall floating_date (jo_exdate v) /\ Forall floating_rdate (jo_rdate v).
Definition vtodo_floating (v : vtodo) : Prop :=
  floating_dt (to_dtstamp v) /\ floating_opt floating_dt (to_completed v) /\ floating_opt floating_dt (to_created v) /\ floating_opt floating_date (to_dtstart v) /\ floating_opt floating_dt (to_last_modified v) /\ floating_opt floating_date (to_recurid v) /\ floating_opt floating_rule (to_rrule v) /\ floating_opt floating_date (to_due v) /\ Forall floating_date (to_exdate v) /\ Forall floating_rdate (to_rdate v).
Definition standard_floating (v : standard) : Prop :=
  floating_date (st_dtstart v) /\ floating_opt floating_rule (st_rrule v) /\ Forall floating_rdate (st_rdate v).
Definition daylight_floating (v : daylight) : Prop :=
  floating_date (dl_dtstart v) /\ floating_opt floating_rule (dl_rrule v) /\ Forall floating_rdate (dl_rdate v).
Definition vtimezone_floating (v : vtimezone) : Prop :=
  floating_opt floating_dt (tz_last_modified v) /\ Forall standard_floating (tz_standard v) /\ Forall daylight_floating (tz_daylight v).
Definition vcalendar_floating (v : vcalendar) : Prop :=
  Forall floating_alarm (ca_alarms v) /\ Forall vevent_floating (ca_events v) /\ Forall vfreebusy_floating (ca_freebusy v) /\ Forall vjournal_floating (ca_journals v) /\ Forall vtodo_floating (ca_todo v) /\ Forall vtimezone_floating (ca_timezones v).
