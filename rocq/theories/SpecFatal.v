(** * Which texts make a parser panic: exact conditions, independent of the parsers.

    Uses the grammar of SpecFile.v, the field specifications of SpecFields.v and,
    for single values, the readers whose own specifications are C20 (date-times)
    and C31 (periods). *)
From Verif Require Import Base Env Types Parser SpecLine SpecComp SpecFields SpecCal SpecDur Components SpecFile.

(** ** Values *)
(** A prefix that is a duration text of numbers that fit 64 bits. *)
Definition duration_prefix (neg : bool) w d t (txt s : str) : Prop :=
  duration_text neg w d t txt /\ Forall (fun n => n <= 9223372036854775807) (numbers_of w d t) /\ exists rest, s = txt ++ rest.
Definition longest_duration_prefix (neg : bool) w d t (txt s : str) : Prop :=
  duration_prefix neg w d t txt s /\
  forall neg' w' d' t' txt', duration_prefix neg' w' d' t' txt' s -> (length txt' <= length txt)%nat.
(** The longest such prefix is beyond chrono's range. *)
Definition fatal_duration (s : str) : Prop :=
  exists neg w d t txt, longest_duration_prefix neg w d t txt s /\ longest < seconds_of w d t * sec.
(** NAME=VALUE parts joined by ';', none named FREQ; then the end, or ';' and
    something that does not start with another NAME=. *)
Definition fatal_rule (v : str) : Prop :=
  exists l tail, l <> [] /\ v = join [59] (map (fun kv => fst kv ++ [61] ++ snd kv) l) ++ tail /\
    Forall (fun kv => key_text (fst kv) /\ ~ In 59 (snd kv) /\ fst kv <> lit "FREQ") l /\
    (tail = [] \/ exists r, tail = 59 :: r /\ forall k w, key_text k -> r <> k ++ [61] ++ w).
(** A date-time, then no '/', or '/' and P and a duration beyond the range. *)
Definition fatal_period (x : str) : Prop :=
  exists a d, ~ In 47 a /\ parse_datetime (cl_of_str a) = Ok d /\
    (x = a \/ exists b, x = a ++ [47; 80] ++ b /\ fatal_duration (80 :: b)).
(** The entries are read in order: good ones, then a fatal one. *)
Definition fatal_periods (v : str) : Prop :=
  exists good x rest, v = join [44] (good ++ x :: rest) /\ Forall (fun y => ~ In 44 y) (good ++ x :: rest) /\
    Forall (fun y => exists p, parse_freebusy (cl_of_str y) = Ok p) good /\ fatal_period x.

(** ** Lines *)
Definition fatal_rrule_line (l : content_line) : Prop := cl_key l = lit "RRULE" /\ fatal_rule (cl_value l).
Definition fatal_rdate_line (l : content_line) : Prop :=
  cl_key l = lit "RDATE" /\ mget (lit "VALUE") (cl_params l) = Some (lit "PERIOD") /\ fatal_periods (cl_value l).
Definition fatal_duration_line (l : content_line) : Prop := cl_key l = lit "DURATION" /\ fatal_duration (cl_value l).
Definition fatal_freebusy_line (l : content_line) : Prop := cl_key l = lit "FREEBUSY" /\ fatal_periods (cl_value l).
Definition fatal_trigger_line (l : content_line) : Prop := cl_key l = lit "TRIGGER" /\ fatal_duration (cl_value l).
Definition fatal_recurrence (l : content_line) : Prop := fatal_rrule_line l \/ fatal_rdate_line l.
Definition fatal_scheduled (l : content_line) : Prop := fatal_rrule_line l \/ fatal_rdate_line l \/ fatal_duration_line l.

(** ** Components *)
(** A fatal line comes before anything that is an error: the lines before it,
    completed by the required properties that come after it, are a component. *)
Definition crash {A} (read : list content_line -> A -> Prop) (needed : list str) (fatal : content_line -> Prop) (ls : list content_line) : Prop :=
  exists before l after v, ls = before ++ l :: after /\ fatal l /\
    read (before ++ filter (fun x => existsb (str_eqb (cl_key x)) needed) after) v.
Section Fatal.
Context {E : Env}.
Definition event_crash := crash vevent_read vevent_required fatal_scheduled.
Definition todo_crash := crash vtodo_read vtodo_required fatal_scheduled.
Definition journal_crash := crash vjournal_read vjournal_required fatal_recurrence.
Definition freebusy_crash := crash vfreebusy_read vfreebusy_required fatal_freebusy_line.
Definition standard_crash := crash standard_read standard_required fatal_recurrence.
Definition daylight_crash := crash daylight_read daylight_required fatal_recurrence.
(** An alarm: no ACTION, or a fatal trigger, or a fatal DURATION. *)
Definition alarm_crash (ls : list content_line) : Prop :=
  absent (lit "ACTION") ls \/
  exists l, first_line (lit "ACTION") ls l /\
    ((cl_value l = lit "AUDIO" \/ cl_value l = lit "DISPLAY" \/ cl_value l = lit "EMAIL") /\
       (exists t, last_line (lit "TRIGGER") ls t /\ fatal_trigger_line t) \/
     cl_value l = lit "AUDIO" /\ crash audio_read audio_required fatal_duration_line ls \/
     cl_value l = lit "DISPLAY" /\ crash display_read display_required fatal_duration_line ls \/
     cl_value l = lit "EMAIL" /\ crash email_read email_required fatal_duration_line ls).

(** ** Texts *)
Definition simple_crash (name : str) (lines_crash : list content_line -> Prop) (s : str) : Prop :=
  exists t ls rest, s = lit "BEGIN:" ++ name ++ [CR; LF] ++ t /\
    lines_text t ls (lit "END:" ++ name ++ [CR; LF] ++ rest) /\ lines_crash ls.
(** Lines, good children, then a crash. *)
Definition nested_crash {A} (name : str) (child : str -> A -> str -> Prop) (last : list content_line -> str -> Prop) (s : str) : Prop :=
  exists t ls t2 cs t3, s = lit "BEGIN:" ++ name ++ [CR; LF] ++ t /\ lines_text t ls t2 /\ seq_text child t2 cs t3 /\ last ls t3.
Definition alarm_crashes : str -> Prop := simple_crash (lit "VALARM") alarm_crash.
Definition event_crashes : str -> Prop :=
  nested_crash (lit "VEVENT") alarm_text
    (fun ls t => alarm_crashes t \/ (exists rest, t = lit "END:VEVENT" ++ [CR; LF] ++ rest) /\ event_crash ls).
Definition tz_part_crashes (s : str) : Prop :=
  simple_crash (lit "STANDARD") standard_crash s \/ simple_crash (lit "DAYLIGHT") daylight_crash s.
Definition timezone_crashes : str -> Prop := nested_crash (lit "VTIMEZONE") tz_part_text (fun _ => tz_part_crashes).
Definition child_crashes (s : str) : Prop :=
  alarm_crashes s \/ event_crashes s \/ simple_crash (lit "VFREEBUSY") freebusy_crash s \/
  simple_crash (lit "VJOURNAL") journal_crash s \/ timezone_crashes s \/ simple_crash (lit "VTODO") todo_crash s.
Definition calendar_crashes : str -> Prop := nested_crash (lit "VCALENDAR") child_text (fun _ => child_crashes).
End Fatal.
