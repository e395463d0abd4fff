(** * The shape of a component text, independent of the parser. *)
From Verif Require Import Base Env Types SpecLine SpecComp SpecFields SpecCal SpecDur Components.

(** [s] is the content lines [ls] followed by [rest]; each line's parameters are
    listed by increasing name (as in the [BTreeMap]). *)
Definition lines_text (s : str) (ls : list content_line) (rest : str) : Prop :=
  is_lines s ls rest /\ Forall (fun l => sorted_map (cl_params l)) ls.
(** One thing after the other. *)
Inductive seq_text {A} (one : str -> A -> str -> Prop) : str -> list A -> str -> Prop :=
| sq_nil s : seq_text one s [] s
| sq_cons s a r l rest : one s a r -> seq_text one r l rest -> seq_text one s (a :: l) rest.

Section File.
Context {E : Env}.
(** BEGIN:NAME CRLF, content lines, END:NAME CRLF. *)
Definition simple_text {A} (name : str) (read : list content_line -> A -> Prop) (s : str) (v : A) (rest : str) : Prop :=
  exists t ls, s = lit "BEGIN:" ++ name ++ [CR; LF] ++ t /\
    lines_text t ls (lit "END:" ++ name ++ [CR; LF] ++ rest) /\ read ls v.
(** The kind of an alarm is the value of its first ACTION line. *)
Definition first_line (n : str) (ls : list content_line) (l : content_line) : Prop :=
  exists before after, ls = before ++ l :: after /\ cl_key l = n /\ absent n before.
Definition valarm_read (ls : list content_line) (a : valarm) : Prop :=
  exists l, first_line (lit "ACTION") ls l /\
  match a with
  | AAudio x => cl_value l = lit "AUDIO" /\ audio_read ls x
  | ADisplay x => cl_value l = lit "DISPLAY" /\ display_read ls x
  | AEmail x => cl_value l = lit "EMAIL" /\ email_read ls x
  end.
Definition alarm_text := simple_text (lit "VALARM") valarm_read.
(** An event holds lines, then alarms. *)
Definition event_text (s : str) (v : vevent) (rest : str) : Prop :=
  exists t ls t2 v0, s = lit "BEGIN:VEVENT" ++ [CR; LF] ++ t /\
    lines_text t ls t2 /\
    seq_text alarm_text t2 (ev_alarms v) (lit "END:VEVENT" ++ [CR; LF] ++ rest) /\
    vevent_read ls v0 /\ v = set_ev_alarms v0 (ev_alarms v).
(** A timezone holds lines, then STANDARD and DAYLIGHT parts in any order. *)
Definition tz_part_text (s : str) (c : tz_part) (rest : str) : Prop :=
  match c with
  | TStandard x => simple_text (lit "STANDARD") standard_read s x rest
  | TDaylight x => simple_text (lit "DAYLIGHT") daylight_read s x rest
  end.
Definition timezone_text (s : str) (v : vtimezone) (rest : str) : Prop :=
  exists t ls t2 cs v0, s = lit "BEGIN:VTIMEZONE" ++ [CR; LF] ++ t /\
    lines_text t ls t2 /\
    seq_text tz_part_text t2 cs (lit "END:VTIMEZONE" ++ [CR; LF] ++ rest) /\
    vtimezone_read ls v0 /\ v = set_tz_daylight (set_tz_standard v0 (tz_standard v)) (tz_daylight v) /\
    tz_standard v = flat_map (fun c => match c with TStandard x => [x] | _ => [] end) cs /\
    tz_daylight v = flat_map (fun c => match c with TDaylight x => [x] | _ => [] end) cs.
(** A child of a calendar. *)
Definition child_text (s : str) (c : component) (rest : str) : Prop :=
  match c with
  | CAlarm x => alarm_text s x rest
  | CEvent x => event_text s x rest
  | CFreebusy x => simple_text (lit "VFREEBUSY") vfreebusy_read s x rest
  | CJournal x => simple_text (lit "VJOURNAL") vjournal_read s x rest
  | CTimezone x => timezone_text s x rest
  | CTodo x => simple_text (lit "VTODO") vtodo_read s x rest
  end.
(** The children of each kind, in order. *)
Definition alarms_of (cs : list component) := flat_map (fun c => match c with CAlarm x => [x] | _ => [] end) cs.
Definition events_of (cs : list component) := flat_map (fun c => match c with CEvent x => [x] | _ => [] end) cs.
Definition freebusy_of (cs : list component) := flat_map (fun c => match c with CFreebusy x => [x] | _ => [] end) cs.
Definition journals_of (cs : list component) := flat_map (fun c => match c with CJournal x => [x] | _ => [] end) cs.
Definition timezones_of (cs : list component) := flat_map (fun c => match c with CTimezone x => [x] | _ => [] end) cs.
Definition todos_of (cs : list component) := flat_map (fun c => match c with CTodo x => [x] | _ => [] end) cs.
(** A calendar made of the lines [ls] and the children [cs]; the text after
    END:VCALENDAR is arbitrary. *)
Definition calendar_text (s : str) (ls : list content_line) (cs : list component) (rest : str) : Prop :=
  exists t t2, s = lit "BEGIN:VCALENDAR" ++ [CR; LF] ++ t /\ lines_text t ls t2 /\
    seq_text child_text t2 cs (lit "END:VCALENDAR" ++ rest).
Definition calendar_holds (v : vcalendar) (ls : list content_line) (cs : list component) : Prop :=
  ca_alarms v = alarms_of cs /\ ca_events v = events_of cs /\ ca_freebusy v = freebusy_of cs /\
  ca_journals v = journals_of cs /\ ca_timezones v = timezones_of cs /\ ca_todo v = todos_of cs /\
  exists v0, vcalendar_read ls v0 /\
    ca_prodid v = ca_prodid v0 /\ ca_version v = ca_version v0 /\ ca_calscale v = ca_calscale v0 /\
    ca_method v = ca_method v0 /\ ca_x_prop v = ca_x_prop v0 /\ ca_iana_prop v = ca_iana_prop v0.
End File.

(** ** What can make a parser panic *)
(** A rule without a FREQ part: NAME=VALUE parts joined by ';', then the end or ';'. *)
Definition rule_without_freq (v : str) : Prop :=
  exists l tail, l <> [] /\ v = join [59] (map (fun kv => fst kv ++ [61] ++ snd kv) l) ++ tail /\
    Forall (fun kv => key_text (fst kv) /\ ~ In 59 (snd kv) /\ fst kv <> lit "FREQ") l /\
    (tail = [] \/ exists r, tail = 59 :: r).
(** A duration (possibly followed by junk) beyond the longest representable one. *)
Definition too_long (s : str) : Prop :=
  exists neg w d t txt rest, s = txt ++ rest /\ duration_text neg w d t txt /\ longest < seconds_of w d t * sec.
(** An entry of a comma-separated list. *)
Definition list_entry (x v : str) : Prop :=
  exists l, v = join [44] l /\ Forall (fun y => ~ In 44 y) l /\ In x l.
Definition bad_period (x : str) : Prop := ~ In 47 x \/ exists a b, x = a ++ [47] ++ b /\ too_long b.
Definition dangerous (l : content_line) : Prop :=
  (cl_key l = lit "RRULE" /\ rule_without_freq (cl_value l)) \/
  ((cl_key l = lit "FREEBUSY" \/ cl_key l = lit "RDATE" /\ mget (lit "VALUE") (cl_params l) = Some (lit "PERIOD")) /\
     exists x, list_entry x (cl_value l) /\ bad_period x) \/
  ((cl_key l = lit "DURATION" \/ cl_key l = lit "TRIGGER") /\ too_long (cl_value l)).
(** Somewhere in [s] a component [name] starts with the lines [ls]. *)
Definition holds_lines (s name : str) (ls : list content_line) : Prop :=
  exists before t rest, s = before ++ lit "BEGIN:" ++ name ++ [CR; LF] ++ t /\ lines_text t ls rest.
Definition risky (s : str) : Prop :=
  exists name ls, holds_lines s name ls /\
    ((name = lit "VALARM" /\ absent (lit "ACTION") ls) \/ exists l, In l ls /\ dangerous l).
