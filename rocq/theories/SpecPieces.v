(** * The text of exactly one component: the pieces a file is made of. *)
From Verif Require Import Base Env Types Ser Parser Components SpecText SpecLine SpecFile SpecAssemble SpecAppend.
Section Env.
Context {E : Env}.
(** [o] is, its folds undone, the text of the component [c] from its BEGIN line to its END
    line with nothing after it (SpecFile); there is no double quote in it. *)
Definition child_exact (o : str) (c : component) : Prop := child_text (unfold_lines o) c [] /\ ~ In QUOTE o.
Definition alarm_exact (o : str) (a : valarm) : Prop := alarm_text (unfold_lines o) a [] /\ ~ In QUOTE o.
Definition part_exact (o : str) (c : tz_part) : Prop := tz_part_text (unfold_lines o) c [] /\ ~ In QUOTE o.
Definition calendar_childless (v : vcalendar) : Prop :=
  ca_alarms v = [] /\ ca_events v = [] /\ ca_freebusy v = [] /\ ca_journals v = [] /\ ca_todo v = [] /\ ca_timezones v = [].
End Env.
