(** * How far a series goes. *)
From Verif Require Import Base Env Chrono Types Components Iter SpecIter SpecKinds.
(** chrono's last day is 31 December 262142.  The end of the day after it, in seconds since the epoch. *)
Definition calendar_end : Z := (days_of_ymd 262142 12 31 + 2) * 86400.
(** No COUNT and no UNTIL. *)
Definition open_ended (r : recur) : Prop := r_count r = None /\ r_until r = None.
(** The calls come to an end by themselves. *)
Definition over (f : fate) : Prop := f = Ended \/ f = Panicked.
(** What is left to be said of [None] is nothing, of [Some e] that [P e]. *)
Definition some_such {A} (o : option A) (P : A -> Prop) : Prop := match o with Some e => P e | None => False end.
(** From chrono's first day, 1 January -262143, on. *)
Definition in_calendar (d : date) : Prop := days_of_ymd (-262143) 1 1 * 86400 <= second_of d.
(** [s] seconds since the epoch are before the end of the last day. *)
Definition fits (s : Z) : Prop := s < (days_of_ymd 262142 12 31 + 1) * 86400.
