(** * Specification of formatting, independent of the model *)
From Verif Require Import Base SpecCal.

(** The pieces of a format: characters, directives [%c], and a [%] at the end. *)
Inductive piece := Char (c : char) | Directive (c : char) | Dangling.
Inductive pieces : str -> list piece -> Prop :=
| pieces_nil : pieces [] []
| pieces_char c f l : c <> 37 -> pieces f l -> pieces (c :: f) (Char c :: l)
| pieces_directive c f l : pieces f l -> pieces (37 :: c :: f) (Directive c :: l)
| pieces_dangling : pieces [37] [Dangling].
(** The directives of the model: those that use the date only, those that need a time of day, and those that depend on the offset. *)
Definition date_letters : str := lit "YyGgmBbhdeAawujUWVDxFvtn%".
Definition time_letters : str := lit "HkIlpPMSfRTXrcs".
Definition offset_letters : str := lit "z".
(** Directives of chrono outside the model: chrono has more, with modifiers. *)
Definition outside_letters : str := lit "CqZ+.:#-_0369".
Definition modelled (l : list piece) : Prop := forall c, In (Directive c) l -> ~ In c outside_letters.
Definition unknown (c : char) : Prop := ~ In c date_letters /\ ~ In c time_letters /\ ~ In c offset_letters /\ ~ In c outside_letters.
(** A malformed format. *)
Definition malformed (l : list piece) : Prop := In Dangling l \/ exists c, In (Directive c) l /\ unknown c.
Definition uses (letters : str) (l : list piece) : Prop := exists c, In (Directive c) l /\ In c letters.

(** The number of a day in its year. *)
Inductive day_of_year : Z * Z * Z -> Z -> Prop :=
| new_year y : day_of_year (y, 1, 1) 1
| day_after y m d m' d' k : day_of_year (y, m, d) k -> next_day (y, m, d) (y, m', d') -> day_of_year (y, m', d') (k + 1).
(** The day of the week, from Sunday: 1970-01-01 was a Thursday. *)
Inductive falls_on : Z * Z * Z -> Z -> Prop :=
| thursday : falls_on (1970, 1, 1) 4
| tomorrow a b w : falls_on a w -> next_day a b -> falls_on b ((w + 1) mod 7)
| yesterday a b w : falls_on b w -> next_day a b -> falls_on a ((w - 1) mod 7).
(** The number of the week in its year: how many days of the kind [first] (0 for Sunday, 1 for Monday) there are up to the day. *)
Inductive week_of_year (first : Z) : Z * Z * Z -> Z -> Prop :=
| week_of_new_year y w : falls_on (y, 1, 1) w -> week_of_year first (y, 1, 1) (if w =? first then 1 else 0)
| week_after y m d m' d' k w : week_of_year first (y, m, d) k -> next_day (y, m, d) (y, m', d') -> falls_on (y, m', d') w ->
    week_of_year first (y, m', d') (if w =? first then k + 1 else k).
(** The offset from UTC: a sign, hours and minutes, to the nearest minute. *)
Definition offset_text (off : Z) (s : str) : Prop :=
  exists h m sh sm, 0 <= h /\ 0 <= m < 60 /\ s = (if off <? 0 then 45 else 43) :: sh ++ sm /\ padded 2 h sh /\ padded 2 m sm /\ Z.abs (Z.abs off - 60 * (60 * h + m)) <= 30.
(** A number in a column of two characters. *)
Definition right_aligned (n : Z) (s : str) : Prop := exists ds, decimal n ds /\ (length s = 2)%nat /\ (s = ds \/ s = 32 :: ds).
Definition integer (n : Z) (s : str) : Prop := 0 <= n /\ decimal n s \/ n < 0 /\ exists t, s = 45 :: t /\ decimal (- n) t.
Definition months : list string := ["January"; "February"; "March"; "April"; "May"; "June"; "July"; "August"; "September"; "October"; "November"; "December"]%string.
Definition weekdays : list string := ["Sunday"; "Monday"; "Tuesday"; "Wednesday"; "Thursday"; "Friday"; "Saturday"]%string.
