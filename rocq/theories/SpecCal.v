(** * The Gregorian calendar and date texts, independent of the model. *)
From Verif Require Import Base.

Definition divides (a b : Z) : Prop := exists k, b = a * k.
(** Leap years: multiples of 4, except multiples of 100 that are not multiples of 400. *)
Definition leap_year (y : Z) : Prop := divides 4 y /\ (~ divides 100 y \/ divides 400 y).
(** Number of days of a month. *)
Inductive month_length (y : Z) : Z -> Z -> Prop :=
| ml_31 m : In m [1; 3; 5; 7; 8; 10; 12] -> month_length y m 31
| ml_30 m : In m [4; 6; 9; 11] -> month_length y m 30
| ml_29 : leap_year y -> month_length y 2 29
| ml_28 : ~ leap_year y -> month_length y 2 28.
(** An existing date. *)
Definition gregorian (y m d : Z) : Prop := exists n, month_length y m n /\ 1 <= d <= n.
(** The day after. *)
Inductive next_day : Z * Z * Z -> Z * Z * Z -> Prop :=
| nd_day y m d : gregorian y m (d + 1) -> gregorian y m d -> next_day (y, m, d) (y, m, d + 1)
| nd_month y m d : month_length y m d -> m < 12 -> next_day (y, m, d) (y, m + 1, 1)
| nd_year y : next_day (y, 12, 31) (y + 1, 1, 1).
Definition before (a b : Z * Z * Z) : Prop :=
  let '(y, m, d) := a in let '(y', m', d') := b in
  y < y' \/ y = y' /\ (m < m' \/ m = m' /\ d < d').

(** A decimal digit string and its value. *)
Definition digit_string (s : str) : Prop := Forall (fun c => 48 <= c <= 57) s.
Fixpoint value_rev (s : str) : Z := match s with [] => 0 | c :: r => (c - 48) + 10 * value_rev r end.
Definition value_of (s : str) : Z := value_rev (rev s).
Definition blank (s : str) : Prop := Forall (fun c => is_whitespace c = true) s.
(** [s] is blanks then a number of 1 to [k] digits of value [n]. *)
Definition number_text (k : nat) (s : str) (n : Z) : Prop :=
  exists w ds, s = w ++ ds /\ blank w /\ digit_string ds /\ ds <> [] /\ (length ds <= k)%nat /\ value_of ds = n.
(** A year: 1 to 4 digits, or a sign and any number of digits. *)
Inductive year_text : str -> Z -> Prop :=
| yt_plain s y : number_text 4 s y -> year_text s y
| yt_plus w ds : blank w -> digit_string ds -> ds <> [] -> year_text (w ++ [43] ++ ds) (value_of ds)
| yt_minus w ds : blank w -> digit_string ds -> ds <> [] -> year_text (w ++ [45] ++ ds) (- value_of ds).
(** [s] reads as the date [y]-[m]-[d]. *)
Definition date_text (s : str) (y m d : Z) : Prop :=
  exists sy sm sd, s = sy ++ sm ++ sd /\ year_text sy y /\ number_text 2 sm m /\ number_text 2 sd d.
Definition time_text (s : str) (h mi se : Z) : Prop :=
  exists sh sm ss, s = sh ++ sm ++ ss /\ number_text 2 sh h /\ number_text 2 sm mi /\ number_text 2 ss se.
(** Exactly [k] digits of value [n]. *)
Definition padded (k : nat) (n : Z) (s : str) : Prop := length s = k /\ digit_string s /\ value_of s = n.
(** A number in canonical decimal notation (no needless leading zero). *)
Definition decimal (n : Z) (s : str) : Prop :=
  s <> [] /\ digit_string s /\ value_of s = n /\ (hd 0 s = 48 -> s = [48]).
