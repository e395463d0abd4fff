(** * What the values of properties read as, for every text: exact grammars,
    independent of the parsers. *)
From Verif Require Import Base Env Chrono Types SpecCal SpecDur.

(** ** Dates and times *)
Definition no_digit_next (s : str) : Prop := match s with [] => True | c :: _ => ~ 48 <= c <= 57 end.
(** Blanks and a number at the head of [s]: all the digits there are, up to [k]. *)
Definition reads_number (k : nat) (s : str) (n : Z) (rest : str) : Prop :=
  exists w ds, s = w ++ ds ++ rest /\ blank w /\ ds <> [] /\ digit_string ds /\ value_of ds = n /\
    (length ds = k \/ (length ds < k)%nat /\ no_digit_next rest).
(** A year: such a number of up to four digits, or a sign and all the digits there are. *)
Definition reads_year (s : str) (y : Z) (rest : str) : Prop :=
  reads_number 4 s y rest \/
  exists (neg : bool) w ds, s = w ++ [if neg then 45 else 43] ++ ds ++ rest /\ blank w /\ ds <> [] /\ digit_string ds /\
    y = signed neg (value_of ds) /\ no_digit_next rest.
Definition reads_ymd (s : str) (y m d : Z) (rest : str) : Prop :=
  exists r1 r2, reads_year s y r1 /\ reads_number 2 r1 m r2 /\ reads_number 2 r2 d rest.
(** [n] is the day [y]-[m]-[d], which exists and is one that chrono represents. *)
Definition the_day (y m d : Z) (n : ndate) : Prop :=
  -262143 <= y <= 262142 /\ gregorian y m d /\ ymd_of_days n = (y, m, d).
(** The whole of [s] is the day [n]. *)
Definition reads_day (s : str) (n : ndate) : Prop := exists y m d, reads_ymd s y m d [] /\ the_day y m d n.
(** [h]:[mi]:[se] of the day; :60 is a leap second. *)
Definition the_time (h mi se : Z) (n : ndt) : Prop :=
  h <= 23 /\ mi <= 59 /\
  (se <= 59 /\ nd_secs n = h * 3600 + mi * 60 + se /\ nd_nano n = 0 \/
   se = 60 /\ nd_secs n = h * 3600 + mi * 60 + 59 /\ nd_nano n = 1000000000).
(** The whole of [s] is the day and time [n]. *)
Definition reads_wall (s : str) (n : ndt) : Prop :=
  exists y m d h mi se r r1 r2, reads_ymd s y m d (84 :: r) /\ reads_number 2 r h r1 /\ reads_number 2 r1 mi r2 /\ reads_number 2 r2 se [] /\
    the_day y m d (nd_date n) /\ the_time h mi se n.
(** One or more Z at the end. *)
Definition zulu (s t : str) : Prop := exists zs, s = t ++ zs /\ zs <> [] /\ Forall (fun c => c = 90) zs.
(** A date-time as a property holds it: a Z makes it an instant, in UTC. *)
Definition reads_datetime (s : str) (t : datetime) : Prop :=
  match t with Naive n => reads_wall s n | Local u => exists x, zulu s x /\ reads_wall x u end.
Definition reads_date (s : str) (d : date) : Prop :=
  match d with DDate n => reads_day s n | DDateTime t => reads_datetime s t end.

(** ** Lists *)
(** Entries separated by commas. *)
Definition commas_of {A} (reads : str -> A -> Prop) (s : str) (l : list A) : Prop :=
  exists parts, parts <> [] /\ s = join [44] parts /\ Forall (fun p => ~ In 44 p) parts /\ Forall2 reads parts l.

(** ** Durations read by the macros and by [Trigger]'s [FromStr] *)
(** Units: before the T a year of 365 days, a month of 30 days, a day; after it an hour, a minute, a second. *)
Definition unit_of (time : bool) (c : char) (k : Z) : Prop :=
  In (time, c, k) [(false, 89, 31536000); (false, 77, 2592000); (false, 68, 86400); (true, 72, 3600); (true, 77, 60); (true, 83, 1)].
Definition is_number_char (c : char) : bool := (48 <=? c) && (c <=? 57).
(** Every letter but T is a unit; its number is ALL the digits since the P. *)
Definition digits_in (s : str) : str := filter is_number_char s.
Definition has_T (s : str) : bool := existsb (fun c => c =? 84) s.
(** The terms of the sum, one per unit letter. *)
Inductive terms : str -> str -> list Z -> Prop :=
| terms_end before : terms before [] []
| terms_skip before c s l : is_number_char c = true \/ c = 84 -> terms (before ++ [c]) s l -> terms before (c :: s) l
| terms_unit before c s l k : is_number_char c = false -> c <> 84 -> unit_of (has_T before) c k -> digits_in before <> [] ->
    value_of (digits_in before) <= 9223372036854775807 -> terms (before ++ [c]) s l ->
    terms before (c :: s) (value_of (digits_in before) * k :: l).
Definition total (l : list Z) : Z := fold_right Z.add 0 l.

(** ** Other values *)
(** A UTC offset: sign (ASCII or U+2212), two digits, colons or blanks, two digits, anything. *)
Definition reads_offset (s : str) (o : Z) : Prop :=
  exists sg h sep m rest, s = sg :: h ++ sep ++ m ++ rest /\ In sg [43; 45; 8722] /\
    length h = 2%nat /\ digit_string h /\ Forall (fun c => c = 58 \/ is_whitespace c = true) sep /\
    length m = 2%nat /\ digit_string m /\ value_of m < 60 /\ value_of h < 24 /\
    o = signed (negb (sg =? 43)) (value_of h * 3600 + value_of m * 60).
(** A signed ordinal. *)
Definition ordinal_text (s : str) (n : Z) : Prop :=
  exists ds, ds <> [] /\ digit_string ds /\ (s = ds /\ n = value_of ds \/ s = 43 :: ds /\ n = value_of ds \/ s = 45 :: ds /\ n = - value_of ds).
