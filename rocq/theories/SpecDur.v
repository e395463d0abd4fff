(** * Duration texts (RFC 5545, 3.3.6), independent of the parsers. *)
From Verif Require Import Base SpecCal.

(** An optional number followed by a unit letter. *)
Inductive part (unit : char) : option Z -> str -> Prop :=
| part_none : part unit None []
| part_some ds : ds <> [] -> digit_string ds -> part unit (Some (value_of ds)) (ds ++ [unit]).
(** The time section: absent, or 'T' and optional hours, minutes, seconds. *)
Inductive time_section : option (option Z * option Z * option Z) -> str -> Prop :=
| ts_none : time_section None []
| ts_some h m s sh sm ss : part 72 h sh -> part 77 m sm -> part 83 s ss ->
    time_section (Some (h, m, s)) (84 :: sh ++ sm ++ ss).
(** [-]P[nW][nD][T[nH][nM][nS]] *)
Definition duration_text (negative : bool) (w d : option Z) (t : option (option Z * option Z * option Z)) (s : str) : Prop :=
  exists sw sd st, s = (if negative then [45] else []) ++ [80] ++ sw ++ sd ++ st /\
    part 87 w sw /\ part 68 d sd /\ time_section t st.
Definition amount (o : option Z) : Z := match o with Some n => n | None => 0 end.
(** Its length in seconds, sign aside. *)
Definition seconds_of (w d : option Z) (t : option (option Z * option Z * option Z)) : Z :=
  amount w * 604800 + amount d * 86400 +
  match t with None => 0 | Some (h, m, s) => amount h * 3600 + amount m * 60 + amount s end.
(** All the numbers present. *)
Definition numbers_of (w d : option Z) (t : option (option Z * option Z * option Z)) : list Z :=
  map amount (w :: d :: match t with None => [] | Some (h, m, s) => [h; m; s] end).
Definition sec : Z := 1000000000.
(** The longest representable duration: i64::MAX milliseconds, in nanoseconds. *)
Definition longest : Z := 9223372036854775807 * 1000000.
Definition signed (negative : bool) (n : Z) : Z := if negative then - n else n.
