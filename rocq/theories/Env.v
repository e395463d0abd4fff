(** * Environment: what the crate takes from the process and from outside code.

    - the time zone of the process ([chrono::Local]), assumed fixed while the
      program runs: [tz_offset u] is the UTC offset in seconds in force at the
      UTC timestamp [u] (seconds); [tz_local l] is the answer of
      [Local.offset_from_local_datetime] for the local wall-clock timestamp [l].
    - conversion of [f32] to and from text (Rust [Display], [{:.1}], and nom's
      [float] parser), kept abstract: an [f32] is its bit pattern.
    - [char::to_uppercase] outside ASCII.

    Theorems quantify over every environment; hypotheses on it are stated where
    they are needed. *)
From Verif Require Import Base.

(** chrono [MappedLocalTime] of an offset. *)
Inductive mapped := MNone | MSingle (off : Z) | MAmbiguous (early late : Z).

Definition f32 := Z.

Class Env := {
  tz_offset : Z -> Z;
  tz_local : Z -> mapped;
  f32_show : f32 -> str;
  f32_show1 : f32 -> str;
  f32_parse : str -> option (str * f32);  (** rest, value; [None] is a nom error *)
  upper_nonascii : char -> str;
}.

(** [str::to_uppercase] *)
Definition to_uppercase {E : Env} (s : str) : str :=
  flat_map (fun c => if c <? 128 then [ascii_upper c] else upper_nonascii c) s.
