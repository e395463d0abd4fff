(** * What may surround or break the text of a component; independent of the parser. *)
From Verif Require Import Base Env Types Components SpecText SpecLine SpecComp.

Section SpecInput.
Context {E : Env}.
(** A statement about [FromStr] of each component that can be read from a text. *)
Definition every_reader (P : forall A, (str -> outcome A) -> Prop) : Prop :=
  P _ vcalendar_of_str /\ P _ vevent_of_str /\ P _ vtodo_of_str /\ P _ vjournal_of_str /\ P _ vfreebusy_of_str /\
  P _ vtimezone_of_str /\ P _ standard_of_str /\ P _ daylight_of_str /\ P _ valarm_of_str.
End SpecInput.

(** The cut between [a] and [b] is inside a fold marker. *)
Definition inside_fold (a b : str) : Prop :=
  (exists x y, a = x ++ [CR] /\ b = [LF; SP] ++ y) \/ (exists x y, a = x ++ [CR; LF] /\ b = [SP] ++ y).
(** A text that is no continuation of what precedes it. *)
Definition fresh (t : str) : Prop := ~ begins [SP] t /\ ~ begins [LF] t.

(** A line of a file: its text, without its end. *)
Definition proper (b : str) : Prop := exists c, is_line (b ++ [LF]) c [].
Definition delimiter (b : str) : Prop := begins (lit "BEGIN:") b \/ begins (lit "END:") b.
(** A file whose lines may end in two ways; BEGIN and END lines end in the same way in
    both versions. There is no double quote. *)
Definition line_variant (x : str * (str * str)) : Prop :=
  let '(b, (e, e')) := x in
  no_eol b /\ ~ In QUOTE b /\ eol e /\ eol e' /\ (proper b \/ delimiter b /\ e = e').
Definition version1 (l : list (str * (str * str))) : str := flat_map (fun x => fst x ++ fst (snd x)) l.
Definition version2 (l : list (str * (str * str))) : str := flat_map (fun x => fst x ++ snd (snd x)) l.

Definition lower_case (c : char) : Prop := 97 <= c <= 122.
(** A line whose name has a lower-case letter is kept as an extension. *)
Definition kept_as_extension (ls : list content_line) (x i : smap content_line) : Prop :=
  forall n l, Exists lower_case n -> last_line n ls l ->
    (begins (lit "X-") n -> mget n x = Some l) /\ (~ begins (lit "X-") n -> mget n i = Some l).
