(** * Specification of folding and escaping (RFC 5545, 3.1 and 3.3.11),
    independent of the writer. *)
From Verif Require Import Base.

Definition BACKSLASH : char := 92.
Definition SP : char := 32.
(** The fold marker. *)
Definition FOLD : str := [CR; LF; SP].

(** [contains p s]: [p] occurs in [s]. *)
Definition contains (p s : str) : Prop := exists a b, s = a ++ p ++ b.

(** Deleting the fold markers of a text made of [parts] gives their concatenation. *)
Fixpoint folded (parts : list str) : str :=
  match parts with
  | [] => []
  | [x] => x
  | x :: r => x ++ FOLD ++ folded r
  end.

(** Octets of a text: 1 for ASCII, 2 to 4 beyond. *)
Definition octets (s : str) : Z :=
  fold_right (fun c n => n + (if c <? 128 then 1 else if c <? 2048 then 2 else if c <? 65536 then 3 else 4)) 0 s.

(** Physical lines: cut after each LF; the line break (LF or CR LF) excluded. *)
Definition strip_cr (s : str) : str :=
  match rev s with c :: r => if c =? CR then rev r else s | [] => [] end.
Fixpoint cut_lf (s : str) : list str :=
  match s with
  | [] => [[]]
  | c :: r => if c =? LF then [] :: cut_lf r
              else match cut_lf r with l :: ls => (c :: l) :: ls | [] => [[c]] end
  end.
Definition physical_lines (s : str) : list str := map strip_cr (cut_lf s).

(** Octet offset [n] of [s] is between two chars. *)
Definition char_boundary (s : str) (n : Z) : Prop := exists a b, s = a ++ b /\ octets a = n.
Definition ascii (s : str) : Prop := Forall (fun c => 0 <= c < 128) s.

(** RFC 5545, 3.3.11: decoding of TEXT. *)
Fixpoint rfc_decode (s : str) : str :=
  match s with
  | [] => []
  | c :: r =>
      if c =? BACKSLASH then
        match r with
        | d :: r' =>
            if (d =? 110) || (d =? 78) then LF :: rfc_decode r'
            else if (d =? 59) || (d =? 44) || (d =? BACKSLASH) then d :: rfc_decode r'
            else c :: rfc_decode r
        | [] => [c]
        end
      else c :: rfc_decode r
  end.
(** What escaping does to one char. *)
Definition escaped_char (c : char) : str :=
  if c =? 59 then [BACKSLASH; 59] else if c =? 44 then [BACKSLASH; 44]
  else if c =? LF then [BACKSLASH; 110] else [c].
(** Every ';' or ',' is right after a backslash, and there is no LF. *)
Definition well_escaped (s : str) : Prop :=
  ~ In LF s /\
  forall a c b, s = a ++ c :: b -> c = 59 \/ c = 44 -> exists a', a = a' ++ [BACKSLASH].
Definition plain_text (s : str) : Prop := ~ In 59 s /\ ~ In 44 s /\ ~ In LF s.

(** RFC 5545, 3.1: the unfolded content line of a property. *)
Definition logical_line (name : str) (attr : option str) (value : str) : str :=
  name ++ match attr with Some a => [59] ++ a | None => [] end ++ [58] ++ value ++ [CR; LF].
(** No line break inside. *)
Definition one_line (s : str) : Prop := ~ In LF s.
(** A text that does not continue a folded line. *)
Definition not_continuation (s : str) : Prop := forall r, s <> SP :: r.
