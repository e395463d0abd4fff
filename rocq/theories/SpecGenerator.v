(** * What the derive macros should generate, in words of their own. *)
From Verif Require Import Base Env Generator.

(** An identifier in snake case: [a-z], [0-9] and '_'. *)
Definition snake (f : str) : Prop := f <> [] /\ Forall (fun c => 97 <= c <= 122 \/ 48 <= c <= 57 \/ c = 95) f.
(** The property name of a field, letter by letter: capitals, '-' for '_'. *)
Definition spelt (c k : char) : Prop := (97 <= c <= 122 /\ k = c - 32) \/ (48 <= c <= 57 /\ k = c) \/ (c = 95 /\ k = 45).
Definition named_after (f k : str) : Prop := Forall2 spelt f k.
(** The type is [n<...>]: one segment, whatever its arguments. *)
Definition is_type (n : str) (t : rtype) : Prop := exists args, t = RTPath [(n, args)].
(** The words in [#[component(...)]]: [append] and [ignore], each at most once. *)
Definition words_ok (ws : list str) : Prop := NoDup ws /\ forall w, In w ws -> w = lit "append" \/ w = lit "ignore".
Definition field_ok (d : fdecl) : Prop := words_ok (fd_words d) /\ exists f, fd_ident d = Some f.
(** What is generated for one field. *)
Definition treated (d : fdecl) (p : piece) : Prop :=
  exists f k, fd_ident d = Some f /\ named_after f k /\
    (is_type (lit "Vec") (fd_type d) -> pc_ser p = WVec k f) /\
    (~ is_type (lit "Vec") (fd_type d) -> pc_ser p = WOne k f) /\
    (In (lit "ignore") (fd_words d) -> pc_new p = None /\ pc_arm p = None) /\
    (~ In (lit "ignore") (fd_words d) ->
      (is_type (lit "Option") (fd_type d) -> pc_new p = None /\ pc_arm p = Some (k, ASome f)) /\
      (is_type (lit "Vec") (fd_type d) -> pc_new p = None /\
        (In (lit "append") (fd_words d) -> pc_arm p = Some (k, AAppend f)) /\ (~ In (lit "append") (fd_words d) -> pc_arm p = Some (k, APush f))) /\
      (~ is_type (lit "Option") (fd_type d) -> ~ is_type (lit "Vec") (fd_type d) -> pc_new p = Some (f, k) /\ pc_arm p = Some (k, AUnit))).
(** A field of a derived [Serialize], and the name its part is written under. *)
Definition part_of (d : fdecl) (p : str * str) : Prop :=
  fd_ident d = Some (fst p) /\ (fd_rename d = Some (snd p) \/ fd_rename d = None /\ named_after (fst p) (snd p)).
