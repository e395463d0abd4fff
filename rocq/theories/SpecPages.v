(** * A series looked at window by window. *)
From Verif Require Import Base Env Chrono Types Components Iter SpecIter SpecKinds.
Section Env.
Context {E : Env}.
(** Both are calendar dates or both are date-times, and the first is not after the second. *)
Definition not_after (a b : date) : Prop :=
  date_cmp a b <> Gt /\ match a, b with DDate _, DDate _ | DDateTime _, DDateTime _ => True | _, _ => False end.
Fixpoint ascending (a : date) (cuts : list date) : Prop :=
  match cuts with [] => True | b :: r => not_after a b /\ ascending b r end.
(** The windows [a, b), [b, c), ... of neighbouring cuts show the pages [ps], and end. *)
Fixpoint pages {k} (x : item k) (a : date) (cuts : list date) (ps : list (list (item k))) : Prop :=
  match cuts, ps with
  | [], [] => True
  | b :: r, p :: q => series_between a b x p Ended /\ pages x b r q
  | _, _ => False
  end.
(** The cuts are one day apart, as [at(a)] takes the end of its day. *)
Fixpoint days (a : date) (cuts : list date) : Prop :=
  match cuts with [] => True | b :: r => at_end a = Ok b /\ days b r end.
End Env.
