(** * The order of texts, as in a dictionary: independent of the model *)
From Verif Require Import Base.

(** [s] comes before [t]: a proper beginning of it, or smaller at the first difference. *)
Inductive earlier_text : str -> str -> Prop :=
| et_prefix s c r : earlier_text s (s ++ c :: r)
| et_differ p a b s t : a < b -> earlier_text (p ++ a :: s) (p ++ b :: t).
