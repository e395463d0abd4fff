(** * The syntax of the construction macros, as a grammar. *)
From Verif Require Import Base Macros Tokens.

(** [entries ts m]: the tokens [ts] between the braces are the entries [m]. An entry is [key,] or [key: value] or [key: value,]. *)
Inductive entries : list tok -> list (str * value) -> Prop :=
| en_none : entries [] []
| en_short k e ts m : entries ts m -> entries (XIdent k e :: XComma :: ts) ((k, VNone) :: m)
| en_value k e t v ts m : valued t v -> entries ts m -> entries (XIdent k e :: XColon :: t :: ts) ((k, v) :: m)
| en_value_comma k e t v ts m : valued t v -> entries ts m -> entries (XIdent k e :: XColon :: t :: XComma :: ts) ((k, v) :: m)
(** A value: an expression, entries in braces, or items in brackets. *)
with valued : tok -> value -> Prop :=
| va_expr e : valued (XExpr e) (VSingle e)
| va_ident k e : valued (XIdent k e) (VSingle e)
| va_object ts m : entries ts m -> valued (XBrace ts) (VObject m)
| va_list ts l : items ts l -> valued (XBracket ts) (VCollection l)
(** Items, with a comma between two of them and possibly one at the end. *)
with items : list tok -> list value -> Prop :=
| it_none : items [] []
| it_last t v : valued t v -> items [t] [v]
| it_more t v ts l : valued t v -> items ts l -> items (t :: XComma :: ts) (v :: l).

(** Values that can be written: the shorthand is for entries, not for items. *)
Inductive writable : value -> Prop :=
| wr_single e : writable (VSingle e)
| wr_object m : (forall k v, In (k, v) m -> v = VNone \/ writable v) -> writable (VObject m)
| wr_list l : (forall v, In v l -> writable v) -> writable (VCollection l).
