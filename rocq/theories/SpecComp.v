(** * How the lines of a component determine its fields, independent of the
    generated code. *)
From Verif Require Import Base Types SpecLine.

(** The lines with a given name, in file order. *)
Definition lines_named (n : str) (ls : list content_line) : list content_line :=
  filter (fun l => str_eqb (cl_key l) n) ls.
Definition absent (n : str) (ls : list content_line) : Prop := Forall (fun l => cl_key l <> n) ls.
(** [l] is the last line named [n]. *)
Definition last_line (n : str) (ls : list content_line) (l : content_line) : Prop :=
  exists before after, ls = before ++ l :: after /\ cl_key l = n /\ absent n after.

Section Kinds.
  Context {T : Type}.
  (** A property that must be there: the value of its last line; the other lines
      with the name do not matter. *)
  Definition required (p : content_line -> outcome T) (n : str) (ls : list content_line) (v : T) : Prop :=
    exists l, last_line n ls l /\ p l = Ok v.
  (** An optional property: every line with the name is valid; the value is that
      of the last one. *)
  Definition optional (p : content_line -> outcome T) (n : str) (ls : list content_line) (o : option T) : Prop :=
    (forall l, In l ls -> cl_key l = n -> exists v, p l = Ok v) /\
    match o with Some v => required p n ls v | None => absent n ls end.
  (** A repeated property: one value per line, in order. *)
  Definition repeated (p : content_line -> outcome T) (n : str) (ls : list content_line) (vs : list T) : Prop :=
    Forall2 (fun l v => p l = Ok v) (lines_named n ls) vs.
  (** A comma-list property: all the values of all the lines, in order. *)
  Definition appended (p : content_line -> outcome (list T)) (n : str) (ls : list content_line) (vs : list T) : Prop :=
    exists vss, Forall2 (fun l v => p l = Ok v) (lines_named n ls) vss /\ vs = concat vss.
End Kinds.

(** Keys in strictly increasing order: the invariant of a [BTreeMap]. *)
Inductive sorted_map {V} : smap V -> Prop :=
| sm_nil : sorted_map []
| sm_cons k v m : Forall (fun kv => str_cmp k (fst kv) = Lt) m -> sorted_map m -> sorted_map ((k, v) :: m).
(** The two maps of the lines that are no field: by name, the last line. *)
Definition extensions (known : list str) (ls : list content_line) (x i : smap content_line) : Prop :=
  sorted_map x /\ sorted_map i /\
  (forall n l, mget n x = Some l <-> ~ In n known /\ begins (lit "X-") n /\ last_line n ls l) /\
  (forall n l, mget n i = Some l <-> ~ In n known /\ ~ begins (lit "X-") n /\ last_line n ls l).
