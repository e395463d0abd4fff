(** * The order of the lines of a file; independent of the parser. *)
From Verif Require Import Base Env Types Components SpecText SpecLine SpecComp SpecInput SpecFile.

(** A line of a file: its text and its end. There is no double quote. *)
Definition file_line (x : str * str) : Prop :=
  no_eol (fst x) /\ ~ In QUOTE (fst x) /\ eol (snd x) /\ (proper (fst x) \/ delimiter (fst x)).
Definition file_text (l : list (str * str)) : str := flat_map (fun x => fst x ++ snd x) l.
(** The name of a content line: what precedes the first ':' or ';'. *)
Definition line_name (b n : str) : Prop := key_text n /\ exists r, b = n ++ COLON :: r \/ b = n ++ SEMI :: r.
(** [reordered l l']: content lines were exchanged with neighbours of another name, any number of times;
    BEGIN and END lines have not moved. *)
Inductive reordered : list (str * str) -> list (str * str) -> Prop :=
| re_refl l : reordered l l
| re_swap a x y b n m : proper (fst x) -> proper (fst y) -> line_name (fst x) n -> line_name (fst y) m -> n <> m ->
    reordered (a ++ x :: y :: b) (a ++ y :: x :: b)
| re_trans l1 l2 l3 : reordered l1 l2 -> reordered l2 l3 -> reordered l1 l3.

(** Two lists of lines with the same lines of each name, in the same order. *)
Definition same_by_name (ls ls' : list content_line) : Prop := forall n, lines_named n ls = lines_named n ls'.
(** Two lists of children with the same children of each kind, in the same order. *)
Definition same_by_kind (cs cs' : list component) : Prop :=
  alarms_of cs = alarms_of cs' /\ events_of cs = events_of cs' /\ freebusy_of cs = freebusy_of cs' /\
  journals_of cs = journals_of cs' /\ timezones_of cs = timezones_of cs' /\ todos_of cs = todos_of cs'.
