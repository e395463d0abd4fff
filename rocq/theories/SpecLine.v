(** * Specification of content lines, independent of the parser.

    A content line is a text
      KEY *( ";" KEY "=" PVALUE ) ":" VALUE EOL
    Nothing here uses the model; only strings and the record [content_line]. *)
From Verif Require Import Base Types.

Definition COLON : char := 58.
Definition SEMI : char := 59.
Definition EQUALS : char := 61.
Definition QUOTE : char := 34.
Definition SPACE : char := 32.

(** Letters, digits, '-' and '/'. *)
Definition key_char (c : char) : Prop :=
  65 <= c <= 90 \/ 97 <= c <= 122 \/ 48 <= c <= 57 \/ c = 45 \/ c = 47.
Definition key_text (k : str) : Prop := Forall key_char k.
Definition eol (e : str) : Prop := e = [LF] \/ e = [CR; LF].
Definition no_eol (v : str) : Prop := ~ In CR v /\ ~ In LF v.
(** [s] starts with a double quote that is closed somewhere in [s]. *)
Definition quoted_start (s : str) : Prop := exists w x, s = QUOTE :: w ++ QUOTE :: x.
Definition begins (p s : str) : Prop := exists r, s = p ++ r.

(** [params_read t l rest]: the text [t] is the parameters [l], in order, then
    ':' and [rest]. A parameter value is either between double quotes, or plain:
    without ';' and ':', optionally preceded by a fold CRLF SPACE. *)
Inductive params_read : str -> list (str * str) -> str -> Prop :=
| pr_end rest : params_read (COLON :: rest) [] rest
| pr_quoted k v t l rest :
    key_text k -> ~ In QUOTE v -> params_read t l rest ->
    params_read (SEMI :: k ++ [EQUALS; QUOTE] ++ v ++ [QUOTE] ++ t) ((k, v) :: l) rest
| pr_plain k f v t l rest :
    key_text k -> ~ In SEMI v -> ~ In COLON v ->
    f = [] /\ ~ begins [CR; LF; SPACE] (v ++ t) \/ f = [CR; LF; SPACE] ->
    ~ quoted_start (f ++ v ++ t) -> params_read t l rest ->
    params_read (SEMI :: k ++ [EQUALS] ++ f ++ v ++ t) ((k, v) :: l) rest.

(** The value of the last binding of a name. *)
Definition last_binding {V} (l : list (str * V)) (n : str) : option V :=
  fold_left (fun acc kv => if str_eqb n (fst kv) then Some (snd kv) else acc) l None.

(** [is_line s c rest]: [s] is the text of the content line [c] followed by [rest]. *)
Definition is_line (s : str) (c : content_line) (rest : str) : Prop :=
  ~ begins (lit "BEGIN:") s /\ ~ begins (lit "END:") s /\
  exists k t l v e,
    s = k ++ t /\ key_text k /\ params_read t l (v ++ e ++ rest) /\ no_eol v /\ eol e /\
    cl_key c = k /\ cl_value c = v /\
    forall n, mget n (cl_params c) = last_binding l n.

(** [is_lines s ls rest]: [s] is the texts of the lines [ls], in order, followed
    by [rest]. *)
Inductive is_lines : str -> list content_line -> str -> Prop :=
| il_nil s : is_lines s [] s
| il_cons s c r ls rest : is_line s c r -> is_lines r ls rest -> is_lines s (c :: ls) rest.
