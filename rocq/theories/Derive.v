(** * What [#[derive(Component)]] generates: derive/src/component.rs. *)
From Verif Require Import Base Nom Types Ser Parser.

(** A field of a component, as the macro sees it (derive/src/component.rs:33-97):
    its type ([Option], [Vec] or neither: 70-91), the attributes [append] and
    [ignore] (4-11,66-68), its [Serialize] impl and the parser
    [crate::parser::#name] (70). *)
Inductive field : Type :=
| FReq (T : Type) (S : serialize T) (p : content_line -> outcome T)
| FOpt (T : Type) (S : serialize T) (p : content_line -> outcome T)
| FVec (T : Type) (S : serialize T) (p : content_line -> outcome T)
| FApp (T : Type) (S : serialize T) (p : content_line -> outcome (list T))
| FIgn (T : Type) (S : serialize T).
Arguments FReq {T}. Arguments FOpt {T}. Arguments FVec {T}. Arguments FApp {T}. Arguments FIgn {T}.

(** The Rust type of the field. *)
Definition fty (f : field) : Type :=
  match f with
  | @FReq T _ _ => T
  | @FOpt T _ _ => option T
  | @FVec T _ _ | @FApp T _ _ | @FIgn T _ => list T
  end.

(** The fields but the last two, [x_prop] and [iana_prop], which every component
    has. The string is the property name: the field name upper-cased with '_'
    replaced by '-' (derive/src/component.rs:38-43). *)
Definition schema := list (str * field).
Fixpoint fields (s : schema) : Type :=
  match s with [] => unit | (_, f) :: r => (fty f * fields r)%type end.
Record comp (s : schema) := mk_comp {
  c_fields : fields s;
  c_xprop : smap content_line;
  c_iana : smap content_line;
}.
Arguments mk_comp {s}. Arguments c_fields {s}. Arguments c_xprop {s}. Arguments c_iana {s}.

(** derive/src/component.rs:80-86 and 106-109: a required field is read from the
    last line with its key, the others start at their [Default]. *)
Definition f_new (name : str) (f : field) (ls : list content_line) : outcome (fty f) :=
  match f with
  | FReq _ p =>
      match last_opt (filter (fun l => str_eqb (cl_key l) name) ls) with
      | None => Err EParser
      | Some l => p l
      end
  | FOpt _ _ => Ok None
  | FVec _ _ | FApp _ _ | FIgn _ => Ok []
  end.
Fixpoint new_fields (s : schema) (ls : list content_line) : outcome (fields s) :=
  match s with
  | [] => Ok tt
  | (n, f) :: r => let* v := f_new n f ls in let* vs := new_fields r ls in Ok (v, vs)
  end.

(** derive/src/component.rs:70-91: one arm of the [match]. *)
Definition f_step (f : field) (l : content_line) : fty f -> outcome (fty f) :=
  match f with
  | FReq _ _ => fun v => Ok v
  | FOpt _ p => fun _ => let* x := p l in Ok (Some x)
  | FVec _ p => fun v => let* x := p l in Ok (v ++ [x])
  | FApp _ p => fun v => let* xs := p l in Ok (v ++ xs)
  | FIgn _ => fun v => Ok v
  end.
(** Ignored fields have no arm (derive/src/component.rs:66-68). *)
Definition has_arm (f : field) : bool := match f with FIgn _ => false | _ => true end.
(** The first arm whose name is the key of the line; [None] when there is none. *)
Fixpoint step_fields (s : schema) (l : content_line) : fields s -> option (outcome (fields s)) :=
  match s with
  | [] => fun _ => None
  | (n, f) :: r => fun vs =>
      if has_arm f && str_eqb (cl_key l) n
      then Some (let* v := f_step f l (fst vs) in Ok (v, snd vs))
      else option_map (omap (fun vs' => (fst vs, vs'))) (step_fields r l (snd vs))
  end.
(** derive/src/component.rs:112-122 *)
Definition step_line {s : schema} (c : comp s) (l : content_line) : outcome (comp s) :=
  match step_fields s l (c_fields c) with
  | Some o => let* vs := o in Ok (mk_comp vs (c_xprop c) (c_iana c))
  | None =>
      if starts_with (lit "X-") (cl_key l)
      then Ok (mk_comp (c_fields c) (minsert (cl_key l) l (c_xprop c)) (c_iana c))
      else Ok (mk_comp (c_fields c) (c_xprop c) (minsert (cl_key l) l (c_iana c)))
  end.
Fixpoint step_lines {s : schema} (c : comp s) (ls : list content_line) : outcome (comp s) :=
  match ls with
  | [] => Ok c
  | l :: r => let* c' := step_line c l in step_lines c' r
  end.
(** derive/src/component.rs:102-126 [TryFrom<Vec<ContentLine>>] *)
Definition comp_of_lines (s : schema) (ls : list content_line) : outcome (comp s) :=
  let* vs := new_fields s ls in step_lines (mk_comp vs [] []) ls.

(** derive/src/component.rs:45-64: a [Vec] of length one is written as its item,
    any other as a [Vec] (whose [attr] is always [None], so the loop of lines
    53-55 is dead). *)
Definition vec_field {T} (S : serialize T) (name : str) (v : list T) : outcome str :=
  match v with
  | [x] => ser_field S name x
  | _ => ser_field (ser_vec S) name v
  end.
Definition f_ser (name : str) (f : field) : fty f -> outcome str :=
  match f with
  | FReq Sr _ => fun v => ser_field Sr name v
  | FOpt Sr _ => fun v => ser_field (ser_opt Sr) name v
  | FVec Sr _ | FApp Sr _ | FIgn Sr => fun v => vec_field Sr name v
  end.
Fixpoint ser_fields (s : schema) : fields s -> outcome str :=
  match s with
  | [] => fun _ => Ok []
  | (n, f) :: r => fun vs =>
      let* a := f_ser n f (fst vs) in let* b := ser_fields r (snd vs) in Ok (a ++ b)
  end.
(** derive/src/component.rs:163-176 [Serialize::ical] *)
Definition comp_ical (name : str) {s : schema} (c : comp s) : outcome str :=
  let* body := ser_fields s (c_fields c) in
  let* x := ser_field (ser_map ser_cl) (lit "X-PROP") (c_xprop c) in
  let* i := ser_field (ser_map ser_cl) (lit "IANA-PROP") (c_iana c) in
  Ok (lit "BEGIN:" ++ name ++ CRLF ++ body ++ x ++ i ++ lit "END:" ++ name ++ CRLF).
(** derive/src/component.rs:157-177 *)
Definition ser_comp (name : str) (s : schema) : serialize (comp s) :=
  mk_ser (Some name) (fun _ => None) (comp_ical name).
(** A record type [R] with the same fields as [comp s]. *)
Definition ser_iso {R} (name : str) (s : schema) (to : R -> comp s) : serialize R :=
  mk_ser (Some name) (fun _ => None) (fun v => comp_ical name (to v)).

(** derive/src/component.rs:146-155 [FromStr]: unfold, run the parser, forget what
    follows. *)
Definition from_str {A} (p : parser A) (s : str) : outcome A := pfinish (p (unfold_lines s)).
