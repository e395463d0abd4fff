(** * Specification of the construction macros.

    What a value written in [vevent! { field: value }] should mean, from the type
    of the field alone; the tables of macros.rs, which go by the names of the
    fields, are not used here. *)
From Verif Require Import Base Env Chrono Types Parser Components Macros.

(** A field of the struct, or an element of a list field, of type [t]. *)
Definition slot (st : strct) (f : str) (t : rty) : Prop := In (f, t) (struct_fields st) \/ In (f, TVec t) (struct_fields st).

(** The value of a field, by its name. *)
Definition field (st : strct) (v : rec_of st) (f : str) : option typed := option_map snd (find (fun p => str_eqb (fst p) f) (fields_of st v)).

Section Env.
Context {E : Env}.

(** A string: itself for a text, a URI or a [String]; parsed for a type that can be read from a string; in [Some] for an optional
    field. [None]: the type cannot be given as a string. *)
Fixpoint of_string (t : rty) (s : str) : option (outcome (den t)) :=
  match t as t0 return option (outcome (den t0)) with
  | TText => Some (Ok (mk_text [] s))
  | TUri => Some (Ok (mk_uri [] s))
  | TString => Some (Ok s)
  | TDateTime => Some (datetime_of_str s)
  | TDate => Some (date_of_str s)
  | TDuration => Some (parse_duration s)
  | TOffset => Some (parse_offset (mk_cl [] [] s))
  | TTrigger => Some (trigger_of_str s)
  | TPeriod => Some (period_of_str s)
  | TWeekday => Some (weekday_of_str s)
  | TWeekdayNum => Some (wdn_of_str s)
  | TStruct SGeo => Some (parse_geo (mk_cl [] [] s))
  | TStruct SRecur => Some (recur_of_str s)
  | TStruct SRStatus => Some (parse_rstatus (mk_cl [] [] s))
  | TOpt t' => option_map (omap Some) (of_string t' s)
  | _ => None
  end.

(** An integer in the range of the type. *)
Fixpoint of_integer (t : rty) (n : Z) : option (den t) :=
  match t as t0 return option (den t0) with
  | TU8 => if (0 <=? n) && (n <=? 255) then Some n else None
  | TU32 => if (0 <=? n) && (n <=? 4294967295) then Some n else None
  | TI8 => if (-128 <=? n) && (n <=? 127) then Some n else None
  | TOpt t' => option_map Some (of_integer t' n)
  | _ => None
  end.

Fixpoint of_float (t : rty) (x : f32) : option (den t) :=
  match t as t0 return option (den t0) with TF32 => Some x | TOpt t' => option_map Some (of_float t' x) | _ => None end.

(** A variant of the enum of the field. *)
Fixpoint of_variant (t : rty) (v : variant) : option (den t) :=
  match t as t0 return option (den t0) with
  | TClass => match v with VClass c => Some c | _ => None end
  | TStatus => match v with VStatus s => Some s | _ => None end
  | TTransp => match v with VTransp p => Some p | _ => None end
  | TFreq => match v with VFreq q => Some q | _ => None end
  | TOpt t' => option_map Some (of_variant t' v)
  | _ => None
  end.

(** The fields that cannot be given as a string, although their type can be read from one. *)
Definition no_string : list (strct * str) :=
  [(SCalendar, lit "calscale"); (SCalendar, lit "method"); (SFreebusy, lit "freebusy"); (SRecur, lit "until"); (SRecur, lit "by_day"); (SRecur, lit "wkst")].
(** The fields whose elements cannot be given as an object, although they are structs. *)
Definition no_object : list (strct * str) :=
  [(SCalendar, lit "freebusy"); (SCalendar, lit "journals"); (SCalendar, lit "todo"); (SCalendar, lit "timezones")].

(** The types of the fields whose values the macros parse, or take as the name of a variant: they are not given as values. *)
Fixpoint by_text (b : rty) : bool :=
  match b with
  | TVec b' => by_text b'
  | TDateTime | TDate | TDuration | TOffset | TTrigger | TRDate | TStruct SGeo | TStruct SRecur | TStruct SRStatus | TClass | TStatus | TTransp | TFreq => true
  | _ => false end.
(** The optional fields that also take an [Option]. *)
Definition takes_option : list (strct * str) :=
  [(SAudio, lit "repeat"); (SDisplay, lit "repeat"); (SEmail, lit "repeat"); (SCalendar, lit "calscale"); (SCalendar, lit "method");
   (STodo, lit "percent_complete"); (SRecur, lit "until"); (SRecur, lit "count"); (SRecur, lit "wkst")].
Definition listed (l : list (strct * str)) (st : strct) (f : str) : bool :=
  existsb (fun p => (if strct_eq_dec (fst p) st then true else false) && str_eqb (snd p) f) l.

(** What the entry [f: v], or the shorthand [f], gives for a field of type [t]. *)
Definition given (scope : str -> option typed) (st : strct) (f : str) (t : rty) (v : value) : option (outcome (den t)) :=
  match v with
  | VNone => match scope f with Some x => option_map Ok (cast x t) | None => None end
  | _ => check scope (expand_value (struct_name st) f v) t
  end.
(** Every entry names a field, none twice, and compiles. *)
Definition compiles (scope : str -> option typed) (st : strct) (l : list (str * value)) : Prop :=
  NoDup (map fst l) /\ (forall f v, In (f, v) l -> exists t o, In (f, t) (struct_fields st) /\ given scope st f t v = Some o).
(** Every entry gives a value. *)
Definition succeed (scope : str -> option typed) (st : strct) (l : list (str * value)) : Prop :=
  forall f v, In (f, v) l -> exists t x, In (f, t) (struct_fields st) /\ given scope st f t v = Some (Ok x).

(** The default of each type that a field has outside [Option] and [Vec]. *)
Definition zero (t : rty) : option (den t) :=
  match t as t0 return option (den t0) with
  | TText => Some (mk_text [] []) | TDateTime => Some (Naive epoch) | TDate => Some (DDateTime (Naive epoch)) | TOffset => Some 0
  | TFreq => Some Daily | TTrigger => Some (TrDuration 0) | TU8 => Some 0 | TF32 => Some 0 | TString => Some []
  | TExt => Some [] | TOpt _ => Some None | TVec _ => Some []
  | _ => None
  end.
End Env.
