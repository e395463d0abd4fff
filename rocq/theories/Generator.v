(** * The code generators: [#[derive(Component)]] and [#[derive(Serialize)]]
    (derive/src/lib.rs, derive/src/component.rs, derive/src/serialize.rs).

    Derive.v and Components.v describe the code these macros generate for the
    structs of the crate, by hand. Here the macros themselves are modelled: from
    the declaration of a struct, as [syn] gives it, to the generated code
    ([component_macro], [serialize_macro]), and then what this code does when it
    runs on the struct ([run_read], [run_write], [run_parts]). PropGenerator.v
    proves that it is what Derive.v and Components.v say.

    Simplifications: the generics of the struct and the spans are not modelled; an
    identifier is a string, upper-cased as [str::to_uppercase] does and lower-cased
    in ASCII only; of the attributes only the words of [#[component(...)]] and the
    [rename] of [#[serialize(...)]] are kept; the messages of errors are left out.
    [None] means that the generated code does not compile. *)
From Verif Require Import Base Env Chrono Nom Types Ser Parser Derive Components Macros.

(** ** Declarations *)
(** [syn::Type]: a path, with the generic arguments of each segment, or anything else
    (a reference, a tuple, ...). *)
Inductive rtype := RTPath (segs : list (str * list rtype)) | RTOther.
(** [syn::Field]: the identifier (none in a tuple struct), the type, the words in
    [#[component(...)]] and the string of [#[serialize(rename = ...)]]. *)
Record fdecl := mk_fdecl { fd_ident : option str; fd_type : rtype; fd_words : list str; fd_rename : option str }.
(** [syn::Data] and [syn::DeriveInput] *)
Inductive shape := Struct (fs : list fdecl) | NotStruct.
Record ddecl := mk_ddecl { dd_ident : str; dd_data : shape }.

(** derive/src/lib.rs:56-67 *)
Definition tyname (t : rtype) : str :=
  match t with RTPath segs => join (lit "::") (map fst segs) | RTOther => [] end.
(** derive/src/lib.rs:48-50 *)
Definition ty_is_option (t : rtype) : bool := str_eqb (tyname t) (lit "Option").
(** derive/src/lib.rs:52-54 *)
Definition ty_is_vec (t : rtype) : bool := str_eqb (tyname t) (lit "Vec").

(** ** Generated code *)
(** The right-hand side of an arm (derive/src/component.rs:70-91): assign [Some], append, push, nothing. *)
Inductive arm := ASome (f : str) | AAppend (f : str) | APush (f : str) | AUnit.
(** A statement of [ical] (derive/src/component.rs:45-64), with the property name and the field. *)
Inductive stmt := WVec (key f : str) | WOne (key f : str).
(** The parts of derive/src/component.rs:99-177 that depend on the struct: the fields of
    [new_body] with their keys, the arms, the statements of [ical], the name that
    [component()] gives and the parser that [from_str] calls. *)
Record code := mk_code {
  k_new : list (str * str);
  k_arms : list (str * arm);
  k_ser : list stmt;
  k_component : str;
  k_parser : str;
}.
(** A macro ends with code, with a compile error, or panics. *)
Inductive gen (A : Type) := GOk (a : A) | GError | GPanic.
Arguments GOk {A}. Arguments GError {A}. Arguments GPanic {A}.
Definition gbind {A B} (g : gen A) (k : A -> gen B) : gen B :=
  match g with GOk a => k a | GError => GError | GPanic => GPanic end.

(** derive/src/component.rs:4-11: darling reads the two flags; an unknown word, or one given twice, is an error. *)
Fixpoint flags (ws : list str) (append ignore : bool) : gen (bool * bool) :=
  match ws with
  | [] => GOk (append, ignore)
  | w :: r =>
      if str_eqb w (lit "append") then if append then GError else flags r true ignore
      else if str_eqb w (lit "ignore") then if ignore then GError else flags r append true
      else GError
  end.
(** [char::to_lowercase] in ASCII *)
Definition ascii_lower (c : char) : char := if (65 <=? c) && (c <=? 90) then c + 32 else c.

Section Env.
Context {E : Env}.
(** derive/src/component.rs:38-43 and derive/src/serialize.rs:15-19 *)
Definition field_key (ident : str) : str := replace_char 95 [45] (to_uppercase ident).

(** derive/src/component.rs:33-97, one field *)
Record piece := mk_piece { pc_new : option (str * str); pc_arm : option (str * arm); pc_ser : stmt }.
Definition gen_field (d : fdecl) : gen piece :=
  gbind (flags (fd_words d) false false) (fun '(append, ignore) =>
  match fd_ident d with
  | None => GPanic
  | Some f =>
      let key := field_key f in
      let ser := if ty_is_vec (fd_type d) then WVec key f else WOne key f in
      GOk (if ignore then mk_piece None None ser
           else if ty_is_option (fd_type d) then mk_piece None (Some (key, ASome f)) ser
           else if ty_is_vec (fd_type d) then mk_piece None (Some (key, if append then AAppend f else APush f)) ser
           else mk_piece (Some (f, key)) (Some (key, AUnit)) ser)
  end).
Fixpoint gen_fields (ds : list fdecl) : gen (list piece) :=
  match ds with [] => GOk [] | d :: r => gbind (gen_field d) (fun p => gbind (gen_fields r) (fun ps => GOk (p :: ps))) end.
Definition kept {A} (l : list (option A)) : list A := flat_map (fun o => match o with Some a => [a] | None => [] end) l.
(** derive/src/component.rs:13-181 *)
Definition component_macro (d : ddecl) : gen code :=
  match dd_data d with
  | NotStruct => GError
  | Struct fs => gbind (gen_fields fs) (fun ps =>
      GOk (mk_code (kept (map pc_new ps)) (kept (map pc_arm ps)) (map pc_ser ps) (to_uppercase (dd_ident d)) (map ascii_lower (dd_ident d))))
  end.

(** derive/src/serialize.rs:24-70 (the name of a field: 9-20): the fields and the names they are written under *)
Fixpoint part_names (ds : list fdecl) : gen (list (str * str)) :=
  match ds with
  | [] => GOk []
  | d :: r => gbind (match fd_rename d, fd_ident d with
                     | None, None => GPanic
                     | Some _, None => GError (* [self.] without a name *)
                     | Some n, Some f => GOk (f, n)
                     | None, Some f => GOk (f, field_key f) end)
                (fun p => gbind (part_names r) (fun ps => GOk (p :: ps)))
  end.
Definition serialize_macro (d : ddecl) : gen (list (str * str)) :=
  match dd_data d with NotStruct => GError | Struct fs => part_names fs end.

(** ** What the names in the generated code refer to *)
(** The field [self.f] of a struct. *)
Definition get_field (st : strct) (v : rec_of st) (f : str) : option typed := option_map snd (find (fun p => str_eqb (fst p) f) (fields_of st v)).
(** [crate::parser::f] for the functions from a content line: src/parser/mod.rs:1-23 and src/parser/alarm.rs:8-34, change.rs:8-37,
    datetime.rs:8-66, descriptive.rs:8-104, misc.rs:8-44, properties.rs:8-31, recurrence.rs:8-134, relationship.rs:8-60, timezone.rs:8-40. *)
Definition line_parser := {t : rty & content_line -> outcome (den t)}.
Definition lp (t : rty) (p : content_line -> outcome (den t)) : line_parser := existT _ t p.
Definition parsers : list (str * line_parser) :=
  [(lit "action", lp TText parse_text); (lit "repeat", lp TU32 parse_u32); (lit "trigger", lp TTrigger parse_trigger);
   (lit "created", lp TDateTime parse_datetime); (lit "dtstamp", lp TDateTime parse_datetime); (lit "last_modified", lp TDateTime parse_datetime);
   (lit "sequence", lp TU32 parse_u32);
   (lit "completed", lp TDateTime parse_datetime); (lit "dtend", lp TDate parse_date); (lit "due", lp TDate parse_date); (lit "dtstart", lp TDate parse_date);
   (lit "duration", lp TDuration parse_dur); (lit "freebusy", lp (TVec TPeriod) parse_freebusy); (lit "transp", lp TTransp parse_transp);
   (lit "attach", lp TText parse_text); (lit "categories", lp (TVec TText) parse_texts); (lit "class", lp TClass parse_class);
   (lit "comment", lp TText parse_text); (lit "description", lp TText parse_text); (lit "geo", lp (TStruct SGeo) parse_geo);
   (lit "location", lp TText parse_text); (lit "percent_complete", lp TU8 parse_percent); (lit "priority", lp TU8 parse_priority);
   (lit "resources", lp (TVec TText) parse_texts); (lit "status", lp TStatus parse_status); (lit "summary", lp TText parse_text);
   (lit "rstatus", lp (TStruct SRStatus) parse_rstatus);
   (lit "calscale", lp TText parse_text); (lit "method", lp TText parse_text); (lit "prodid", lp TText parse_text); (lit "version", lp TText parse_text);
   (lit "exdate", lp (TVec TDate) parse_exdate); (lit "rdate", lp TRDate parse_rdate); (lit "rrule", lp (TStruct SRecur) parse_rrule);
   (lit "attendee", lp TUri parse_uri); (lit "contact", lp TText parse_text); (lit "organizer", lp TUri parse_uri); (lit "recurid", lp TDate parse_date);
   (lit "related_to", lp TText parse_text); (lit "url", lp TUri parse_uri); (lit "uid", lp TText parse_text);
   (lit "tzid", lp TText parse_text); (lit "tzname", lp TText parse_text); (lit "tzoffsetfrom", lp TOffset parse_offset); (lit "tzoffsetto", lp TOffset parse_offset);
   (lit "tzurl", lp TUri parse_uri)].
Definition parser_fn (f : str) : option line_parser := option_map snd (find (fun p => str_eqb (fst p) f) parsers).
(** The impls of [Serialize] that exist (src/ser.rs:40-113, src/components/valarm.rs:55, src/properties/*.rs and the derived ones); [f32] has none. *)
Definition ser_struct (s : strct) : option (serialize (rec_of s)) :=
  match s with
  | SAudio => Some ser_audio | SDisplay => Some ser_display_alarm | SEmail => Some ser_email | SCalendar => Some ser_vcalendar | SEvent => Some ser_vevent
  | SFreebusy => Some ser_vfreebusy | SJournal => Some ser_vjournal | STimezone => Some ser_vtimezone | STodo => Some ser_vtodo
  | SStandard => Some ser_standard | SDaylight => Some ser_daylight | SGeo => Some ser_geo | SRecur => Some ser_recur | SRStatus => Some ser_rs
  end.
Fixpoint ser_of (t : rty) : option (serialize (den t)) :=
  match t with
  | TText => Some ser_text | TUri => Some ser_uri | TDateTime => Some ser_datetime | TDate => Some ser_date | TDuration => Some ser_td | TOffset => Some ser_offset
  | TClass => Some ser_class | TStatus => Some ser_status | TTransp => Some ser_transp | TFreq => Some ser_freq | TRDate => Some ser_rdate | TPeriod => Some ser_period
  | TTrigger => Some ser_trigger | TWeekday => Some ser_weekday | TWeekdayNum => Some ser_wdn | TU8 => Some ser_u8 | TU32 => Some ser_u32 | TI8 => Some ser_i8
  | TF32 => None | TString => Some ser_string | TAlarm => Some ser_valarm | TExt => Some (ser_map ser_cl) | TStruct s => ser_struct s
  | TOpt t => option_map ser_opt (ser_of t) | TVec t => option_map ser_vec (ser_of t)
  end.
(** [crate::parser::x] for the parsers of components: src/parser/components.rs:27-64,66-155 *)
Definition component_parser (st : strct) (name : str) : option (parser (rec_of st)) :=
  match st with
  | SAudio => if str_eqb name (lit "audio") then Some p_audio else None
  | SDisplay => if str_eqb name (lit "display") then Some p_display else None
  | SEmail => if str_eqb name (lit "email") then Some p_email else None
  | SCalendar => if str_eqb name (lit "vcalendar") then Some p_vcalendar else None
  | SEvent => if str_eqb name (lit "vevent") then Some p_vevent else None
  | SFreebusy => if str_eqb name (lit "vfreebusy") then Some p_vfreebusy else None
  | SJournal => if str_eqb name (lit "vjournal") then Some p_vjournal else None
  | STimezone => if str_eqb name (lit "vtimezone") then Some p_vtimezone else None
  | STodo => if str_eqb name (lit "vtodo") then Some p_vtodo else None
  | SStandard => if str_eqb name (lit "standard") then Some p_standard else None
  | SDaylight => if str_eqb name (lit "daylight") then Some p_daylight else None
  | SGeo | SRecur | SRStatus => None
  end.

(** ** What the generated code does *)
(** [let x = o?; ...], the rest being typed or not *)
Definition then_ {A B} (o : outcome A) (k : A -> option B) : option (outcome B) :=
  match o with Ok x => option_map Ok (k x) | Err e => Some (Err e) | Panic => Some Panic end.
Section Run.
Context (st : strct).
(** derive/src/component.rs:71-91, one arm *)
Definition run_arm (a : arm) (l : content_line) (v : rec_of st) : option (outcome (rec_of st)) :=
  match a with
  | AUnit => Some (Ok v)
  | ASome f =>
      match parser_fn f with
      | Some (existT _ t p) => then_ (p l) (fun x => put_field st f (existT den (TOpt t) (Some x)) v)
      | None => None end
  | APush f =>
      match parser_fn f, get_field st v f with
      | Some (existT _ t p), Some y =>
          match cast y (TVec t) with
          | Some xs => then_ (p l) (fun x => put_field st f (existT den (TVec t) (xs ++ [x])) v)
          | None => None end
      | _, _ => None end
  | AAppend f =>
      match parser_fn f, get_field st v f with
      | Some (existT _ t p), Some y =>
          match t as t0 return (content_line -> outcome (den t0)) -> option (outcome (rec_of st)) with
          | TVec u => fun p =>
              match cast y (TVec u) with
              | Some xs => then_ (p l) (fun ys => put_field st f (existT den (TVec u) (xs ++ ys)) v)
              | None => None end
          | _ => fun _ => None
          end p
      | _, _ => None end
  end.
(** derive/src/component.rs:115-121: the last arm *)
Definition run_insert (f : str) (l : content_line) (v : rec_of st) : option (outcome (rec_of st)) :=
  match get_field st v f with
  | Some y => match cast y TExt with
              | Some m => option_map Ok (put_field st f (existT den TExt (minsert (cl_key l) l m)) v)
              | None => None end
  | None => None end.
(** derive/src/component.rs:113-122 *)
Definition run_line (c : code) (l : content_line) (v : rec_of st) : option (outcome (rec_of st)) :=
  match find (fun a => str_eqb (cl_key l) (fst a)) (k_arms c) with
  | Some (_, a) => run_arm a l v
  | None => run_insert (if starts_with (lit "X-") (cl_key l) then lit "x_prop" else lit "iana_prop") l v
  end.
Fixpoint run_lines (c : code) (ls : list content_line) (v : rec_of st) : option (outcome (rec_of st)) :=
  match ls with
  | [] => Some (Ok v)
  | l :: r => match run_line c l v with Some (Ok v') => run_lines c r v' | o => o end
  end.
(** derive/src/component.rs:80-86, one required field: the last line with the key, read *)
Definition run_entry (ls : list content_line) (fk : str * str) : option (outcome (str * typed)) :=
  match parser_fn (fst fk) with
  | Some (existT _ t p) =>
      Some (let* l := match last_opt (filter (fun x => str_eqb (cl_key x) (snd fk)) ls) with Some l => Ok l | None => Err EParser end in
            let* x := p l in Ok (fst fk, existT den t x))
  | None => None end.
(** derive/src/component.rs:107-110: the required fields, evaluated in order, the others by default *)
Definition run_new (c : code) (ls : list content_line) : option (outcome (rec_of st)) :=
  match seq_list (map (run_entry ls) (k_new c)) with
  | Some (Ok xs) => option_map Ok (assign st xs (default_of st))
  | Some (Err e) => Some (Err e)
  | Some Panic => Some Panic
  | None => None end.
(** derive/src/component.rs:103-127 *)
Definition run_read (c : code) (ls : list content_line) : option (outcome (rec_of st)) :=
  match run_new c ls with Some (Ok v) => run_lines c ls v | o => o end.
(** derive/src/component.rs:45-64, one statement *)
Definition run_stmt (v : rec_of st) (w : stmt) : option (outcome str) :=
  match w with
  | WOne key f =>
      match get_field st v f with
      | Some (existT _ t x) => option_map (fun S => ser_field S key x) (ser_of t)
      | None => None end
  | WVec key f =>
      match get_field st v f with
      | Some (existT _ t x) =>
          match t as t0 return den t0 -> option (outcome str) with
          | TVec u => fun x =>
              option_map (fun S =>
                match x with
                | [y] => ser_field S key y
                | _ => match s_attr (ser_vec S) x with
                       | None => ser_field (ser_vec S) key x
                       | Some _ => omap (fun l => concat l) (ocollect (ser_field S key) x)
                       end
                end) (ser_of u)
          | _ => fun _ => None
          end x
      | None => None end
  end.
(** derive/src/component.rs:163-177 *)
Definition run_write (c : code) (v : rec_of st) : option (outcome str) :=
  option_map (omap (fun parts => lit "BEGIN:" ++ k_component c ++ CRLF ++ concat parts ++ lit "END:" ++ k_component c ++ CRLF))
    (seq_list (map (run_stmt v) (k_ser c))).
(** derive/src/component.rs:146-155 *)
Definition run_from_str (c : code) (s : str) : option (outcome (rec_of st)) :=
  option_map (fun p => from_str p s) (component_parser st (k_parser c)).
(** derive/src/serialize.rs:41-66 *)
Definition run_part (v : rec_of st) (fn : str * str) : option (outcome str) :=
  match get_field st v (fst fn) with
  | Some (existT _ t x) =>
      option_map (fun S => let* ical := s_ical S x in Ok (match ical with [] => [] | _ => snd fn ++ [61] ++ ical ++ [59] end)) (ser_of t)
  | None => None end.
Definition run_parts (names : list (str * str)) (v : rec_of st) : option (outcome str) :=
  option_map (omap (fun parts => pop (concat parts))) (seq_list (map (run_part v) names)).
End Run.

(** ** The structs that derive them *)
Definition path (names : list str) : rtype := RTPath (map (fun n => (n, [])) names).
Definition option_of (t : rtype) : rtype := RTPath [(lit "Option", [t])].
Definition vec_of (t : rtype) : rtype := RTPath [(lit "Vec", [t])].
(** a path ending in [BTreeMap<String, crate::ContentLine>] *)
Definition map_of (names : list str) : rtype :=
  RTPath (match rev names with
          | [] => []
          | n :: r => map (fun m => (m, [])) (rev r) ++ [(n, [path [lit "String"]; path [lit "crate"; lit "ContentLine"]])] end).
(** src/components/valarm.rs:73-84 *)
Definition decl_audio : ddecl := mk_ddecl (lit "Audio") (Struct [
    mk_fdecl (Some (lit "action")) (path [lit "crate"; lit "Text"]) [] None;
    mk_fdecl (Some (lit "trigger")) (path [lit "crate"; lit "Trigger"]) [] None;
    mk_fdecl (Some (lit "duration")) (option_of (path [lit "chrono"; lit "Duration"])) [] None;
    mk_fdecl (Some (lit "repeat")) (option_of (path [lit "u32"])) [] None;
    mk_fdecl (Some (lit "attach")) (vec_of (path [lit "crate"; lit "Text"])) [] None;
    mk_fdecl (Some (lit "x_prop")) (map_of [lit "std"; lit "collections"; lit "BTreeMap"]) [lit "ignore"] None;
    mk_fdecl (Some (lit "iana_prop")) (map_of [lit "std"; lit "collections"; lit "BTreeMap"]) [lit "ignore"] None]).
(** src/components/valarm.rs:101-112 *)
Definition decl_display : ddecl := mk_ddecl (lit "Display") (Struct [
    mk_fdecl (Some (lit "action")) (path [lit "crate"; lit "Text"]) [] None;
    mk_fdecl (Some (lit "trigger")) (path [lit "crate"; lit "Trigger"]) [] None;
    mk_fdecl (Some (lit "description")) (path [lit "crate"; lit "Text"]) [] None;
    mk_fdecl (Some (lit "duration")) (option_of (path [lit "chrono"; lit "Duration"])) [] None;
    mk_fdecl (Some (lit "repeat")) (option_of (path [lit "u32"])) [] None;
    mk_fdecl (Some (lit "x_prop")) (map_of [lit "std"; lit "collections"; lit "BTreeMap"]) [lit "ignore"] None;
    mk_fdecl (Some (lit "iana_prop")) (map_of [lit "std"; lit "collections"; lit "BTreeMap"]) [lit "ignore"] None]).
(** src/components/valarm.rs:129-143 *)
Definition decl_email : ddecl := mk_ddecl (lit "Email") (Struct [
    mk_fdecl (Some (lit "action")) (path [lit "crate"; lit "Text"]) [] None;
    mk_fdecl (Some (lit "trigger")) (path [lit "crate"; lit "Trigger"]) [] None;
    mk_fdecl (Some (lit "description")) (path [lit "crate"; lit "Text"]) [] None;
    mk_fdecl (Some (lit "summary")) (path [lit "crate"; lit "Text"]) [] None;
    mk_fdecl (Some (lit "attendee")) (vec_of (path [lit "crate"; lit "Uri"])) [] None;
    mk_fdecl (Some (lit "duration")) (option_of (path [lit "chrono"; lit "Duration"])) [] None;
    mk_fdecl (Some (lit "repeat")) (option_of (path [lit "u32"])) [] None;
    mk_fdecl (Some (lit "attach")) (vec_of (path [lit "crate"; lit "Text"])) [] None;
    mk_fdecl (Some (lit "x_prop")) (map_of [lit "std"; lit "collections"; lit "BTreeMap"]) [lit "ignore"] None;
    mk_fdecl (Some (lit "iana_prop")) (map_of [lit "std"; lit "collections"; lit "BTreeMap"]) [lit "ignore"] None]).
(** src/components/vcalendar.rs:4-26 *)
Definition decl_vcalendar : ddecl := mk_ddecl (lit "VCalendar") (Struct [
    mk_fdecl (Some (lit "prodid")) (path [lit "crate"; lit "Text"]) [] None;
    mk_fdecl (Some (lit "version")) (path [lit "crate"; lit "Text"]) [] None;
    mk_fdecl (Some (lit "calscale")) (option_of (path [lit "crate"; lit "Text"])) [] None;
    mk_fdecl (Some (lit "method")) (option_of (path [lit "crate"; lit "Text"])) [] None;
    mk_fdecl (Some (lit "alarms")) (vec_of (path [lit "crate"; lit "VAlarm"])) [lit "ignore"] None;
    mk_fdecl (Some (lit "events")) (vec_of (path [lit "crate"; lit "VEvent"])) [lit "ignore"] None;
    mk_fdecl (Some (lit "freebusy")) (vec_of (path [lit "crate"; lit "VFreebusy"])) [lit "ignore"] None;
    mk_fdecl (Some (lit "journals")) (vec_of (path [lit "crate"; lit "VJournal"])) [lit "ignore"] None;
    mk_fdecl (Some (lit "todo")) (vec_of (path [lit "crate"; lit "VTodo"])) [lit "ignore"] None;
    mk_fdecl (Some (lit "timezones")) (vec_of (path [lit "crate"; lit "VTimezone"])) [lit "ignore"] None;
    mk_fdecl (Some (lit "x_prop")) (map_of [lit "std"; lit "collections"; lit "BTreeMap"]) [lit "ignore"] None;
    mk_fdecl (Some (lit "iana_prop")) (map_of [lit "std"; lit "collections"; lit "BTreeMap"]) [lit "ignore"] None]).
(** src/components/vevent.rs:4-45 *)
Definition decl_vevent : ddecl := mk_ddecl (lit "VEvent") (Struct [
    mk_fdecl (Some (lit "dtstamp")) (path [lit "crate"; lit "DateTime"]) [] None;
    mk_fdecl (Some (lit "uid")) (path [lit "crate"; lit "Text"]) [] None;
    mk_fdecl (Some (lit "dtstart")) (path [lit "crate"; lit "Date"]) [] None;
    mk_fdecl (Some (lit "class")) (option_of (path [lit "crate"; lit "Class"])) [] None;
    mk_fdecl (Some (lit "created")) (option_of (path [lit "crate"; lit "DateTime"])) [] None;
    mk_fdecl (Some (lit "description")) (option_of (path [lit "crate"; lit "Text"])) [] None;
    mk_fdecl (Some (lit "geo")) (option_of (path [lit "crate"; lit "Geo"])) [] None;
    mk_fdecl (Some (lit "last_modified")) (option_of (path [lit "crate"; lit "DateTime"])) [] None;
    mk_fdecl (Some (lit "location")) (option_of (path [lit "crate"; lit "Text"])) [] None;
    mk_fdecl (Some (lit "organizer")) (option_of (path [lit "crate"; lit "Uri"])) [] None;
    mk_fdecl (Some (lit "priority")) (option_of (path [lit "u8"])) [] None;
    mk_fdecl (Some (lit "sequence")) (option_of (path [lit "u32"])) [] None;
    mk_fdecl (Some (lit "status")) (option_of (path [lit "crate"; lit "Status"])) [] None;
    mk_fdecl (Some (lit "summary")) (option_of (path [lit "crate"; lit "Text"])) [] None;
    mk_fdecl (Some (lit "transp")) (option_of (path [lit "crate"; lit "TimeTransparency"])) [] None;
    mk_fdecl (Some (lit "url")) (option_of (path [lit "crate"; lit "Uri"])) [] None;
    mk_fdecl (Some (lit "recurid")) (option_of (path [lit "crate"; lit "Date"])) [] None;
    mk_fdecl (Some (lit "rrule")) (option_of (path [lit "crate"; lit "Recur"])) [] None;
    mk_fdecl (Some (lit "dtend")) (option_of (path [lit "crate"; lit "Date"])) [] None;
    mk_fdecl (Some (lit "duration")) (option_of (path [lit "chrono"; lit "Duration"])) [] None;
    mk_fdecl (Some (lit "attach")) (vec_of (path [lit "crate"; lit "Text"])) [] None;
    mk_fdecl (Some (lit "attendee")) (vec_of (path [lit "crate"; lit "Uri"])) [] None;
    mk_fdecl (Some (lit "categories")) (vec_of (path [lit "crate"; lit "Text"])) [lit "append"] None;
    mk_fdecl (Some (lit "comment")) (vec_of (path [lit "crate"; lit "Text"])) [] None;
    mk_fdecl (Some (lit "contact")) (vec_of (path [lit "crate"; lit "Text"])) [] None;
    mk_fdecl (Some (lit "exdate")) (vec_of (path [lit "crate"; lit "Date"])) [lit "append"] None;
    mk_fdecl (Some (lit "rstatus")) (vec_of (path [lit "crate"; lit "RequestStatus"])) [] None;
    mk_fdecl (Some (lit "related_to")) (vec_of (path [lit "crate"; lit "Text"])) [] None;
    mk_fdecl (Some (lit "resources")) (vec_of (path [lit "crate"; lit "Text"])) [lit "append"] None;
    mk_fdecl (Some (lit "rdate")) (vec_of (path [lit "crate"; lit "RDate"])) [] None;
    mk_fdecl (Some (lit "alarms")) (vec_of (path [lit "crate"; lit "VAlarm"])) [lit "ignore"] None;
    mk_fdecl (Some (lit "x_prop")) (map_of [lit "std"; lit "collections"; lit "BTreeMap"]) [lit "ignore"] None;
    mk_fdecl (Some (lit "iana_prop")) (map_of [lit "std"; lit "collections"; lit "BTreeMap"]) [lit "ignore"] None]).
(** src/components/vfreebusy.rs:4-22 *)
Definition decl_vfreebusy : ddecl := mk_ddecl (lit "VFreebusy") (Struct [
    mk_fdecl (Some (lit "dtstamp")) (path [lit "crate"; lit "DateTime"]) [] None;
    mk_fdecl (Some (lit "uid")) (path [lit "crate"; lit "Text"]) [] None;
    mk_fdecl (Some (lit "contact")) (option_of (path [lit "crate"; lit "Text"])) [] None;
    mk_fdecl (Some (lit "dtstart")) (option_of (path [lit "crate"; lit "Date"])) [] None;
    mk_fdecl (Some (lit "dtend")) (option_of (path [lit "crate"; lit "Date"])) [] None;
    mk_fdecl (Some (lit "organizer")) (option_of (path [lit "crate"; lit "Uri"])) [] None;
    mk_fdecl (Some (lit "url")) (option_of (path [lit "crate"; lit "Uri"])) [] None;
    mk_fdecl (Some (lit "attendee")) (vec_of (path [lit "crate"; lit "Uri"])) [] None;
    mk_fdecl (Some (lit "comment")) (vec_of (path [lit "crate"; lit "Text"])) [] None;
    mk_fdecl (Some (lit "freebusy")) (vec_of (path [lit "crate"; lit "Period"])) [lit "append"] None;
    mk_fdecl (Some (lit "rstatus")) (vec_of (path [lit "crate"; lit "RequestStatus"])) [] None;
    mk_fdecl (Some (lit "x_prop")) (map_of [lit "std"; lit "collections"; lit "BTreeMap"]) [lit "ignore"] None;
    mk_fdecl (Some (lit "iana_prop")) (map_of [lit "std"; lit "collections"; lit "BTreeMap"]) [lit "ignore"] None]).
(** src/components/vjournal.rs:4-35 *)
Definition decl_vjournal : ddecl := mk_ddecl (lit "VJournal") (Struct [
    mk_fdecl (Some (lit "dtstamp")) (path [lit "crate"; lit "DateTime"]) [] None;
    mk_fdecl (Some (lit "uid")) (path [lit "crate"; lit "Text"]) [] None;
    mk_fdecl (Some (lit "class")) (option_of (path [lit "crate"; lit "Class"])) [] None;
    mk_fdecl (Some (lit "created")) (option_of (path [lit "crate"; lit "DateTime"])) [] None;
    mk_fdecl (Some (lit "dtstart")) (path [lit "crate"; lit "Date"]) [] None;
    mk_fdecl (Some (lit "last_modified")) (option_of (path [lit "crate"; lit "DateTime"])) [] None;
    mk_fdecl (Some (lit "organizer")) (option_of (path [lit "crate"; lit "Uri"])) [] None;
    mk_fdecl (Some (lit "recurid")) (option_of (path [lit "crate"; lit "Date"])) [] None;
    mk_fdecl (Some (lit "sequence")) (option_of (path [lit "u32"])) [] None;
    mk_fdecl (Some (lit "status")) (option_of (path [lit "crate"; lit "Status"])) [] None;
    mk_fdecl (Some (lit "summary")) (option_of (path [lit "crate"; lit "Text"])) [] None;
    mk_fdecl (Some (lit "url")) (option_of (path [lit "crate"; lit "Uri"])) [] None;
    mk_fdecl (Some (lit "rrule")) (option_of (path [lit "crate"; lit "Recur"])) [] None;
    mk_fdecl (Some (lit "attach")) (vec_of (path [lit "crate"; lit "Text"])) [] None;
    mk_fdecl (Some (lit "attendee")) (vec_of (path [lit "crate"; lit "Uri"])) [] None;
    mk_fdecl (Some (lit "categories")) (vec_of (path [lit "crate"; lit "Text"])) [lit "append"] None;
    mk_fdecl (Some (lit "comment")) (vec_of (path [lit "crate"; lit "Text"])) [] None;
    mk_fdecl (Some (lit "contact")) (vec_of (path [lit "crate"; lit "Text"])) [] None;
    mk_fdecl (Some (lit "description")) (vec_of (path [lit "crate"; lit "Text"])) [] None;
    mk_fdecl (Some (lit "exdate")) (vec_of (path [lit "crate"; lit "Date"])) [lit "append"] None;
    mk_fdecl (Some (lit "related_to")) (vec_of (path [lit "crate"; lit "Text"])) [] None;
    mk_fdecl (Some (lit "rdate")) (vec_of (path [lit "crate"; lit "RDate"])) [] None;
    mk_fdecl (Some (lit "rstatus")) (vec_of (path [lit "crate"; lit "RequestStatus"])) [] None;
    mk_fdecl (Some (lit "x_prop")) (map_of [lit "std"; lit "collections"; lit "BTreeMap"]) [lit "ignore"] None;
    mk_fdecl (Some (lit "iana_prop")) (map_of [lit "std"; lit "collections"; lit "BTreeMap"]) [lit "ignore"] None]).
(** src/components/vtimezone.rs:6-19 *)
Definition decl_vtimezone : ddecl := mk_ddecl (lit "VTimezone") (Struct [
    mk_fdecl (Some (lit "tzid")) (path [lit "crate"; lit "Text"]) [] None;
    mk_fdecl (Some (lit "last_modified")) (option_of (path [lit "crate"; lit "DateTime"])) [] None;
    mk_fdecl (Some (lit "tzurl")) (option_of (path [lit "crate"; lit "Uri"])) [] None;
    mk_fdecl (Some (lit "standard")) (vec_of (path [lit "Standard"])) [lit "ignore"] None;
    mk_fdecl (Some (lit "daylight")) (vec_of (path [lit "Daylight"])) [lit "ignore"] None;
    mk_fdecl (Some (lit "x_prop")) (map_of [lit "std"; lit "collections"; lit "BTreeMap"]) [lit "ignore"] None;
    mk_fdecl (Some (lit "iana_prop")) (map_of [lit "std"; lit "collections"; lit "BTreeMap"]) [lit "ignore"] None]).
(** src/components/vtodo.rs:4-43 *)
Definition decl_vtodo : ddecl := mk_ddecl (lit "VTodo") (Struct [
    mk_fdecl (Some (lit "dtstamp")) (path [lit "crate"; lit "DateTime"]) [] None;
    mk_fdecl (Some (lit "uid")) (path [lit "crate"; lit "Text"]) [] None;
    mk_fdecl (Some (lit "class")) (option_of (path [lit "crate"; lit "Class"])) [] None;
    mk_fdecl (Some (lit "completed")) (option_of (path [lit "crate"; lit "DateTime"])) [] None;
    mk_fdecl (Some (lit "created")) (option_of (path [lit "crate"; lit "DateTime"])) [] None;
    mk_fdecl (Some (lit "dtstart")) (option_of (path [lit "crate"; lit "Date"])) [] None;
    mk_fdecl (Some (lit "geo")) (option_of (path [lit "crate"; lit "Geo"])) [] None;
    mk_fdecl (Some (lit "last_modified")) (option_of (path [lit "crate"; lit "DateTime"])) [] None;
    mk_fdecl (Some (lit "location")) (option_of (path [lit "crate"; lit "Text"])) [] None;
    mk_fdecl (Some (lit "organizer")) (option_of (path [lit "crate"; lit "Uri"])) [] None;
    mk_fdecl (Some (lit "percent_complete")) (option_of (path [lit "u8"])) [] None;
    mk_fdecl (Some (lit "priority")) (option_of (path [lit "u8"])) [] None;
    mk_fdecl (Some (lit "recurid")) (option_of (path [lit "crate"; lit "Date"])) [] None;
    mk_fdecl (Some (lit "sequence")) (option_of (path [lit "u32"])) [] None;
    mk_fdecl (Some (lit "status")) (option_of (path [lit "crate"; lit "Status"])) [] None;
    mk_fdecl (Some (lit "summary")) (option_of (path [lit "crate"; lit "Text"])) [] None;
    mk_fdecl (Some (lit "url")) (option_of (path [lit "crate"; lit "Uri"])) [] None;
    mk_fdecl (Some (lit "rrule")) (option_of (path [lit "crate"; lit "Recur"])) [] None;
    mk_fdecl (Some (lit "due")) (option_of (path [lit "crate"; lit "Date"])) [] None;
    mk_fdecl (Some (lit "duration")) (option_of (path [lit "chrono"; lit "Duration"])) [] None;
    mk_fdecl (Some (lit "attach")) (vec_of (path [lit "crate"; lit "Text"])) [] None;
    mk_fdecl (Some (lit "attendee")) (vec_of (path [lit "crate"; lit "Uri"])) [] None;
    mk_fdecl (Some (lit "categories")) (vec_of (path [lit "crate"; lit "Text"])) [lit "append"] None;
    mk_fdecl (Some (lit "comment")) (vec_of (path [lit "crate"; lit "Text"])) [] None;
    mk_fdecl (Some (lit "contact")) (vec_of (path [lit "crate"; lit "Text"])) [] None;
    mk_fdecl (Some (lit "exdate")) (vec_of (path [lit "crate"; lit "Date"])) [lit "append"] None;
    mk_fdecl (Some (lit "rstatus")) (vec_of (path [lit "crate"; lit "RequestStatus"])) [] None;
    mk_fdecl (Some (lit "related_to")) (vec_of (path [lit "crate"; lit "Text"])) [] None;
    mk_fdecl (Some (lit "resources")) (vec_of (path [lit "crate"; lit "Text"])) [lit "append"] None;
    mk_fdecl (Some (lit "rdate")) (vec_of (path [lit "crate"; lit "RDate"])) [] None;
    mk_fdecl (Some (lit "x_prop")) (map_of [lit "std"; lit "collections"; lit "BTreeMap"]) [lit "ignore"] None;
    mk_fdecl (Some (lit "iana_prop")) (map_of [lit "std"; lit "collections"; lit "BTreeMap"]) [lit "ignore"] None]).
(** src/components/vtimezone.rs:36-49, with [$name] = [Standard] (line 76) *)
Definition decl_standard : ddecl := mk_ddecl (lit "Standard") (Struct [
    mk_fdecl (Some (lit "dtstart")) (path [lit "crate"; lit "Date"]) [] None;
    mk_fdecl (Some (lit "tzoffsetto")) (path [lit "chrono"; lit "offset"; lit "FixedOffset"]) [] None;
    mk_fdecl (Some (lit "tzoffsetfrom")) (path [lit "chrono"; lit "offset"; lit "FixedOffset"]) [] None;
    mk_fdecl (Some (lit "rrule")) (option_of (path [lit "crate"; lit "Recur"])) [] None;
    mk_fdecl (Some (lit "comment")) (vec_of (path [lit "crate"; lit "Text"])) [] None;
    mk_fdecl (Some (lit "rdate")) (vec_of (path [lit "crate"; lit "RDate"])) [] None;
    mk_fdecl (Some (lit "tzname")) (vec_of (path [lit "crate"; lit "Text"])) [] None;
    mk_fdecl (Some (lit "x_prop")) (map_of [lit "BTreeMap"]) [lit "ignore"] None;
    mk_fdecl (Some (lit "iana_prop")) (map_of [lit "BTreeMap"]) [lit "ignore"] None]).
(** src/components/vtimezone.rs:36-49, with [$name] = [Daylight] (line 77) *)
Definition decl_daylight : ddecl := mk_ddecl (lit "Daylight") (Struct [
    mk_fdecl (Some (lit "dtstart")) (path [lit "crate"; lit "Date"]) [] None;
    mk_fdecl (Some (lit "tzoffsetto")) (path [lit "chrono"; lit "offset"; lit "FixedOffset"]) [] None;
    mk_fdecl (Some (lit "tzoffsetfrom")) (path [lit "chrono"; lit "offset"; lit "FixedOffset"]) [] None;
    mk_fdecl (Some (lit "rrule")) (option_of (path [lit "crate"; lit "Recur"])) [] None;
    mk_fdecl (Some (lit "comment")) (vec_of (path [lit "crate"; lit "Text"])) [] None;
    mk_fdecl (Some (lit "rdate")) (vec_of (path [lit "crate"; lit "RDate"])) [] None;
    mk_fdecl (Some (lit "tzname")) (vec_of (path [lit "crate"; lit "Text"])) [] None;
    mk_fdecl (Some (lit "x_prop")) (map_of [lit "BTreeMap"]) [lit "ignore"] None;
    mk_fdecl (Some (lit "iana_prop")) (map_of [lit "BTreeMap"]) [lit "ignore"] None]).
(** src/properties/recur.rs:6-31 *)
Definition decl_recur : ddecl := mk_ddecl (lit "Recur") (Struct [
    mk_fdecl (Some (lit "freq")) (path [lit "Freq"]) [] None;
    mk_fdecl (Some (lit "until")) (option_of (path [lit "crate"; lit "Date"])) [] None;
    mk_fdecl (Some (lit "count")) (option_of (path [lit "u8"])) [] None;
    mk_fdecl (Some (lit "interval")) (path [lit "u8"]) [] None;
    mk_fdecl (Some (lit "by_second")) (vec_of (path [lit "i8"])) [] (Some (lit "BYSECOND"));
    mk_fdecl (Some (lit "by_minute")) (vec_of (path [lit "i8"])) [] (Some (lit "BYMINUTE"));
    mk_fdecl (Some (lit "by_hour")) (vec_of (path [lit "i8"])) [] (Some (lit "BYHOUR"));
    mk_fdecl (Some (lit "by_day")) (vec_of (path [lit "WeekdayNum"])) [] (Some (lit "BYDAY"));
    mk_fdecl (Some (lit "by_monthday")) (vec_of (path [lit "i8"])) [] (Some (lit "BYMONTHDAY"));
    mk_fdecl (Some (lit "by_yearday")) (vec_of (path [lit "i8"])) [] (Some (lit "BYYEARDAY"));
    mk_fdecl (Some (lit "by_weekno")) (vec_of (path [lit "i8"])) [] (Some (lit "BYWEEKNO"));
    mk_fdecl (Some (lit "by_month")) (vec_of (path [lit "i8"])) [] (Some (lit "BYMONTH"));
    mk_fdecl (Some (lit "by_setpos")) (vec_of (path [lit "i8"])) [] (Some (lit "BYSETPOS"));
    mk_fdecl (Some (lit "wkst")) (option_of (path [lit "Weekday"])) [] None]).
(** The declarations above, by struct; [Geo] and [RequestStatus] derive neither. *)
Definition decl_of (st : strct) : option ddecl :=
  match st with
  | SAudio => Some decl_audio | SDisplay => Some decl_display | SEmail => Some decl_email | SCalendar => Some decl_vcalendar | SEvent => Some decl_vevent
  | SFreebusy => Some decl_vfreebusy | SJournal => Some decl_vjournal | STimezone => Some decl_vtimezone | STodo => Some decl_vtodo
  | SStandard => Some decl_standard | SDaylight => Some decl_daylight | SRecur => Some decl_recur | SGeo | SRStatus => None
  end.
(** The Rust types that the declarations mention, resolved: src/lib.rs:12-14, src/components/mod.rs:10-19, src/components/vtimezone.rs:1,
    src/properties/recur.rs, chrono ([Duration] is an alias of [TimeDelta]) and the prelude. *)
Definition type_names : list (str * rty) :=
  [(lit "crate::Text", TText); (lit "crate::Uri", TUri); (lit "crate::DateTime", TDateTime); (lit "crate::Date", TDate); (lit "chrono::Duration", TDuration);
   (lit "chrono::offset::FixedOffset", TOffset); (lit "crate::Class", TClass); (lit "crate::Status", TStatus); (lit "crate::TimeTransparency", TTransp);
   (lit "crate::Geo", TStruct SGeo); (lit "crate::Recur", TStruct SRecur); (lit "crate::RequestStatus", TStruct SRStatus); (lit "crate::RDate", TRDate);
   (lit "crate::Period", TPeriod); (lit "crate::Trigger", TTrigger); (lit "u8", TU8); (lit "u32", TU32); (lit "i8", TI8); (lit "String", TString);
   (lit "Freq", TFreq); (lit "Weekday", TWeekday); (lit "WeekdayNum", TWeekdayNum); (lit "Standard", TStruct SStandard); (lit "Daylight", TStruct SDaylight);
   (lit "crate::VAlarm", TAlarm); (lit "crate::VEvent", TStruct SEvent); (lit "crate::VFreebusy", TStruct SFreebusy); (lit "crate::VJournal", TStruct SJournal);
   (lit "crate::VTimezone", TStruct STimezone); (lit "crate::VTodo", TStruct STodo); (lit "crate::VCalendar", TStruct SCalendar)].
Definition arguments (t : rtype) : list rtype := match t with RTPath segs => concat (map snd segs) | RTOther => [] end.
Definition resolve_plain (t : rtype) : option rty :=
  if str_eqb (tyname t) (lit "std::collections::BTreeMap") || str_eqb (tyname t) (lit "BTreeMap")
  then match map tyname (arguments t) with
       | [k; v] => if str_eqb k (lit "String") && str_eqb v (lit "crate::ContentLine") then Some TExt else None
       | _ => None end
  else match arguments t with [] => option_map snd (find (fun p => str_eqb (fst p) (tyname t)) type_names) | _ => None end.
Definition resolve (t : rtype) : option rty :=
  match arguments t with
  | [a] => if str_eqb (tyname t) (lit "Option") then option_map TOpt (resolve_plain a)
           else if str_eqb (tyname t) (lit "Vec") then option_map TVec (resolve_plain a)
           else resolve_plain t
  | _ => resolve_plain t end.
End Env.
