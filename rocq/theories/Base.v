(** * Strings, outcomes and the Rust standard-library functions the crate uses.

    No definition of /repo is modelled here except where a comment says so:
    this file models the pieces of Rust's [std] that /repo calls. *)
From Coq Require Export String.
From Coq Require Import Ascii.
From Coq Require Export Bool List ZArith Lia.
Export ListNotations.
Open Scope Z_scope.

(** A Rust [char] is a Unicode scalar value; we use its number. A [str]/[String]
    is the list of its chars. UTF-8 is visible only through byte lengths
    ([utf8_len]); it preserves the order of code points, so the byte order used
    by [BTreeMap<String,_>] is the lexicographic order of chars. *)
Notation char := Z (only parsing).
Notation str := (list Z) (only parsing).

(** ASCII literals. *)
Definition lit (s : string) : str :=
  map (fun a => Z.of_N (N_of_ascii a)) (list_ascii_of_string s).
Arguments lit s%string_scope.
Definition LF : char := 10.
Definition CR : char := 13.
Definition CRLF : str := [CR; LF].

(** [char::len_utf8] *)
Definition utf8_len (c : char) : nat :=
  if c <? 128 then 1%nat else if c <? 2048 then 2%nat
  else if c <? 65536 then 3%nat else 4%nat.

(** [str::len] (bytes) *)
Fixpoint blen (s : str) : nat :=
  match s with [] => 0%nat | c :: r => (utf8_len c + blen r)%nat end.

(** ** Outcome of a Rust computation: a value, an [Err] or a panic. *)
(** src/errors.rs:3-31. Payloads that are rendered messages are dropped
    ([Date], [ParseIntError], [Parser], [Serialize], [Local]); [EParseDuration s] is
    [ParseDuration(format!("Invalid duration: {s}"))], its only form. *)
Inductive error :=
| EAlarm (s : str) | EDate | EFreq (s : str) | EKey (s : str) | ELocal
| EParseDuration (s : str) | EParseInt | EParser | EPriority (n : Z) | ESerialize
| EStatus (s : str) | ETimeTransparency (s : str) | EWeekday (s : str).

Inductive outcome (A : Type) :=
| Ok (a : A) | Err (e : error) | Panic.
Arguments Ok {A} a. Arguments Err {A} e. Arguments Panic {A}.

Definition obind {A B} (o : outcome A) (f : A -> outcome B) : outcome B :=
  match o with Ok a => f a | Err e => Err e | Panic => Panic end.
Notation "'let*' x ':=' o 'in' b" := (obind o (fun x => b))
  (at level 200, x pattern, o at level 100, b at level 200).
Definition omap {A B} (f : A -> B) (o : outcome A) : outcome B :=
  let* a := o in Ok (f a).

(** [iter.map(f).collect::<Result<Vec<_>,_>>()]: left to right, stops at the
    first error. *)
Fixpoint ocollect {A B} (f : A -> outcome B) (l : list A) : outcome (list B) :=
  match l with
  | [] => Ok []
  | a :: r => let* b := f a in let* bs := ocollect f r in Ok (b :: bs)
  end.

(** ** Comparisons *)
Fixpoint str_eqb (a b : str) : bool :=
  match a, b with
  | [], [] => true
  | x :: a', y :: b' => (x =? y) && str_eqb a' b'
  | _, _ => false
  end.

Fixpoint str_cmp (a b : str) : comparison :=
  match a, b with
  | [], [] => Eq
  | [], _ => Lt
  | _, [] => Gt
  | x :: a', y :: b' => match x ?= y with Eq => str_cmp a' b' | c => c end
  end.

(** [str::starts_with] *)
Fixpoint starts_with (p s : str) : bool :=
  match p, s with
  | [], _ => true
  | x :: p', y :: s' => (x =? y) && starts_with p' s'
  | _ :: _, [] => false
  end.

(** [str::strip_prefix] *)
Fixpoint strip_prefix (p s : str) : option str :=
  match p, s with
  | [], _ => Some s
  | x :: p', y :: s' => if x =? y then strip_prefix p' s' else None
  | _ :: _, [] => None
  end.

(** [str::ends_with(char)] *)
Definition ends_with_char (c : char) (s : str) : bool :=
  match rev s with x :: _ => x =? c | [] => false end.

(** [str::trim_end_matches(char)]: removes every trailing [c]. *)
Fixpoint drop_while (f : char -> bool) (s : str) : str :=
  match s with x :: r => if f x then drop_while f r else s | [] => [] end.
Definition trim_end_char (c : char) (s : str) : str :=
  rev (drop_while (fun x => x =? c) (rev s)).

(** [str::replace(char, &str)] *)
Definition replace_char (c : char) (to : str) (s : str) : str :=
  flat_map (fun x => if x =? c then to else [x]) s.

(** [str::replace("\r\n ", "")]: leftmost, non-overlapping, not rescanned. *)
Fixpoint unfold_lines (s : str) : str :=
  match s with
  | [] => []
  | c :: r =>
      match r with
      | c1 :: c2 :: r' =>
          if (c =? CR) && (c1 =? LF) && (c2 =? 32)
          then unfold_lines r' else c :: unfold_lines r
      | _ => c :: unfold_lines r
      end
  end.

(** [str::split(char)]: always at least one piece. *)
Fixpoint split_on (c : char) (s : str) : list str :=
  match s with
  | [] => [[]]
  | x :: r =>
      if x =? c then [] :: split_on c r
      else match split_on c r with
           | h :: t => (x :: h) :: t
           | [] => [[x]]
           end
  end.

(** [str::splitn(2, char)]: the first piece and, if [c] occurs, the rest. *)
Fixpoint splitn2 (c : char) (s : str) : str * option str :=
  match s with
  | [] => ([], None)
  | x :: r =>
      if x =? c then ([], Some r)
      else let (h, t) := splitn2 c r in (x :: h, t)
  end.

(** [slice.join(sep)] *)
Fixpoint join (sep : str) (l : list str) : str :=
  match l with
  | [] => []
  | [x] => x
  | x :: r => x ++ sep ++ join sep r
  end.

(** [String::pop] *)
Definition pop {A} (s : list A) : list A := removelast s.

(** [str::split_at(n)] in bytes; [None] is the panic when [n] is not on a char
    boundary or beyond the end. *)
Fixpoint split_at (n : nat) (s : str) : option (str * str) :=
  match n with
  | O => Some ([], s)
  | _ => match s with
         | [] => None
         | c :: r =>
             if (utf8_len c <=? n)%nat
             then match split_at (n - utf8_len c) r with
                  | Some (a, b) => Some (c :: a, b)
                  | None => None
                  end
             else None
         end
  end.

(** ** Character classes *)
Definition is_digit (c : char) : bool := (48 <=? c) && (c <=? 57).
Definition is_alpha (c : char) : bool :=
  ((65 <=? c) && (c <=? 90)) || ((97 <=? c) && (c <=? 122)).
(** [char::is_whitespace] (Unicode White_Space) *)
Definition is_whitespace (c : char) : bool :=
  ((9 <=? c) && (c <=? 13)) || (c =? 32) || (c =? 133) || (c =? 160) || (c =? 5760)
  || ((8192 <=? c) && (c <=? 8202)) || (c =? 8232) || (c =? 8233) || (c =? 8239)
  || (c =? 8287) || (c =? 12288).
Definition ascii_upper (c : char) : char :=
  if (97 <=? c) && (c <=? 122) then c - 32 else c.

(** ** Decimal integers *)
Fixpoint digits_fuel (fuel : nat) (n : Z) (acc : str) : str :=
  match fuel with
  | O => acc
  | S f => let acc' := (48 + n mod 10) :: acc in
           if n / 10 =? 0 then acc' else digits_fuel f (n / 10) acc'
  end.
(** [Display] of a non-negative integer. *)
Definition show_nat (n : Z) : str := digits_fuel (S (Z.to_nat (Z.log2 n))) n [].
(** [Display] of an integer. *)
Definition show_int (n : Z) : str := if n <? 0 then 45 :: show_nat (- n) else show_nat n.
(** [{:0w$}] of a non-negative integer. *)
Definition show_pad (w : nat) (n : Z) : str :=
  let s := show_nat n in repeat 48 (w - List.length s) ++ s.

Definition digits_val (s : str) : Z := fold_left (fun v c => 10 * v + (c - 48)) s 0.
Definition all_digits (s : str) : bool := forallb is_digit s.

Definition parse_digits (max : Z) (s : str) : option Z :=
  match s with
  | [] => None
  | _ => if all_digits s && (digits_val s <=? max) then Some (digits_val s) else None
  end.
(** [str::parse::<uN>]: an optional '+', then at least one digit, in range. *)
Definition parse_unsigned (max : Z) (s : str) : option Z :=
  match s with
  | c :: r => if c =? 43 then parse_digits max r else parse_digits max s
  | [] => None
  end.
(** [str::parse::<iN>] for the type with range [-max-1 .. max]. *)
Definition parse_signed (max : Z) (s : str) : option Z :=
  match s with
  | c :: r => if c =? 43 then parse_digits max r
              else if c =? 45 then option_map Z.opp (parse_digits (max + 1) r)
              else parse_digits max s
  | [] => None
  end.
Definition U8MAX : Z := 255.
Definition I8MAX : Z := 127.
Definition U32MAX : Z := 4294967295.
Definition I64MAX : Z := 9223372036854775807.

(** ** [BTreeMap<String, V>] as an association list sorted by key. *)
Section Map.
  Context {V : Type}.
  Definition smap := list (str * V).
  Fixpoint minsert (k : str) (v : V) (m : smap) : smap :=
    match m with
    | [] => [(k, v)]
    | (k', v') :: r =>
        match str_cmp k k' with
        | Lt => (k, v) :: m
        | Eq => (k, v) :: r
        | Gt => (k', v') :: minsert k v r
        end
    end.
  Fixpoint mget (k : str) (m : smap) : option V :=
    match m with
    | [] => None
    | (k', v') :: r => if str_eqb k k' then Some v' else mget k r
    end.
End Map.
Arguments smap V : clear implicits.

(** [x.chars().next()...] helpers: last element of a list, as [Iterator::last]. *)
Fixpoint last_opt {A} (l : list A) : option A :=
  match l with [] => None | [x] => Some x | _ :: r => last_opt r end.
