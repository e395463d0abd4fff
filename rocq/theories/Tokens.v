(** * The syntax of the construction macros (derive/src/macros.rs:30-157, derive/src/lib.rs:24-46, src/lib.rs:112-124).

    From the tokens between the braces of [vevent! { ... }] to the list of entries
    that Macros.v expands.

    Simplifications: the tokens that [syn::Expr] reads as one expression are one
    token here, [XExpr]; an identifier carries the expression that it is when it
    stands for one (a variable or a variant name); [XOther] is any other token, one
    that begins no expression. A keyword is not an identifier. Messages and spans
    are left out. *)
From Verif Require Import Base Env Chrono Types Parser Components Macros Generator.

Inductive tok :=
| XIdent (k : str) (e : uexpr) | XExpr (e : uexpr) | XComma | XColon | XAt | XOther
| XBrace (l : list tok) | XBracket (l : list tok).
(** The number of tokens, those inside the brackets and the brackets themselves included. *)
Fixpoint size (t : tok) : nat :=
  match t with XBrace l | XBracket l => S (S (fold_right (fun t n => (size t + n)%nat) 0%nat l)) | _ => 1%nat end.
Definition sizes (l : list tok) : nat := fold_right (fun t n => (size t + n)%nat) 0%nat l.

(** macros.rs:36-70 [Map::parse], 121-146 [Value::parse] and [parse_terminated] in syn; the first argument bounds the depth of the calls, and
    [parse_entries] gives enough. *)
Fixpoint parse_map (n : nat) (ts : list tok) : gen (list (str * value)) :=
  match n with
  | O => GPanic
  | S n =>
      match ts with
      | [] => GOk []
      | XIdent k _ :: r =>
          match r with
          | XComma :: r' => gbind (parse_map n r') (fun m => GOk ((k, VNone) :: m))
          | XColon :: r' => gbind (parse_value n r') (fun '(v, q) =>
              gbind (parse_map n (match q with XComma :: q' => q' | _ => q end)) (fun m => GOk ((k, v) :: m)))
          | _ => GError
          end
      | _ => GPanic
      end
  end
with parse_value (n : nat) (ts : list tok) : gen (value * list tok) :=
  match n with
  | O => GPanic
  | S n =>
      match ts with
      | XBrace c :: r => gbind (parse_map n c) (fun m => GOk (VObject m, r))
      | XBracket c :: r => gbind (parse_items n c) (fun l => GOk (VCollection l, r))
      | XIdent _ e :: r | XExpr e :: r => GOk (VSingle e, r) (* macros.rs:148-160 [parse_value] *)
      | _ => GPanic
      end
  end
with parse_items (n : nat) (ts : list tok) : gen (list value) :=
  match n with
  | O => GPanic
  | S n =>
      match ts with
      | [] => GOk []
      | _ => gbind (parse_value n ts) (fun '(v, q) =>
          match q with
          | [] => GOk [v]
          | XComma :: q' => gbind (parse_items n q') (fun l => GOk (v :: l))
          | _ => GError
          end)
      end
  end.
Definition parse_entries (ts : list tok) : gen (list (str * value)) := parse_map (S (sizes ts)) ts.

Section Env.
Context {E : Env} (scope : str -> option typed).
(** derive/src/lib.rs:24-35: [vevent! { ts }] and the others; a syntax error is unwrapped, so either way the program does not compile *)
Definition macro_call (s : strct) (ts : list tok) : option (outcome (rec_of s)) :=
  match parse_entries ts with GOk m => macro_value scope s m | _ => None end.
(** src/lib.rs:120-124: [valarm! { ts }] *)
Definition valarm_call (ts : list tok) : option (outcome valarm) :=
  match ts with
  | XAt :: XIdent k _ :: XComma :: r =>
      match parse_entries r with
      | GOk m => if str_eqb k (lit "audio") then valarm_macro scope KAudio m
                 else if str_eqb k (lit "display") then valarm_macro scope KDisplay m
                 else if str_eqb k (lit "email") then valarm_macro scope KEmail m
                 else None
      | _ => None end
  | _ => None
  end.
End Env.
