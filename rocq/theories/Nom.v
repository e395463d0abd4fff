(** * The nom 8 combinators that /repo/src/parser uses ("complete" versions, on
    [&str]). /repo/Cargo.toml:17 asks for nom 8; nom is not vendored, these
    definitions follow its documentation and source as known to the author.

    Error payloads ([VerboseError]) are dropped: /repo only renders them into
    [Error::Parser] (src/errors.rs:33-37). No parser of /repo builds a
    [nom::Err::Failure], so one error constructor is enough. [context] only adds
    to the payload and is the identity here. *)
From Verif Require Import Base.

(** Remaining input and value; a recoverable error; a panic. *)
Inductive pres (A : Type) := POk (rest : str) (a : A) | PErr | PPanic.
Arguments POk {A} rest a. Arguments PErr {A}. Arguments PPanic {A}.

Definition parser (A : Type) := str -> pres A.

(** Sequencing (tuples, [?]). *)
Definition pbind {A B} (p : parser A) (f : A -> parser B) : parser B :=
  fun s => match p s with POk r a => f a r | PErr => PErr | PPanic => PPanic end.
Notation "'do' x '<-' p ';;' q" := (pbind p (fun x => q))
  (at level 200, x pattern, p at level 100, q at level 200).
Definition pret {A} (a : A) : parser A := fun s => POk s a.

(** [tag(t)] *)
Definition tag (t : str) : parser str :=
  fun s => match strip_prefix t s with Some r => POk r t | None => PErr end.
(** [char(c)] *)
Definition pchar (c : char) : parser char :=
  fun s => match s with x :: r => if x =? c then POk r c else PErr | [] => PErr end.
(** [anychar] *)
Definition anychar : parser char :=
  fun s => match s with x :: r => POk r x | [] => PErr end.

Fixpoint span (f : char -> bool) (s : str) : str * str :=
  match s with
  | x :: r => if f x then let (a, b) := span f r in (x :: a, b) else ([], s)
  | [] => ([], [])
  end.
(** [take_while(f)] *)
Definition take_while (f : char -> bool) : parser str :=
  fun s => let (a, b) := span f s in POk b a.
(** [take_till(f)] *)
Definition take_till (f : char -> bool) : parser str := take_while (fun c => negb (f c)).

(** [opt(p)] *)
Definition popt {A} (p : parser A) : parser (option A) :=
  fun s => match p s with
           | POk r a => POk r (Some a) | PErr => POk s None | PPanic => PPanic end.
(** [not(p)] *)
Definition pnot {A} (p : parser A) : parser unit :=
  fun s => match p s with POk _ _ => PErr | PErr => POk s tt | PPanic => PPanic end.
(** [alt((p, q))] *)
Definition palt {A} (p q : parser A) : parser A :=
  fun s => match p s with PErr => q s | r => r end.
(** [map(p, f)] *)
Definition pmap {A B} (p : parser A) (f : A -> B) : parser B := do a <- p ;; pret (f a).
(** [map_res(p, f)]: an [Err] of [f] becomes a recoverable error; a panic of [f]
    is a panic. *)
Definition pmap_res {A B} (p : parser A) (f : A -> outcome B) : parser B :=
  do a <- p ;; fun s => match f a with Ok b => POk s b | Err _ => PErr | Panic => PPanic end.
(** [preceded], [terminated], [delimited], [separated_pair] *)
Definition preceded {A B} (p : parser A) (q : parser B) : parser B := do _ <- p ;; q.
Definition terminated {A B} (p : parser A) (q : parser B) : parser A :=
  do a <- p ;; do _ <- q ;; pret a.
Definition delimited {A B C} (p : parser A) (q : parser B) (r : parser C) : parser B :=
  do _ <- p ;; do b <- q ;; do _ <- r ;; pret b.
Definition separated_pair {A B C} (p : parser A) (q : parser B) (r : parser C)
  : parser (A * C) := do a <- p ;; do _ <- q ;; do c <- r ;; pret (a, c).

(** [many0(p)]: repeats until an error; a success that consumes nothing is an
    error. The fuel is the number of chars left plus one, which cannot run out
    since every turn consumes at least one char (NomFacts.many0_eq). *)
Fixpoint many0_fuel {A} (fuel : nat) (p : parser A) : parser (list A) :=
  fun s =>
    match p s with
    | PErr => POk s []
    | PPanic => PPanic
    | POk r a =>
        if (length r =? length s)%nat then PErr
        else match fuel with
             | O => PErr
             | S f => match many0_fuel f p r with
                      | POk r' l => POk r' (a :: l)
                      | PErr => PErr
                      | PPanic => PPanic
                      end
             end
    end.
Definition many0 {A} (p : parser A) : parser (list A) :=
  fun s => many0_fuel (S (length s)) p s.
(** [fold_many0(p, init, f)] *)
Definition fold_many0 {A B} (p : parser A) (init : B) (f : B -> A -> B) : parser B :=
  pmap (many0 p) (fun l => fold_left f l init).
(** [many1(p)]: the first item is mandatory. *)
Definition many1 {A} (p : parser A) : parser (list A) :=
  do a <- p ;; do l <- many0 p ;; pret (a :: l).

(** [line_ending] *)
Definition line_ending : parser str := palt (tag [LF]) (tag CRLF).

(** [nom::character::complete::i8]: optional sign, at least one digit; overflow is
    an error. *)
Definition nom_i8 : parser Z :=
  do sg <- popt (palt (pmap (tag [45]) (fun _ => false)) (pmap (tag [43]) (fun _ => true))) ;;
  do ds <- take_while is_digit ;;
  fun s =>
    match ds with
    | [] => PErr
    | _ =>
        let v := digits_val ds in
        match sg with
        | Some false => if v <=? I8MAX + 1 then POk s (- v) else PErr
        | _ => if v <=? I8MAX then POk s v else PErr
        end
    end.

(** [IResult] to [crate::Result]: [.map_err(crate::Error::from).map(|(_, x)| x)]
    (src/errors.rs:33-37). *)
Definition pfinish {A} (r : pres A) : outcome A :=
  match r with POk _ a => Ok a | PErr => Err EParser | PPanic => Panic end.
