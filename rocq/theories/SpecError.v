(** * Specification of the errors *)
From Verif Require Import Base SpecCal SpecDur SpecValue.

(** The text of an error: src/errors.rs:3-31 ([thiserror]). [foreign] gives the texts that other
    crates write: chrono's, the standard library's and nom's. *)
Definition error_text (foreign : error -> str) (e : error) : str :=
  match e with
  | EAlarm s => lit "Invalid alarm action: " ++ s
  | EFreq s => lit "Invalid freq " ++ s
  | EKey s => lit "Unknow key " ++ s
  | EParseDuration s => lit "Invalid duration: " ++ s
  | EPriority n => lit "Invalid priority: " ++ show_int n
  | EStatus s => lit "Unknow status " ++ s
  | ETimeTransparency s => lit "Unknow time transparency " ++ s
  | EWeekday s => lit "Invalid weekday " ++ s
  | EDate | ELocal | EParseInt | EParser | ESerialize => foreign e
  end.

(** Why a text is no duration. Nothing is wrong with [a], which is read first; [c] is the first character that stops the reader. *)
Inductive bad_duration : str -> error -> Prop :=
| no_P s : ~ (exists x, s = 80 :: x \/ s = 45 :: 80 :: x) -> bad_duration s (EParseDuration s)
| no_unit (neg : bool) a c b l : terms [] a l -> total l * sec <= longest ->
    is_number_char c = false -> c <> 84 -> ~ (exists k, unit_of (has_T a) c k) ->
    bad_duration ((if neg then [45] else []) ++ [80] ++ a ++ c :: b) (EParseDuration (digits_in a))
| no_number (neg : bool) a c b l k : terms [] a l -> total l * sec <= longest ->
    is_number_char c = false -> c <> 84 -> unit_of (has_T a) c k -> digits_in a = [] \/ 9223372036854775807 < value_of (digits_in a) ->
    bad_duration ((if neg then [45] else []) ++ [80] ++ a ++ c :: b) EParseInt.

(** The errors that the macros give. *)
Definition macro_error (e : error) : Prop := e = EDate \/ e = EParser \/ e = EParseInt \/ exists s, e = EParseDuration s.
(** The errors that no public function gives. *)
Definition never_given (e : error) : Prop :=
  (exists s, e = EAlarm s \/ e = EKey s \/ e = EWeekday s) \/ (exists n, e = EPriority n) \/ e = ESerialize.
