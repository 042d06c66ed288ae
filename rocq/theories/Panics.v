(** * Panics: the messages of panics, and the derived traits of [Error].

    The texts of [unwrap] and [unimplemented!] are those of the standard library.  Messages that
    the compiler writes with line numbers, indices or source text are left out ([None]).

    No proofs in this file. *)
From Coq Require Import ZArith String List Bool.
From Verif Require Import Base Traits.
Open Scope string_scope.

(** src/result.rs:16: derived [Debug] *)
Definition error_debug (e : error) : string :=
  match e with
  | InvalidNumber => "InvalidNumber"
  | Underflow => "Underflow"
  | DivisionByZero => "DivisionByZero"
  | NoSpace => "NoSpace"
  end.

(** src/result.rs:16: derived [PartialEq] *)
Definition error_eqb (e e' : error) : bool :=
  match e, e' with
  | InvalidNumber, InvalidNumber | Underflow, Underflow
  | DivisionByZero, DivisionByZero | NoSpace, NoSpace => true
  | _, _ => false
  end.

(** The families of operators; only the first three have a message of their own. *)
Inductive family := Subtraction | Division | Remainder | Another.

(** src/ubig/ops.rs:839, 869, 891 ([-]); 195, 223, 245 ([/]); 526, 568, 590, 614 ([%]) *)
Definition failed (o : family) : option string :=
  match o with
  | Subtraction => Some "Failed to subtract: "
  | Division => Some "Failed to perform division: "
  | Remainder => Some "Failed to compute remainder: "
  | Another => None
  end.

(** What a panic with cause [w] inside an operator of family [o] prints. *)
Definition message (o : family) (w : panic) : option string :=
  match w with
  | PExplicit e => option_map (fun p => p ++ error_text e) (failed o)
  | PUnwrap e => Some ("called `Result::unwrap()` on an `Err` value: " ++ error_debug e)
  | PSpace => Some "Not enough space to store the result"
  | PUnimplemented => Some "not implemented"
  | _ => None
  end.

(** The message that a run ends with. *)
Definition printed {A} (o : family) (m : M A) : option string :=
  match m with Panic w => message o w | _ => None end.
