(** * Traits: the arithmetic traits of single digits, the accessors of numbers and the
    texts of errors.

    No proofs in this file. *)
From Coq Require Import ZArith String List Bool.
From Verif Require Import Base Digit Slice UBig.
Import ListNotations.
Open Scope Z_scope.

Section Digits.
Variable dbg : bool.
Variable t : dty.

(** src/digit.rs:414-427, 864-877 and 429-437, 879-887 *)
Definition digit_zero : Z := 0.
Definition digit_is_zero (d : Z) : bool := d =? 0.
Definition digit_one : Z := 1.

(** src/digit.rs:439-447, 889-897: [+] of the storage type *)
Definition digit_add (d e : Z) : M Z := w_add dbg (bits t) d e.
(** src/digit.rs:449-457, 899-907: [*] of the storage type *)
Definition digit_mul (d e : Z) : M Z := w_mul dbg (bits t) d e.
End Digits.

(** src/ubig.rs:58-61 *)
Definition nr_digits (self : digits) : nat := length self.
(** src/ubig.rs:64-67 *)
Definition digits_of (self : digits) : digits := self.

(** src/result.rs:29-41 *)
Definition error_text (e : error) : string :=
  match e with
  | InvalidNumber => "Invalid number"
  | Underflow => "Underflow"
  | DivisionByZero => "Division by zero"
  | NoSpace => "Not enough space to store the result"
  end%string.
