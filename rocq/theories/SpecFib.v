(** * SpecFib: the Fibonacci numbers.  Nothing here mentions the modelled code. *)
From Coq Require Import ZArith.
Open Scope Z_scope.

Fixpoint fib (n : nat) : Z :=
  match n with
  | O => 0
  | S m => match m with O => 1 | S p => fib p + fib m end
  end.
