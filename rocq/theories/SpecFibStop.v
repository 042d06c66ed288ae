(** * SpecFibStop: for which indices the Fibonacci program stops.

    Independent of the model.  The program computes the pair F(m), F(m+1) from the
    pair F(h), F(h+1), where h is the half of m, by two multiplications by a Lucas
    number, and F(k) from the pair of the half of k-1 by one more. *)
From Coq Require Import ZArith Bool.
From Verif Require Import SpecFib SpecToom.
Open Scope Z_scope.

(** the Lucas numbers 2, 1, 3, 4, 7, ... *)
Fixpoint lucas (n : nat) : Z :=
  match n with
  | O => 2
  | S m => match m with O => 1 | S p => lucas p + lucas m end
  end.

(** one of the two multiplications that lead to F(m) and F(m+1) *)
Definition pair_stops (B : Z) (m : Z) : Prop :=
  let h := Z.to_nat (m / 2) in
  let l := lucas (if Z.even m then h else S h) in
  jam_at B (fib h) l \/ jam_at B (fib (S h)) l.

(** the last multiplication, that leads to F(k) *)
Definition last_stops (B : Z) (k : Z) : Prop :=
  let h := Z.to_nat ((k - 1) / 2) in
  jam_at B (lucas (if Z.even k then S h else h)) (fib (S h)).

Definition fib_stops (B : Z) (k : Z) : Prop :=
  2 <= k /\ (last_stops B k \/ exists i, 0 <= i /\ 0 < (k - 1) / 2 / 2 ^ i /\ pair_stops B ((k - 1) / 2 / 2 ^ i)).
