(** * SpecBz: when the recursive division stops because a multiplication in it does.

    Nothing here mentions the modelled code.  As in SpecDiv, [a], of [2 * n] digits,
    is divided by [b], of [n] digits; with [h] half of [n], each of the two steps
    divides a number [c] of [3 * h] digits by [b]: a guess of the quotient is made
    from the upper parts of [c] and [b], and multiplied by the lower half of [b]. *)
From Coq Require Import ZArith List Bool.
From Verif Require Import Digit Spec SpecDiv SpecMul SpecToom.
From Verif Require SpecDec.
Import ListNotations.
Open Scope Z_scope.

(** The upper two thirds of [c] divided by the upper half of [b], or the largest number
    of [h] digits if the quotient does not fit in [h] digits. *)
Definition guess (B : Z) (h : nat) (c b : Z) : Z :=
  if c / B ^ Z.of_nat (2 * h) <? b / B ^ Z.of_nat h
  then (c / B ^ Z.of_nat h) / (b / B ^ Z.of_nat h)
  else B ^ Z.of_nat h - 1.

(** Some multiplication in the division of [a] by [b] stops. *)
Inductive block_jam (B : Z) : nat -> Z -> Z -> Prop :=
| block_jam_here h a b c : (20 <= 2 * h)%nat ->
    c = a / B ^ Z.of_nat h \/ c = a mod (b * B ^ Z.of_nat h) ->
    jam_at B (guess B h c b) (b mod B ^ Z.of_nat h) ->
    block_jam B (2 * h) a b
| block_jam_half h a b c : (20 <= 2 * h)%nat ->
    c = a / B ^ Z.of_nat h \/ c = a mod (b * B ^ Z.of_nat h) ->
    c / B ^ Z.of_nat (2 * h) < b / B ^ Z.of_nat h ->
    block_jam B h (c / B ^ Z.of_nat h) (b / B ^ Z.of_nat h) ->
    block_jam B (2 * h) a b.

Definition recursive_jam : dty -> list Z -> list Z -> Prop := some_block block_jam.

(** Where the division of [x] by [y] is right.  For binary types this is exact. *)
Definition division_right (t : dty) (x y : list Z) : Prop :=
  length y = 1%nat
  \/ (length y < 20)%nat /\ divides t x y
  \/ (20 <= length y)%nat /\ ~ recursive_jam t x y
     /\ if is_binary t then ~ recursive_tie t x y else scales t (length y) (num t y) /\ ~ recursive_open t x y.

(** Converting [v] to decimal, some division that cuts off a piece (SpecDec.v) stops, *)
Definition cut_jams (t : dty) (v : Z) : Prop := exists x y,
  well_formed t x /\ well_formed t y /\ SpecDec.piece t v (num t x) /\ SpecDec.cut t (num t x) (num t y)
  /\ (20 <= length y)%nat /\ recursive_jam t x y.
(** or a square on the way to the powers of ten needed does. *)
Definition scale_jams (t : dty) (v : Z) : Prop := exists n i,
  16 <= n /\ radix t ^ (n - 1) <= v < radix t ^ n /\ 0 <= i
  /\ 3 * (SpecDec.group_places t * 2 ^ i) < SpecDec.estimate t n
  /\ let p := 10 ^ (SpecDec.group_places t * 2 ^ i) in jam_at (radix t) p p.
