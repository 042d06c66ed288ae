(** * SpecDiv: when the division code is right, in terms of integers only.

    Nothing here mentions the modelled code. *)
From Coq Require Import ZArith List Bool.
From Verif Require Import Digit Spec.
Import ListNotations.
Open Scope Z_scope.

(** The leading digit of [v], read as a number of [n] digits. *)
Definition leading (t : dty) (n : nat) (v : Z) : Z := v / radix t ^ Z.of_nat (n - 1).

(** Doubling a number of [n] digits adds no digit before doubling its leading
    digit does.  Always true for a base that is a power of two. *)
Definition scales (t : dty) (n : nat) (v : Z) : Prop :=
  forall s, 0 <= s -> leading t n v * 2 ^ s < radix t -> v * 2 ^ s < radix t ^ Z.of_nat n.

(** [s] is the number of times [v] can be doubled before its leading digit overflows. *)
Definition scaling (t : dty) (n : nat) (v s : Z) : Prop :=
  0 <= s /\ leading t n v * 2 ^ s < radix t <= leading t n v * 2 ^ (s + 1).

(** In the schoolbook division of [x] by [y], both scaled, some partial remainder
    starts with the leading digit of the divisor. *)
Definition tie (t : dty) (x y : list Z) : Prop :=
  exists s i, scaling t (length y) (num t y) s /\ (1 <= i <= length x - length y)%nat
    /\ leading t (length y) ((num t x * 2 ^ s / radix t ^ Z.of_nat i) mod (num t y * 2 ^ s))
       = leading t (length y) (num t y * 2 ^ s).

(** The condition under which big numbers are divided correctly. *)
Definition divides (t : dty) (x y : list Z) : Prop :=
  if is_binary t then ~ tie t x y else scales t (length y) (num t y).

(** Floor quotient and remainder. *)
Definition euclid (x y q r : Z) : Prop := x = q * y + r /\ 0 <= r < y.

(** ** Recursive division (divisors of 20 digits and more)

    [a], of [2 * n] digits, is divided by [b], of [n] digits: while [n] is 20 or
    more in two steps, each dividing the upper two thirds of its dividend by the
    upper half of [b]; then by schoolbook division. [block_tie] says that some
    schoolbook division in there has a partial remainder that starts with the
    leading digit of its divisor. *)
Inductive block_tie (B : Z) : nat -> Z -> Z -> Prop :=
| block_tie_base n a b i : (n < 20)%nat -> (1 <= i <= n)%nat ->
    (a / B ^ Z.of_nat i) mod b / B ^ Z.of_nat (n - 1) = b / B ^ Z.of_nat (n - 1) ->
    block_tie B n a b
| block_tie_half h a b c : (20 <= 2 * h)%nat ->
    c = a / B ^ Z.of_nat h \/ c = a mod (b * B ^ Z.of_nat h) ->
    c / B ^ Z.of_nat (2 * h) < b / B ^ Z.of_nat h ->
    block_tie B h (c / B ^ Z.of_nat h) (b / B ^ Z.of_nat h) ->
    block_tie B (2 * h) a b.

(** The same, but it is the dividend of some schoolbook division that starts with the
    leading digit of its divisor. *)
Inductive block_open (B : Z) : nat -> Z -> Z -> Prop :=
| block_open_base n a b : (n < 20)%nat ->
    a / B ^ Z.of_nat (2 * n - 1) = b / B ^ Z.of_nat (n - 1) ->
    block_open B n a b
| block_open_half h a b c : (20 <= 2 * h)%nat ->
    c = a / B ^ Z.of_nat h \/ c = a mod (b * B ^ Z.of_nat h) ->
    c / B ^ Z.of_nat (2 * h) < b / B ^ Z.of_nat h ->
    block_open B h (c / B ^ Z.of_nat h) (b / B ^ Z.of_nat h) ->
    block_open B (2 * h) a b.

(** A divisor of [nd] digits is padded to [n] digits: the least multiple [j * 2 ^ k]
    of a power of two that is no less than [nd], where [2 ^ k] is the least power of
    two such that 20 times it is no less than [nd]. *)
Definition padded (nd n : nat) : Prop := exists j k,
  n = (j * 2 ^ k)%nat /\ (nd <= n < nd + 2 ^ k)%nat
  /\ (nd <= 20 * 2 ^ k)%nat /\ (k = 0%nat \/ 20 * 2 ^ (k - 1) < nd)%nat.

(** In the recursive division of [x] by [y], both scaled and padded, block by block
    of [n] digits from the top, some block ties, or opens with a tie. *)
Definition some_block (T : Z -> nat -> Z -> Z -> Prop) (t : dty) (x y : list Z) : Prop :=
  exists s n i, scaling t (length y) (num t y) s /\ padded (length y) n
    /\ (i * n <= length x - length y)%nat
    /\ let scaled v := v * 2 ^ s * radix t ^ Z.of_nat (n - length y) in
       T (radix t) n
         ((scaled (num t x) / radix t ^ Z.of_nat (i * n)) mod (scaled (num t y) * radix t ^ Z.of_nat n))
         (scaled (num t y)).
Definition recursive_tie : dty -> list Z -> list Z -> Prop := some_block block_tie.
Definition recursive_open : dty -> list Z -> list Z -> Prop := some_block block_open.
