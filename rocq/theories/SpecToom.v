(** * SpecToom: for which numbers multiplication stops, at any size.

    Independent of the model: only lengths and values of numbers are used.
    Toom-3 multiplication (src/ubig/mul/toom3.rs) is used when both numbers have
    at least 128 digits.  It cuts each number into three pieces of s digits,
    a0 + a1 X + a2 X^2 with X = B^s, takes the values at the points
    1, -1, -2, 0 and infinity, multiplies these, and puts the product together
    again.  Signed differences are formed by comparing the lengths of the two
    numbers first, and a number may have leading zeros. *)
From Coq Require Import ZArith Bool.
From Verif Require Import SpecMul.
Open Scope Z_scope.

(** A signed number as it is kept: sign, number of digits, absolute value. *)
Record sample := Sample { negative : bool; count : nat; size : Z }.

(** [k] digits, and one more when the value does not fit *)
Definition wide (B : Z) (k : nat) (v : Z) : nat := if v <? B ^ Z.of_nat k then k else S k.

(** Of v (m digits) and w (n digits) the smaller one is subtracted from the
    larger one, but the smaller one is taken for the larger one. *)
Definition misread (m : nat) (v : Z) (n : nat) (w : Z) : Prop :=
  if precedes m v n w then w < v else v < w.
Definition confused (x y : sample) : Prop := misread (count x) (size x) (count y) (size y).

Section Samples.
Variable B : Z.

Definition plus (neg : bool) (x y : sample) : sample :=
  Sample neg (wide B (Nat.max (count x) (count y)) (size x + size y)) (size x + size y).
Definition twice (x : sample) : sample :=
  Sample (negative x) (wide B (count x) (2 * size x)) (2 * size x).

(** the difference written to a third place, and in the place of x *)
Definition minus (x y : sample) : sample :=
  let lt := precedes (count x) (size x) (count y) (size y) in
  Sample lt (if lt then left_over B (count y) (size y) (count x) (size x)
             else left_over B (count x) (size x) (count y) (size y)) (Z.abs (size x - size y)).
Definition minus_in_place (x y : sample) : sample :=
  let lt := precedes (count x) (size x) (count y) (size y) in
  Sample lt (if lt then places B (size y - size x)
             else left_over B (count x) (size x) (count y) (size y)) (Z.abs (size x - size y)).

(** ** The values of a0 + a1 X + a2 X^2 *)
Variables p0 p1 p2 : sample.

Definition ends : sample := plus false p0 p2.
Definition at_one : sample := plus false ends p1.
Definition at_minus_one : sample := minus_in_place ends p1.
(** half the value at -2 without a0: the value at -1 plus a2 *)
Definition half_way : sample :=
  if negative at_minus_one then minus p2 at_minus_one else plus false at_minus_one p2.
Definition at_minus_two : sample :=
  if negative half_way then plus true (twice half_way) p0 else minus_in_place (twice half_way) p0.

(** One of the three subtractions goes the wrong way. *)
Definition lost : Prop :=
  confused ends p1
  \/ negative at_minus_one = true /\ confused p2 at_minus_one
  \/ negative half_way = false /\ confused (twice half_way) p0.
End Samples.

(** ** A number cut in three *)
Definition third (m n : nat) : nat := (Nat.max m n + 2) / 3.

Definition piece (B : Z) (v : Z) : sample := Sample false (places B v) v.
Definition piece0 (B : Z) (v : Z) (s : nat) : sample := piece B (lower B v s).
Definition piece1 (B : Z) (v : Z) (s : nat) : sample := piece B (lower B (upper B v s) s).
Definition piece2 (B : Z) (m : nat) (v : Z) (s : nat) : sample :=
  Sample false (m - 2 * s) (upper B v (2 * s)).

Inductive point := One | MinusOne | MinusTwo | Zero | Infinity.
Definition sample_at (B : Z) (m : nat) (v : Z) (s : nat) (x : point) : sample :=
  let p0 := piece0 B v s in
  let p1 := piece1 B v s in
  let p2 := piece2 B m v s in
  match x with
  | One => at_one B p0 p1 p2
  | MinusOne => at_minus_one B p0 p1 p2
  | MinusTwo => at_minus_two B p0 p1 p2
  | Zero => p0
  | Infinity => p2
  end.
Definition goes_wrong (B : Z) (m : nat) (v : Z) (s : nat) : Prop :=
  lost B (piece0 B v s) (piece1 B v s) (piece2 B m v s).

(** ** Putting the product together.  The products at -1 and -2 are signed; all
    five are kept without leading zeros. *)
Section Together.
Variable B : Z.
Variables r0 r1 rm1 rm2 : Z.
Variables s1 s2 : bool.     (* the signs kept for the products at -1 and -2 *)

(** (product at -2 minus product at 1) / 3 *)
Definition step3 : sample :=
  let d := ((if s2 then - rm2 else rm2) - r1) / 3 in
  Sample (s2 || (rm2 <? r1)) (places B (Z.abs d)) (Z.abs d).
(** product at -1 minus product at 0 *)
Definition step2 : sample :=
  if s1 then plus B true (piece B rm1) (piece B r0) else minus_in_place B (piece B rm1) (piece B r0).
(** these two are subtracted *)
Definition together_lost : Prop :=
  negative step2 = negative step3 /\ confused step3 step2.
End Together.

Definition product_at (B : Z) (m : nat) (v : Z) (n : nat) (w : Z) (x : point) : Z :=
  size (sample_at B m v (third m n) x) * size (sample_at B n w (third m n) x).
Definition sign_at (B : Z) (m : nat) (v : Z) (n : nat) (w : Z) (x : point) : bool :=
  xorb (negative (sample_at B m v (third m n) x)) (negative (sample_at B n w (third m n) x)).
Definition not_together (B : Z) (m : nat) (v : Z) (n : nat) (w : Z) : Prop :=
  together_lost B (product_at B m v n w Zero) (product_at B m v n w One)
    (product_at B m v n w MinusOne) (product_at B m v n w MinusTwo)
    (sign_at B m v n w MinusOne) (sign_at B m v n w MinusTwo).

(** ** Multiplying v (m digits) by w (n digits) stops. *)
Definition large (m n : nat) : Prop := (128 <= m)%nat /\ (128 <= n)%nat.

Inductive jam (B : Z) : nat -> Z -> nat -> Z -> Prop :=
| jam_small m v n w : (m < 128)%nat \/ (n < 128)%nat -> stuck B m v n w -> jam B m v n w
| jam_first m v n w : large m n -> goes_wrong B m v (third m n) -> jam B m v n w
| jam_second m v n w : large m n -> goes_wrong B n w (third m n) -> jam B m v n w
| jam_inside m v n w x : large m n ->
    (let a := sample_at B m v (third m n) x in
     let b := sample_at B n w (third m n) x in jam B (count a) (size a) (count b) (size b)) ->
    jam B m v n w
| jam_together m v n w : large m n -> not_together B m v n w -> jam B m v n w.

(** The same for two numbers without leading zeros. *)
Definition jam_at (B v w : Z) : Prop := jam B (places B v) v (places B w) w.

(** Raising v to the power e multiplies v^(2^i) by itself as long as 2^(i+1) <= e,
    and for each binary digit i >= 1 of e that is one, v^(e mod 2^i) by v^(2^i).
    One of these multiplications stops. *)
Definition jam_power (B v e : Z) : Prop := exists i,
  0 <= i /\ 2 ^ (i + 1) <= e /\ jam_at B (v ^ 2 ^ i) (v ^ 2 ^ i)
  \/ 1 <= i /\ Z.testbit e i = true /\ jam_at B (v ^ (e mod 2 ^ i)) (v ^ 2 ^ i).
