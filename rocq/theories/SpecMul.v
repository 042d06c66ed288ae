(** * SpecMul: for which numbers Karatsuba multiplication stops.

    Independent of the model: only lengths and values of numbers are used.  A
    number is given as a pair (length m, value v) with v < B^m; it may have
    leading zeros.  Karatsuba multiplication (src/ubig/mul/karatsuba.rs) cuts
    both numbers at position s, half the longer length, and subtracts the two
    pieces of each number from one another.  The comparison that decides which
    one to subtract looks at the lengths first. *)
From Coq Require Import ZArith.
Open Scope Z_scope.

(** the number of digits of [v] in base [B], without leading zeros *)
Fixpoint places_in (fuel : nat) (B v : Z) : nat :=
  match fuel with
  | O => O
  | S f => if v =? 0 then O else S (places_in f B (v / B))
  end.
Definition places (B v : Z) : nat := places_in (S (Z.to_nat (Z.log2 v))) B v.

Definition lower (B v : Z) (s : nat) : Z := v mod B ^ Z.of_nat s.
Definition upper (B v : Z) (s : nat) : Z := v / B ^ Z.of_nat s.

(** The smaller piece is taken for the larger one: the upper piece has [m - s]
    digits, more than the lower piece, but some are leading zeros, and its value
    is smaller. *)
Definition hidden (B : Z) (m : nat) (v : Z) (s : nat) : Prop :=
  (places B (lower B v s) < m - s)%nat /\ upper B v s < lower B v s.

(** The length kept for the difference of v (m digits) and w (n digits, not more
    than m).  When the digit-wise subtraction borrows from the part of v above
    position n, only the last digit of that part is looked at, so leading zeros
    may remain. *)
Definition left_over (B : Z) (m : nat) (v : Z) (n : nat) (w : Z) : nat :=
  if lower B v n <? w
  then if upper B v n =? B ^ Z.of_nat (m - n - 1) then (m - 1)%nat else m
  else places B (v - w).

(** the length kept for the difference of the two pieces of v *)
Definition gap (B : Z) (m : nat) (v : Z) (s : nat) : nat :=
  let low := lower B v s in
  let high := upper B v s in
  if ((places B low <? m - s)%nat || (low <? high))%bool
  then left_over B (m - s) high (places B low) low
  else left_over B (places B low) low (m - s) high.

Definition apart (B v : Z) (s : nat) : Z := Z.abs (lower B v s - upper B v s).

(** Karatsuba is used when both numbers have at least 20 digits (and one of them
    fewer than 128). *)
Definition both (m n : nat) : Prop := (20 <= m)%nat /\ (20 <= n)%nat.
Definition half (m n : nat) : nat := Nat.div2 (Nat.max m n + 1).

(** Multiplying v (m digits) by w (n digits) stops. *)
Inductive stuck (B : Z) : nat -> Z -> nat -> Z -> Prop :=
| stuck_first m v n w : both m n -> hidden B m v (half m n) -> stuck B m v n w
| stuck_second m v n w : both m n -> hidden B n w (half m n) -> stuck B m v n w
| stuck_between m v n w : let s := half m n in both m n ->
    stuck B (gap B m v s) (apart B v s) (gap B n w s) (apart B w s) -> stuck B m v n w
| stuck_lower m v n w : let s := half m n in both m n ->
    stuck B (places B (lower B v s)) (lower B v s) (places B (lower B w s)) (lower B w s) ->
    stuck B m v n w
| stuck_upper m v n w : let s := half m n in both m n ->
    stuck B (m - s) (upper B v s) (n - s) (upper B w s) -> stuck B m v n w.

(** Numbers are compared by their number of digits first: v (m digits) is taken
    to be below w (n digits). *)
Definition precedes (m : nat) (v : Z) (n : nat) (w : Z) : bool :=
  ((m <? n)%nat || ((m =? n)%nat && (v <? w)))%bool.
