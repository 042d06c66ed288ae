(** * SpecExpr: the integers that expressions stand for. *)
From Coq Require Import ZArith List.
From Verif Require Import Base Digit Spec SpecDiv SpecMul SpecToom SpecBz SpecCalc Expr.
Import ListNotations.
Open Scope Z_scope.

(** The division of [v] by [w] is right ([division_right], SpecBz.v). *)
Definition divisible (t : dty) (v w : Z) : Prop :=
  0 < w /\ forall x y, well_formed t x -> well_formed t y -> num t x = v -> num t y = w -> division_right t x y.

(** The recursive division of [v] by [w] panics: a product jams or, for decimal types, an
    index is out of bounds. *)
Definition divide_stops (t : dty) (c : panic) (v w : Z) : Prop := exists x y,
  well_formed t x /\ well_formed t y /\ num t x = v /\ num t y = w /\ (20 <= length y)%nat
  /\ if is_binary t then c = PUnwrap Underflow /\ ~ recursive_tie t x y /\ recursive_jam t x y
     else scales t (length y) w
       /\ (c = PUnwrap Underflow /\ ~ recursive_open t x y /\ recursive_jam t x y
           \/ c = PIndex /\ recursive_open t x y /\ ~ recursive_jam t x y).

(** Raising [v] to the power [n] squares nothing of more than 1131 digits. *)
Definition moderate (t : dty) (v n : Z) : Prop :=
  forall i, 0 <= i -> 2 ^ (i + 1) <= n -> v ^ 2 ^ i < radix t ^ 1131.

(** A product on the way from [v] to [v * 2 ^ n] jams (decimal types only). *)
Definition shift_jams (t : dty) (v n : Z) : Prop := jam_power (radix t) 2 n \/ jam_at (radix t) v (2 ^ n).

(** The largest number of places by which [v] can be shifted to the right. *)
Definition shiftable (t : dty) (v n : Z) : Prop :=
  if is_binary t then n / bits t <= Z.of_nat (places (radix t) v) else n <= 4 * Z.of_nat (MAX_HEX_PLACES t).

(** [means t e v]: [e] stands for [v], no difference in it is negative, no product jams
    (SpecToom.v), every divisor, power and shift is as above. *)
Inductive means (t : dty) : expr -> Z -> Prop :=
| means_lit s v : literal s v -> means t (Lit s) v
| means_plus a b v w : means t a v -> means t b w -> means t (Plus a b) (v + w)
| means_minus a b v w : means t a v -> means t b w -> w <= v -> means t (Minus a b) (v - w)
| means_times a b v w : means t a v -> means t b w -> ~ jam_at (radix t) v w -> means t (Times a b) (v * w)
| means_over a b v w : means t a v -> means t b w -> divisible t v w -> means t (Over a b) (v / w)
| means_modulo a b v w : means t a v -> means t b w -> divisible t v w -> means t (Modulo a b) (v mod w)
| means_power a v n : means t a v -> moderate t v (Z.of_N n) -> ~ jam_power (radix t) v (Z.of_N n) ->
    means t (Power a n) (v ^ Z.of_N n)
| means_left a v n : means t a v -> 0 <= n ->
    (if is_binary t then v <> 0 \/ n < bits t else moderate t 2 n /\ ~ shift_jams t v n) ->
    means t (ShiftL a n) (v * 2 ^ n)
| means_right a v n : means t a v -> 0 <= n -> shiftable t v n -> means t (ShiftR a n) (v / 2 ^ n).

(** The first thing to go wrong, from left to right: a negative difference, a division by
    zero, a product that jams, a recursive division that stops, a shift to the right by too much. *)
Inductive stops (t : dty) : panic -> expr -> Prop :=
| stops_negative a b v w : means t a v -> means t b w -> v < w -> stops t (PExplicit Underflow) (Minus a b)
| stops_jam a b v w : means t a v -> means t b w -> jam_at (radix t) v w -> stops t (PUnwrap Underflow) (Times a b)
| stops_over a b v : means t a v -> means t b 0 -> stops t (PExplicit DivisionByZero) (Over a b)
| stops_modulo a b v : means t a v -> means t b 0 -> stops t (PExplicit DivisionByZero) (Modulo a b)
| stops_over_in c a b v w : means t a v -> means t b w -> divide_stops t c v w -> stops t c (Over a b)
| stops_modulo_in c a b v w : means t a v -> means t b w -> divide_stops t c v w -> stops t c (Modulo a b)
| stops_power a v n : means t a v -> moderate t v (Z.of_N n) -> jam_power (radix t) v (Z.of_N n) ->
    stops t (PUnwrap Underflow) (Power a n)
| stops_shift_left a v n : means t a v -> 0 <= n -> is_binary t = false -> moderate t 2 n -> shift_jams t v n ->
    stops t (PUnwrap Underflow) (ShiftL a n)
| stops_shift_right a v n : means t a v -> 0 <= n -> ~ shiftable t v n ->
    stops t (if is_binary t then PIndex else PUnimplemented) (ShiftR a n)
| stops_left c f a b : In f [Plus; Minus; Times; Over; Modulo] -> stops t c a -> stops t c (f a b)
| stops_right c f a b v : In f [Plus; Minus; Times; Over; Modulo] -> means t a v -> stops t c b -> stops t c (f a b)
| stops_power_in c a n : stops t c a -> stops t c (Power a n)
| stops_left_in c a n : stops t c a -> stops t c (ShiftL a n)
| stops_right_in c a n : stops t c a -> stops t c (ShiftR a n).

(** no differences *)
Fixpoint positive (e : expr) : Prop :=
  match e with
  | Lit _ => True
  | Minus _ _ => False
  | Plus a b | Times a b | Over a b | Modulo a b => positive a /\ positive b
  | Power a _ | ShiftL a _ | ShiftR a _ => positive a
  end.

(** sums and differences of terms without differences; no difference is subtracted *)
Fixpoint linear (e : expr) : Prop :=
  match e with
  | Plus a b => linear a /\ linear b
  | Minus a b => linear a /\ positive b
  | _ => positive e
  end.

(** the literals and the operators of an expression *)
Fixpoint every_literal (P : list Z -> Prop) (e : expr) : Prop :=
  match e with
  | Lit s => P s
  | Plus a b | Minus a b | Times a b | Over a b | Modulo a b => every_literal P a /\ every_literal P b
  | Power a _ | ShiftL a _ | ShiftR a _ => every_literal P a
  end.
(** only sums, differences, products and shifts to the right *)
Fixpoint undivided (e : expr) : Prop :=
  match e with
  | Lit _ => True
  | Plus a b | Minus a b | Times a b => undivided a /\ undivided b
  | ShiftR a n => undivided a /\ 0 <= n
  | Over _ _ | Modulo _ _ | Power _ _ | ShiftL _ _ => False
  end.
