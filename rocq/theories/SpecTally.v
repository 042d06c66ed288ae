(** * SpecTally: what becomes of an expression, from digit counts and values.

    Every part of the expression is known by its number of digits, leading zeros included,
    and its value (SpecCount.v).  Nothing here mentions the modelled code. *)
From Coq Require Import ZArith NArith List Bool.
From Verif Require Import Base Digit Spec SpecMul SpecHist SpecCount SpecCalc.
From Verif Require Import Expr SpecExpr.
Import ListNotations.
Open Scope Z_scope.

Inductive fate :=
| Value (c : cell)      (* this many digits, this value *)
| Refused               (* a text that is no number *)
| Stop (w : panic).

(** The registers before an operation: the first operand in register 0, the second in 1. *)
Definition operands (c d : cell) : cells := fun k => match k with O => c | _ => d end.
(** An operation of known outcome ([charted], [goes], [says], [after]: SpecCount.v). *)
Definition operation (t : dty) (s : step) (c d : cell) (o : fate) : Prop :=
  typed t s /\ charted t s (operands c d)
  /\ (goes t s (operands c d) /\ o = Value (after t s (operands c d) O)
      \/ ~ goes t s (operands c d) /\ o = Stop (says t s (operands c d))).

(** [P] for the value; anything else decides *)
Definition then_ (p : fate) (P : cell -> Prop) (o : fate) : Prop :=
  match p with Value c => P c | _ => o = p end.
Definition of_two (t : dty) (s : step) (P Q : fate -> Prop) (o : fate) : Prop :=
  exists p, P p /\ then_ p (fun c => exists q, Q q /\ then_ q (fun d => operation t s c d o) o) o.
Definition of_one (t : dty) (s : step) (P : fate -> Prop) (o : fate) : Prop :=
  exists p, P p /\ then_ p (fun c => operation t s c c o) o.

Fixpoint comes_to (t : dty) (e : expr) (o : fate) : Prop :=
  match e with
  | Lit s => (exists v, literal s v /\ o = Value (Cell (places (radix t) v) v)) \/ no_literal s /\ o = Refused
  | Plus a b => of_two t (SAdd 0 1) (comes_to t a) (comes_to t b) o
  | Minus a b => of_two t (SSub 0 1) (comes_to t a) (comes_to t b) o
  | Times a b => of_two t (SMul 0 1) (comes_to t a) (comes_to t b) o
  | Over a b => of_two t (SDiv 0 1) (comes_to t a) (comes_to t b) o
  | Modulo a b => of_two t (SRem 0 1) (comes_to t a) (comes_to t b) o
  | Power a n => of_one t (SPow 0 n) (comes_to t a) o
  | ShiftL a n => of_one t (SShl 0 n) (comes_to t a) o
  | ShiftR a n => of_one t (SShr 0 n) (comes_to t a) o
  end.

(** The integer an expression stands for. *)
Fixpoint integer (e : expr) (v : Z) : Prop :=
  let two a b f := exists p q, integer a p /\ integer b q /\ v = f p q in
  let one a f := exists p, integer a p /\ v = f p in
  match e with
  | Lit s => literal s v
  | Plus a b => two a b Z.add
  | Minus a b => two a b Z.sub
  | Times a b => two a b Z.mul
  | Over a b => two a b Z.div
  | Modulo a b => two a b Z.modulo
  | Power a n => one a (fun p => p ^ Z.of_N n)
  | ShiftL a n => one a (fun p => p * 2 ^ n)
  | ShiftR a n => one a (fun p => p / 2 ^ n)
  end.

(** No divisor has leading zeros. *)
Fixpoint tight_divisors (t : dty) (e : expr) : Prop :=
  match e with
  | Lit _ => True
  | Plus a b | Minus a b | Times a b => tight_divisors t a /\ tight_divisors t b
  | Over a b | Modulo a b => tight_divisors t a /\ tight_divisors t b
      /\ forall d, comes_to t b (Value d) -> tight (radix t) d
  | Power a _ | ShiftL a _ | ShiftR a _ => tight_divisors t a
  end.

(** Expressions of operations whose outcome is always known; divisors are texts of
    single digits. *)
Fixpoint simple (t : dty) (e : expr) : Prop :=
  match e with
  | Lit s => (exists v, literal s v) \/ no_literal s
  | Plus a b | Minus a b | Times a b => simple t a /\ simple t b
  | Over a b | Modulo a b => simple t a /\ exists s w, b = Lit s /\ literal s w /\ w < radix t
  | Power a n => simple t a /\ (n <= 1)%N
  | ShiftL a n => simple t a /\ 0 <= n /\ (is_binary t = true \/ one_pass (radix t) n = true)
  | ShiftR a n => simple t a /\ 0 <= n
  end.

(** The text of a number of that many digits and that value: without leading zeros the
    canonical one; otherwise a zero followed by all places of the other digits. *)
Definition text_base (t : dty) : Z := if is_binary t then 16 else 10.
Definition cell_text (t : dty) (c : cell) (s : list Z) : Prop :=
  (tight (radix t) c /\ canonical (is_binary t) s (worth c))
  \/ (~ tight (radix t) c /\ exists u, s = (if is_binary t then hex_prefix else []) ++ 48 :: u
       /\ text_base t ^ Z.of_nat (length u) = radix t ^ (Z.of_nat (width c) - 1)
       /\ Forall (char_of_base (text_base t)) u /\ numeral_value (text_base t) u = worth c /\ lower_case u).
