(** * SpecTrim: expressions whose results cannot have leading zeros. *)
From Coq Require Import ZArith NArith List Bool.
From Verif Require Import Base Digit Spec SpecMul SpecCount.
From Verif Require Import Expr SpecTally.
Import ListNotations.
Open Scope Z_scope.

(** Only differences and shifts of zero make leading zeros; products, quotients and most
    powers and shifts remove them, the other operations hand them on. *)
Fixpoint trim (t : dty) (e : expr) : Prop :=
  match e with
  | Lit _ => True
  | Plus a b => trim t a /\ trim t b
  | Minus _ _ => False
  | Times _ _ | Over _ _ => True
  | Modulo a _ => trim t a
  | Power a n => if (n =? 1)%N then trim t a else True
  | ShiftL a n => if is_binary t then trim t a /\ 0 <= n < Z.log2 (radix t)
                  else if one_pass (radix t) n then trim t a /\ 0 <= n else True
  | ShiftR a n => if (is_binary t && (n mod Z.log2 (radix t) =? 0))%bool then trim t a /\ 0 <= n else True
  end.

(** All divisors are such expressions. *)
Fixpoint trim_divisors (t : dty) (e : expr) : Prop :=
  match e with
  | Lit _ => True
  | Plus a b | Minus a b | Times a b => trim_divisors t a /\ trim_divisors t b
  | Over a b | Modulo a b => trim_divisors t a /\ trim_divisors t b /\ trim t b
  | Power a _ | ShiftL a _ | ShiftR a _ => trim_divisors t a
  end.
