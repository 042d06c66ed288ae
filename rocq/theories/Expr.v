(** * Expr: a calculator for expressions whose leaves are texts.  A driver for C76; the
    crate has no such function. *)
From Coq Require Import ZArith List.
From Verif Require Import Base Digit Slice UBig Text Calc.
Import ListNotations.
Open Scope Z_scope.
Open Scope m_scope.

Inductive expr :=
| Lit (s : bytes)
| Plus (a b : expr)
| Minus (a b : expr)
| Times (a b : expr)
| Over (a b : expr)
| Modulo (a b : expr)
| Power (a : expr) (n : N)
| ShiftL (a : expr) (n : Z)
| ShiftR (a : expr) (n : Z).

(** [f(a?, b?)] *)
Definition both (f : digits -> digits -> M digits) (p q : M (result digits)) : M (result digits) :=
  x <- p ;;
  match x with
  | RErr e => Ret (RErr e)
  | ROk x =>
      y <- q ;;
      match y with
      | RErr e => Ret (RErr e)
      | ROk y => r <- f x y ;; Ret (ROk r)
      end
  end.

(** [f(a?)] *)
Definition single (f : digits -> M digits) (p : M (result digits)) : M (result digits) :=
  x <- p ;;
  match x with
  | RErr e => Ret (RErr e)
  | ROk x => r <- f x ;; Ret (ROk r)
  end.

Fixpoint evaluate (dbg : bool) (t : dty) (e : expr) : M (result digits) :=
  match e with
  | Lit s => from_str dbg t s
  | Plus a b => both (add_assign (impl dbg t)) (evaluate dbg t a) (evaluate dbg t b)
  | Minus a b => both (sub_assign (impl dbg t)) (evaluate dbg t a) (evaluate dbg t b)
  | Times a b => both (mul_assign (impl dbg t)) (evaluate dbg t a) (evaluate dbg t b)
  | Over a b => both (div_assign (impl dbg t)) (evaluate dbg t a) (evaluate dbg t b)
  | Modulo a b => both (rem_assign (impl dbg t)) (evaluate dbg t a) (evaluate dbg t b)
  | Power a n => single (fun x => pow (impl dbg t) x n) (evaluate dbg t a)
  | ShiftL a n => single (fun x => shl_assign dbg t x n) (evaluate dbg t a)
  | ShiftR a n => single (fun x => shr_assign dbg t x n) (evaluate dbg t a)
  end.

(** evaluates and prints *)
Definition compute (dbg : bool) (t : dty) (e : expr) : M (result bytes) :=
  x <- evaluate dbg t e ;;
  match x with
  | RErr e => Ret (RErr e)
  | ROk x => Ret (ROk (print t x))
  end.
