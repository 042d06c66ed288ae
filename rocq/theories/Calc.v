(** * Calc: calculating with texts.

    No source; a driver that reads two operands, applies an operator and prints the
    result, hexadecimal with prefix for binary types and decimal for decimal types.
    No proofs in this file. *)
From Coq Require Import ZArith List Bool.
From Verif Require Import Base Digit Slice UBig Text.
Import ListNotations.
Open Scope Z_scope.
Open Scope m_scope.

(** [format!("{:#x}", x)] or [format!("{}", x)] *)
Definition print (t : dty) (x : digits) : bytes :=
  if is_binary t then fmt_hex t false (mkFmt None 32 AUnknown false true false) x
  else fmt_display_dec t plain x.

(** [a.parse::<UBig<T>>()?] and [b.parse::<UBig<T>>()?], then [op] *)
Definition calculate (dbg : bool) (t : dty) (op : digits -> digits -> M digits) (a b : bytes) : M (result bytes) :=
  x <- from_str dbg t a ;;
  match x with
  | RErr e => Ret (RErr e)
  | ROk x =>
      y <- from_str dbg t b ;;
      match y with
      | RErr e => Ret (RErr e)
      | ROk y => r <- op x y ;; Ret (ROk (print t r))
      end
  end.

(** [format!("{}", a.parse::<UBig<T>>()?)] *)
Definition convert (dbg : bool) (t : dty) (a : bytes) : M (result bytes) :=
  x <- from_str dbg t a ;;
  match x with
  | RErr e => Ret (RErr e)
  | ROk x =>
      if is_binary t then s <- fmt_display_bin dbg t plain x ;; Ret (ROk s)
      else Ret (ROk (fmt_display_dec t plain x))
  end.
