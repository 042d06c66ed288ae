(** * Slice: models of src/ubig/{support,cmp,add,sub,rsub,shl,shr}.rs.

    No proofs in this file.  Iterator chains are written as structural
    recursions over the digit list; the iteration order is kept (least
    significant digit first, or last for the [rev()] loops). *)
From Coq Require Import ZArith List Bool.
From Verif Require Import Base Digit.
Import ListNotations.
Open Scope Z_scope.
Open Scope m_scope.

(** src/ubig/support.rs:20-29 *)
Fixpoint drop_leading_zeros (nr : digits) (len : nat) : M nat :=
  match len with
  | O => Ret O
  | S n => d <- get nr n ;; if d =? 0 then drop_leading_zeros nr n else Ret (S n)
  end.

(** Rust's lexicographic [Iterator::cmp] *)
Fixpoint lex_cmp (l0 l1 : digits) : comparison :=
  match l0, l1 with
  | [], [] => Eq
  | [], _ :: _ => Lt
  | _ :: _, [] => Gt
  | d0 :: t0, d1 :: t1 =>
      match d0 ?= d1 with Eq => lex_cmp t0 t1 | c => c end
  end.

(** src/ubig/cmp.rs:19-23 *)
Definition num_cmp (nr0 nr1 : digits) : comparison :=
  match (length nr0 ?= length nr1)%nat with
  | Eq => lex_cmp (rev nr0) (rev nr1)
  | c => c
  end.

(** src/ubig/cmp.rs:27-31 *)
Definition num_lt (nr0 nr1 : digits) : bool :=
  match num_cmp nr0 nr1 with Lt => true | _ => false end.

Section WithDigit.
Variable D : digit.

(** ** add.rs *)

(** src/ubig/add.rs:20-31 *)
Fixpoint inc_assign (nr : digits) : M (digits * bool) :=
  match nr with
  | [] => Ret ([], true)
  | d :: t =>
      '(d, o) <- d_inc D d ;;
      if o then '(t, o) <- inc_assign t ;; Ret (d :: t, o)
      else Ret (d :: t, false)
  end.

(** src/ubig/add.rs:35-54 *)
Definition add_assign_digit (nr : digits) (digit : Z) : M (digits * option Z) :=
  if digit =? 0 then Ret (nr, None)
  else match nr with
       | [] => Ret (nr, Some digit)
       | d :: t =>
           '(d, o) <- d_add_carry D d digit false ;;
           if o then '(t, c) <- inc_assign t ;;
                     Ret (d :: t, if c then Some 1 else None)
           else Ret (d :: t, None)
       end.

(** the loop of src/ubig/add.rs:66-69; stops at the shorter operand like [zip] *)
Fixpoint add_zip (nr0 nr1 : digits) (carry : bool) : M (digits * bool) :=
  match nr0, nr1 with
  | d0 :: t0, d1 :: t1 =>
      '(d0, c) <- d_add_carry D d0 d1 carry ;;
      '(t0, c) <- add_zip t0 t1 c ;;
      Ret (d0 :: t0, c)
  | _, _ => Ret (nr0, carry)
  end.

(** src/ubig/add.rs:59-72 *)
Definition add_assign_big (nr0 nr1 : digits) : M (digits * bool) :=
  let nd1 := length nr1 in
  guard (nd1 <=? length nr0)%nat PAssert ;;;
  '(nr0, carry) <- add_zip nr0 nr1 false ;;
  if carry then with_suffix nr0 nd1 inc_assign else Ret (nr0, false).

(** the loop of src/ubig/add.rs:91-95 *)
Fixpoint add_zip_into (nr0 nr1 sum : digits) (carry : bool) : M (digits * bool) :=
  match nr0, nr1, sum with
  | d0 :: t0, d1 :: t1, _ :: ts =>
      '(dr, c) <- d_add_carry D d0 d1 carry ;;
      '(ts, c) <- add_zip_into t0 t1 ts c ;;
      Ret (dr :: ts, c)
  | _, _, _ => Ret (sum, carry)
  end.

(** src/ubig/add.rs:77-121 *)
Definition add_big_into (nr0 nr1 sum : digits) : M (digits * result nat) :=
  let n0 := length nr0 in
  let n1 := length nr1 in
  let nmin := Nat.min n0 n1 in
  let nmax := Nat.max n0 n1 in
  if (length sum <? nmax)%nat then Ret (sum, RErr NoSpace)
  else
    '(sum, carry) <- add_zip_into nr0 nr1 sum false ;;
    sum <- match (n0 ?= n1)%nat with
           | Eq => Ret sum
           | Lt => s <- suffix nr1 nmin ;; copy_into sum nmin nmax s
           | Gt => s <- suffix nr0 nmin ;; copy_into sum nmin nmax s
           end ;;
    '(sum, overflow) <- (if carry then with_slice sum nmin nmax inc_assign
                         else Ret (sum, false)) ;;
    if overflow then
      if (length sum <=? nmax)%nat then Ret (sum, RErr NoSpace)
      else sum <- set sum nmax 1 ;; Ret (sum, ROk (nmax + 1)%nat)
    else Ret (sum, ROk nmax).

(** ** sub.rs *)

(** src/ubig/sub.rs:22-53.  The early exit returns the full length; the count
    is rebuilt on the way out of the recursion. *)
Fixpoint dec_assign (nr : digits) : M (digits * result nat) :=
  match nr with
  | [] => Ret ([], RErr Underflow)
  | [d] =>
      '(d, u) <- d_dec D d ;;
      if u then Ret ([d], RErr Underflow)
      else if d =? 0 then Ret ([d], ROk 0%nat) else Ret ([d], ROk 1%nat)
  | d :: t =>
      '(d, u) <- d_dec D d ;;
      if u then
        '(t, r) <- dec_assign t ;;
        Ret (d :: t, match r with ROk n => ROk (S n) | RErr e => RErr e end)
      else Ret (d :: t, ROk (length (d :: t)))
  end.

(** src/ubig/sub.rs:58-78 *)
Definition sub_assign_digit (nr : digits) (digit : Z) : M (digits * result nat) :=
  if digit =? 0 then Ret (nr, ROk (length nr))
  else match nr with
       | [] => Ret (nr, RErr Underflow)
       | d :: t =>
           '(d, u) <- d_sub_carry D d digit false ;;
           if u then
             '(t, r) <- dec_assign t ;;
             Ret (d :: t, match r with ROk n => ROk (1 + n)%nat | RErr e => RErr e end)
           else Ret (d :: t, ROk (length (d :: t)))
       end.

(** the fold of src/ubig/sub.rs:94 *)
Fixpoint sub_zip (nr0 nr1 : digits) (carry : bool) : M (digits * bool) :=
  match nr0, nr1 with
  | d0 :: t0, d1 :: t1 =>
      '(d0, c) <- d_sub_carry D d0 d1 carry ;;
      '(t0, c) <- sub_zip t0 t1 c ;;
      Ret (d0 :: t0, c)
  | _, _ => Ret (nr0, carry)
  end.

(** src/ubig/sub.rs:83-105 *)
Definition sub_assign_big (nr0 nr1 : digits) : M (digits * result nat) :=
  let n0 := length nr0 in
  let n1 := length nr1 in
  if (n0 <? n1)%nat then Ret (nr0, RErr Underflow)
  else
    '(nr0, carry) <- sub_zip nr0 nr1 false ;;
    if carry then
      '(nr0, r) <- with_suffix nr0 n1 dec_assign ;;
      Ret (nr0, match r with ROk nd => ROk (n1 + nd)%nat | RErr e => RErr e end)
    else
      n <- drop_leading_zeros nr0 n0 ;; Ret (nr0, ROk n).

(** the loop of src/ubig/sub.rs:129-133 *)
Fixpoint sub_zip_into (nr0 nr1 diff : digits) (carry : bool) : M (digits * bool) :=
  match nr0, nr1, diff with
  | d0 :: t0, d1 :: t1, _ :: ts =>
      '(dr, c) <- d_sub_carry D d0 d1 carry ;;
      '(ts, c) <- sub_zip_into t0 t1 ts c ;;
      Ret (dr :: ts, c)
  | _, _, _ => Ret (diff, carry)
  end.

(** src/ubig/sub.rs:113-147 *)
Definition sub_big_into (nr0 nr1 diff : digits) : M (digits * result nat) :=
  let n0 := length nr0 in
  let n1 := length nr1 in
  if (length diff <? n0)%nat then Ret (diff, RErr NoSpace)
  else if (n0 <? n1)%nat then Ret (diff, RErr Underflow)
  else
    '(diff, carry) <- sub_zip_into nr0 nr1 diff false ;;
    s <- suffix nr0 n1 ;;
    diff <- copy_into diff n1 n0 s ;;
    if carry then
      '(diff, r) <- with_slice diff n1 n0 dec_assign ;;
      Ret (diff, match r with ROk nd => ROk (n1 + nd)%nat | RErr e => RErr e end)
    else
      n <- drop_leading_zeros diff n0 ;; Ret (diff, ROk n).

(** ** rsub.rs *)

(** the loop of src/ubig/rsub.rs:30-34 *)
Fixpoint rsub_zip (nr0 nr1 : digits) (carry : bool) : M (digits * bool) :=
  match nr0, nr1 with
  | d0 :: t0, d1 :: t1 =>
      '(d0, c) <- d_sub_carry D d1 d0 carry ;;
      '(t0, c) <- rsub_zip t0 t1 c ;;
      Ret (d0 :: t0, c)
  | _, _ => Ret (nr0, carry)
  end.

(** src/ubig/rsub.rs:23-44 *)
Definition rsub_assign_big (nr0 nr1 : digits) : M (digits * result nat) :=
  let n0 := length nr0 in
  guard (length nr1 =? n0)%nat PAssert ;;;
  '(nr0, carry) <- rsub_zip nr0 nr1 false ;;
  if carry then Ret (nr0, RErr Underflow)
  else n <- drop_leading_zeros nr0 n0 ;; Ret (nr0, ROk n).

(** Running a function that returns a Rust [Result] and unwrapping it. *)
Definition unwrap_with {A} (e : M (digits * result A)) : M (digits * A) :=
  '(l, r) <- e ;; a <- unwrap r ;; Ret (l, a).

(** src/ubig/sub.rs:153-166 *)
Definition sub_assign_big_abs_sign (nr0 : digits) (len0 : nat) (nr1 : digits)
  : M (digits * (bool * nat)) :=
  p <- prefix nr0 len0 ;;
  if num_lt p nr1 then
    '(nr0, nd) <- with_prefix nr0 (length nr1)
                    (fun s => unwrap_with (rsub_assign_big s nr1)) ;;
    Ret (nr0, (true, nd))
  else
    '(nr0, nd) <- with_prefix nr0 len0
                    (fun s => unwrap_with (sub_assign_big s nr1)) ;;
    Ret (nr0, (false, nd)).

(** src/ubig/sub.rs:171-183 *)
Definition sub_big_into_abs_sign (nr0 nr1 abs_diff : digits)
  : M (digits * (bool * nat)) :=
  debug_assert (d_dbg D) (Nat.max (length nr0) (length nr1) <=? length abs_diff)%nat ;;;
  if num_lt nr0 nr1 then
    '(r, n) <- unwrap_with (sub_big_into nr1 nr0 abs_diff) ;; Ret (r, (true, n))
  else
    '(r, n) <- unwrap_with (sub_big_into nr0 nr1 abs_diff) ;; Ret (r, (false, n)).

(** ** shl.rs, shr.rs *)

Fixpoint shl_loop (nr : digits) (shift carry : Z) : M (digits * Z) :=
  match nr with
  | [] => Ret ([], carry)
  | d :: t =>
      '(d, c) <- d_shl_carry D d shift carry ;;
      '(t, c) <- shl_loop t shift c ;;
      Ret (d :: t, c)
  end.

(** src/ubig/shl.rs:21-32 *)
Definition shl_carry_assign_within_digit (nr : digits) (shift carry : Z)
  : M (digits * Z) :=
  if shift =? 0 then Ret (nr, 0) else shl_loop nr shift carry.

(** [rev()]: the most significant digit first *)
Fixpoint shr_loop (nr : digits) (shift carry : Z) : M (digits * Z) :=
  match nr with
  | [] => Ret ([], carry)
  | d :: t =>
      '(t, c) <- shr_loop t shift carry ;;
      '(d, c) <- d_shr_carry D d shift c ;;
      Ret (d :: t, c)
  end.

(** src/ubig/shr.rs:22-36 *)
Definition shr_carry_assign_within_digit (nr : digits) (shift carry : Z)
  : M (digits * (nat * Z)) :=
  if shift =? 0 then n <- drop_leading_zeros nr (length nr) ;; Ret (nr, (n, 0))
  else
    '(nr, c) <- shr_loop nr shift carry ;;
    n <- drop_leading_zeros nr (length nr) ;; Ret (nr, (n, c)).

(** ** div.rs: division by three *)
Fixpoint div3_loop (nr : digits) (carry : Z) : M (digits * Z) :=
  match nr with
  | [] => Ret ([], carry)
  | d :: t =>
      '(t, c) <- div3_loop t carry ;;
      '(d, c) <- d_div3_carry D d c ;;
      Ret (d :: t, c)
  end.

(** src/ubig/div.rs:45-51 *)
Definition div3_carry_assign (nr : digits) (carry : Z) : M (digits * (nat * Z)) :=
  '(nr, rem) <- div3_loop nr carry ;;
  nd <- drop_leading_zeros nr (length nr) ;;
  Ret (nr, (nd, rem)).

End WithDigit.
