(** * Mul: model of src/ubig/mul.rs and src/ubig/mul/{long,karatsuba,toom3}.rs.

    No proofs in this file.  The mutual recursion
    [mul_big_into_with_work] -> Karatsuba / Toom-3 -> [mul_big_into_with_work]
    is written as non-recursive functions taking the recursive call [rec] as an
    argument, tied together by a fuel recursion at the end.  Functions that
    mutate a product and a scratch slice return both. *)
From Coq Require Import ZArith List Bool.
From Verif Require Import Base Digit Slice.
Import ListNotations.
Open Scope Z_scope.
Open Scope m_scope.

(** src/ubig/mul.rs:22, 24 *)
Definition KARATSUBA_CUTOFF : nat := 20.
Definition TOOM3_CUTOFF : nat := 128.

(** src/ubig/mul/karatsuba.rs:20-31; the while loop, on fuel [n] (nn shrinks
    in every round since nn >= 20). *)
Fixpoint karatsuba_work_loop (fuel : nat) (work_size nn : nat) : nat :=
  match fuel with
  | O => work_size
  | S f =>
      if (KARATSUBA_CUTOFF <=? nn)%nat then
        let split := Nat.div2 (nn + 1) in
        karatsuba_work_loop f (work_size + 2 * split) split
      else work_size
  end.
Definition calc_karatsuba_work_size (n : nat) : nat := karatsuba_work_loop n 0 n.

(** src/ubig/mul/toom3.rs:20-32 *)
Fixpoint toom3_work_loop (fuel : nat) (work_size nn : nat) : nat :=
  match fuel with
  | O => work_size + calc_karatsuba_work_size nn
  | S f =>
      if (TOOM3_CUTOFF <=? nn)%nat then
        let b := ((nn + 2) / 3)%nat in
        toom3_work_loop f (work_size + (6 * b + 10)) (b + 2)
      else (work_size + calc_karatsuba_work_size nn)%nat
  end%nat.
Definition calc_toom3_work_size (n : nat) : nat := toom3_work_loop n 0 n.

(** src/ubig/mul.rs:97-111 *)
Definition calc_mul_work_size (n : nat) : nat :=
  if (TOOM3_CUTOFF <=? n)%nat then calc_toom3_work_size n
  else if (KARATSUBA_CUTOFF <=? n)%nat then calc_karatsuba_work_size n
  else 0%nat.

Section WithDigit.
Variable D : digit.

(** src/ubig/mul.rs:28-32 *)
Fixpoint double_carry_assign (nr : digits) (carry : bool) : M (digits * bool) :=
  match nr with
  | [] => Ret ([], carry)
  | d :: t =>
      '(d, c) <- d_double_carry D d carry ;;
      '(t, c) <- double_carry_assign t c ;;
      Ret (d :: t, c)
  end.

(** src/ubig/mul.rs:37-41 *)
Fixpoint mul_add_assign_digit (nr : digits) (fac off : Z) : M (digits * Z) :=
  match nr with
  | [] => Ret ([], off)
  | d :: t =>
      '(d, c) <- d_mul_carry D d fac off ;;
      '(t, c) <- mul_add_assign_digit t fac c ;;
      Ret (d :: t, c)
  end.

(** the fold of src/ubig/mul.rs:51-53 (zip stops at the shorter list) *)
Fixpoint mul_zip_into (nr : digits) (fac : Z) (product : digits) (carry : Z)
  : M (digits * Z) :=
  match nr, product with
  | d :: t, _ :: tp =>
      '(pd, c) <- d_mul_carry D d fac carry ;;
      '(tp, c) <- mul_zip_into t fac tp c ;;
      Ret (pd :: tp, c)
  | _, _ => Ret (product, carry)
  end.

(** src/ubig/mul.rs:46-54 *)
Definition mul_digit_into (nr : digits) (fac : Z) (product : digits) : M digits :=
  let nd := length nr in
  debug_assert (d_dbg D) (nd + 1 <=? length product)%nat ;;;
  '(product, carry) <- mul_zip_into nr fac product 0 ;;
  set product nd carry.

(** src/ubig/mul.rs:59-93: loop over [nr[1..]] *)
Fixpoint mul_pair_loop (nr : digits) (fac_low fac_high prev carry0 : Z) (add_one : bool)
  : M (digits * (Z * Z)) :=
  match nr with
  | [] =>
      '(prev, carry0) <- d_mul_carry D prev fac_high carry0 ;;
      carry0 <- (if add_one then '(c, _) <- d_inc D carry0 ;; Ret c else Ret carry0) ;;
      Ret ([], (prev, carry0))
  | d :: t =>
      let new_prev := d in
      '(prev, carry0) <- d_mul_carry D prev fac_high carry0 ;;
      '(carry0, add_one) <- (if add_one then d_inc D carry0 else Ret (carry0, false)) ;;
      '(d, carry1) <- d_mul_carry D d fac_low prev ;;
      '(carry0, o) <- d_add_carry D carry0 carry1 false ;;
      '(t, r) <- mul_pair_loop t fac_low fac_high new_prev carry0 (add_one || o) ;;
      Ret (d :: t, r)
  end.

Definition mul_pair_add_assign_digit (nr : digits) (fac_low fac_high offset : Z)
  : M (digits * (Z * Z)) :=
  match nr with
  | [] => Ret ([], (offset, 0))
  | d :: t =>
      let prev := d in
      '(d, carry0) <- d_mul_carry D d fac_low offset ;;
      '(t, r) <- mul_pair_loop t fac_low fac_high prev carry0 false ;;
      Ret (d :: t, r)
  end.

(** ** mul/long.rs *)

(** the fold of src/ubig/mul/long.rs:31-33 and 52-54 *)
Fixpoint add_prod_zip (nr0 : digits) (rd : digits) (d1 carry : Z) : M (digits * Z) :=
  match nr0, rd with
  | d0 :: t0, r :: tr =>
      '(r, c) <- d_add_prod_carry D r d0 d1 carry ;;
      '(tr, c) <- add_prod_zip t0 tr d1 c ;;
      Ret (r :: tr, c)
  | _, _ => Ret (rd, carry)
  end.

(** src/ubig/mul/long.rs:29-35 *)
Fixpoint mul_long_loop (nr0 nr1 : digits) (offset : nat) (result : digits) : M digits :=
  match nr1 with
  | [] => Ret result
  | d1 :: t1 =>
      let nd0 := length nr0 in
      '(result, carry) <- with_slice result offset (offset + nd0)
                            (fun s => add_prod_zip nr0 s d1 0) ;;
      result <- set result (offset + nd0) carry ;;
      mul_long_loop nr0 t1 (S offset) result
  end.

(** src/ubig/mul/long.rs:21-38 *)
Definition mul_big_long_into (nr0 nr1 result : digits) : M (digits * nat) :=
  let nd := (length nr0 + length nr1)%nat in
  result <- fill_zero result 0 nd ;;
  result <- mul_long_loop nr0 nr1 0 result ;;
  n <- drop_leading_zeros result nd ;;
  Ret (result, n).

(** src/ubig/mul/long.rs:50-56; [rest] is [nr0[n1..]] *)
Fixpoint square_long_loop (nr0 rest : digits) (n1 : nat) (square : digits) : M digits :=
  match rest with
  | [] => Ret square
  | d1 :: t1 =>
      p <- prefix nr0 n1 ;;
      '(square, carry) <- with_slice square n1 (2 * n1)
                            (fun s => add_prod_zip p s d1 0) ;;
      square <- set square (2 * n1) carry ;;
      square_long_loop nr0 t1 (S n1) square
  end.

(** src/ubig/mul/long.rs:58-63 *)
Fixpoint square_diag (nr0 : digits) (sq : digits) (carry : bool) : M (digits * bool) :=
  match nr0, sq with
  | d :: t, r0 :: r1 :: tr =>
      '(r0, carry2) <- d_add_prod_carry D r0 d d (from_bit carry) ;;
      '(r1, c) <- d_add_carry D r1 carry2 false ;;
      '(tr, c) <- square_diag t tr c ;;
      Ret (r0 :: r1 :: tr, c)
  | _, _ => Ret (sq, carry)
  end.

(** src/ubig/mul/long.rs:43-67 *)
Definition square_long_into (nr0 square : digits) : M (digits * nat) :=
  let nd0 := length nr0 in
  let nd := (2 * nd0)%nat in
  square <- fill_zero square 0 nd ;;
  square <- square_long_loop nr0 (tl nr0) 1 square ;;
  '(square, _) <- with_prefix square nd (fun s => double_carry_assign s false) ;;
  '(square, carry) <- with_prefix square nd (fun s => square_diag nr0 s false) ;;
  debug_assert (d_dbg D) (negb carry) ;;;
  n <- drop_leading_zeros square nd ;;
  Ret (square, n).

(** ** mul/karatsuba.rs *)

(** A multiplication routine: operands, product, work; returns the mutated
    product and work and the number of digits. *)
Definition mul_fn := digits -> digits -> digits -> digits -> M ((digits * digits) * nat).
Definition square_fn := digits -> digits -> digits -> M ((digits * digits) * nat).

(** src/ubig/mul/karatsuba.rs:67-100 and 130-149 (the two are the same text
    except that squaring has no sign case): combine
    z1 = |low0-high0|*|low1-high1|, z0 = result[..2*split], z2 = result[2*split..]
    into the product of length [n].  [neg] is [sign0 ^ sign1]. *)
Definition karatsuba_combine (neg : bool) (split n : nat) (result z1 : digits)
    (nz0 nz1 nz2 : nat) : M ((digits * digits) * nat) :=
  '(z0, z2) <- split_at result (2 * split) ;;
  z0p <- prefix z0 nz0 ;;
  z2p <- prefix z2 nz2 ;;
  '(z1, result, nz1) <-
    (if neg then
       let nz1 := Nat.max (Nat.max nz1 nz0) nz2 in
       '(z1, carry0) <- with_prefix z1 nz1 (fun s => add_assign_big D s z0p) ;;
       '(z1, carry2) <- with_prefix z1 nz1 (fun s => add_assign_big D s z2p) ;;
       '(result, _) <- (if carry0 then with_suffix result (split + nz1) (inc_assign D)
                        else Ret (result, false)) ;;
       '(result, _) <- (if carry2 then with_suffix result (split + nz1) (inc_assign D)
                        else Ret (result, false)) ;;
       Ret (z1, result, nz1)
     else
       z1p <- prefix z1 nz1 ;;
       if num_lt z1p z0p then
         '(z1, n1) <- with_prefix z1 nz0
                        (fun s => unwrap_with (rsub_assign_big D s z0p)) ;;
         let nz1 := Nat.max n1 nz2 in
         '(z1, carry) <- with_prefix z1 nz1 (fun s => add_assign_big D s z2p) ;;
         '(result, _) <- (if carry then with_suffix result (split + nz1) (inc_assign D)
                          else Ret (result, false)) ;;
         Ret (z1, result, nz1)
       else
         '(z1, nz1) <- with_prefix z1 nz1
                         (fun s => unwrap_with (sub_assign_big D s z0p)) ;;
         z1p <- prefix z1 nz1 ;;
         debug_assert (d_dbg D) (negb (num_lt z2p z1p)) ;;;
         '(z1, nz1) <- with_prefix z1 nz2
                         (fun s => unwrap_with (rsub_assign_big D s z2p)) ;;
         Ret (z1, result, nz1)) ;;
  z1p <- prefix z1 nz1 ;;
  '(result, carry) <- with_suffix result split (fun s => add_assign_big D s z1p) ;;
  guard (negb carry) PAssert ;;;
  nres <- drop_leading_zeros result n ;;
  Ret (result, z1, nres).

(** src/ubig/mul/karatsuba.rs:38-101 *)
Definition mul_big_karatsuba_into (rec : mul_fn) (nr0 nr1 result work : digits)
  : M ((digits * digits) * nat) :=
  let n0 := length nr0 in
  let n1 := length nr1 in
  let nmax := Nat.max n0 n1 in
  guard ((2 <=? n0)%nat && (2 <=? n1)%nat) PAssert ;;;
  guard (calc_karatsuba_work_size nmax <=? length work)%nat PWork ;;;
  let split := Nat.div2 (nmax + 1) in
  '(low0, high0) <- split_at nr0 (Nat.min split n0) ;;
  nlow0 <- drop_leading_zeros low0 (length low0) ;;
  '(low1, high1) <- split_at nr1 (Nat.min split n1) ;;
  nlow1 <- drop_leading_zeros low1 (length low1) ;;
  '(diff0, diff1) <- split_at result split ;;
  low0 <- prefix low0 nlow0 ;;
  low1 <- prefix low1 nlow1 ;;
  '(diff0, (sign0, ndiff0)) <- sub_big_into_abs_sign D low0 high0 diff0 ;;
  '(diff1, (sign1, ndiff1)) <- sub_big_into_abs_sign D low1 high1 diff1 ;;
  '(z1, new_work) <- split_at work (2 * split) ;;
  let z1 := zeros (length z1) in
  d0 <- prefix diff0 ndiff0 ;;
  d1 <- prefix diff1 ndiff1 ;;
  '(z1, new_work, nz1) <- rec d0 d1 z1 new_work ;;
  let result := diff0 ++ diff1 in
  result <- fill_zero result 0 (n0 + n1) ;;
  '(z0, z2) <- split_at result (2 * split) ;;
  '(z0, new_work, nz0) <- rec low0 low1 z0 new_work ;;
  '(z2, new_work, nz2) <- rec high0 high1 z2 new_work ;;
  '(result, z1, nres) <- karatsuba_combine (xorb sign0 sign1) split (n0 + n1)
                           (z0 ++ z2) z1 nz0 nz1 nz2 ;;
  Ret (result, z1 ++ new_work, nres).

(** src/ubig/mul/karatsuba.rs:108-150 *)
Definition square_karatsuba_into (rec : square_fn) (nr0 result work : digits)
  : M ((digits * digits) * nat) :=
  let n0 := length nr0 in
  guard (2 <=? n0)%nat PAssert ;;;
  guard (calc_karatsuba_work_size n0 <=? length work)%nat PWork ;;;
  let split := Nat.div2 (n0 + 1) in
  nlow0 <- drop_leading_zeros nr0 split ;;
  low0 <- prefix nr0 nlow0 ;;
  high0 <- suffix nr0 split ;;
  '(diff0, (_, ndiff0)) <- sub_big_into_abs_sign D low0 high0 result ;;
  '(z1, new_work) <- split_at work (2 * split) ;;
  let z1 := zeros (length z1) in
  d0 <- prefix diff0 ndiff0 ;;
  '(z1, new_work, nz1) <- rec d0 z1 new_work ;;
  result <- fill_zero diff0 0 (2 * n0) ;;
  '(z0, z2) <- split_at result (2 * split) ;;
  '(z0, new_work, nz0) <- rec low0 z0 new_work ;;
  '(z2, new_work, nz2) <- rec high0 z2 new_work ;;
  '(result, z1, nres) <- karatsuba_combine false split (2 * n0)
                           (z0 ++ z2) z1 nz0 nz1 nz2 ;;
  Ret (result, z1 ++ new_work, nres).

(** ** mul/toom3.rs *)

(** [if carry { l[len] = T::one(); len += 1; }] *)
Definition push_carry (carry : bool) (l : digits) (len : nat) : M (digits * nat) :=
  if carry then l <- set l len 1 ;; Ret (l, (len + 1)%nat) else Ret (l, len).

(** The three parts of an operand: p0, m1, pinf
    src/ubig/mul/toom3.rs:84-92, 132-137, 315-320 *)
Definition toom3_parts (nr0 : digits) (b : nat) : M (digits * digits * digits) :=
  let nd0 := length nr0 in
  let min_b_nd0 := Nat.min b nd0 in
  len_p0 <- drop_leading_zeros nr0 min_b_nd0 ;;
  p0 <- prefix nr0 len_p0 ;;
  hi <- suffix nr0 min_b_nd0 ;;
  len_m1 <- drop_leading_zeros hi (Nat.min b (nd0 - min_b_nd0)) ;;
  m1 <- sub_slice nr0 min_b_nd0 (min_b_nd0 + len_m1) ;;
  pinf <- suffix nr0 (Nat.min (2 * b) nd0) ;;
  Ret (p0, m1, pinf).

(** Evaluation at 1, -1 and -2 of one operand:
    src/ubig/mul/toom3.rs:94-130, 138-168, 321-350.  The three blocks have the
    same text up to renaming; squaring drops the sign of p(-2). *)
Definition toom3_eval (p0 m1 pinf p1 pm1 pm2 : digits)
  : M ((digits * nat) * (digits * (bool * nat)) * (digits * (bool * nat))) :=
  '(pm1, len_pm1) <- unwrap_with (add_big_into D p0 pinf pm1) ;;
  s <- prefix pm1 len_pm1 ;;
  '(p1, len_p1) <- unwrap_with (add_big_into D s m1 p1) ;;
  '(pm1, (sign_pm1, len_pm1)) <- sub_assign_big_abs_sign D pm1 len_pm1 m1 ;;
  s <- prefix pm1 len_pm1 ;;
  '(pm2, (sign_pm2, len_pm2)) <-
    (if sign_pm1 then sub_big_into_abs_sign D pinf s pm2
     else '(r, n) <- unwrap_with (add_big_into D s pinf pm2) ;; Ret (r, (false, n))) ;;
  '(pm2, carry) <- with_prefix pm2 len_pm2 (fun s => double_carry_assign s false) ;;
  '(pm2, len_pm2) <- push_carry carry pm2 len_pm2 ;;
  '(pm2, (sign_pm2, len_pm2)) <-
    (if sign_pm2 then
       let len_pm2 := Nat.max len_pm2 (length p0) in
       '(pm2, carry) <- with_prefix pm2 len_pm2 (fun s => add_assign_big D s p0) ;;
       '(pm2, len_pm2) <- push_carry carry pm2 len_pm2 ;;
       Ret (pm2, (true, len_pm2))
     else sub_assign_big_abs_sign D pm2 len_pm2 p0) ;;
  Ret ((p1, len_p1), (pm1, (sign_pm1, len_pm1)), (pm2, (sign_pm2, len_pm2))).

(** [l[n..].fill(0)] *)
Definition clear_from (l : digits) (n : nat) : M digits := fill_zero l n (length l).

(** Interpolation: src/ubig/mul/toom3.rs:178, 181-296; squaring (358, 361-436)
    is the same with both signs false.  [rm1], [rm2] are renamed r2, r3 as in
    the source.  Returns the mutated (result, r1, r2, r3) and the length. *)
Definition toom3_interpolate (b n : nat) (result r1 rm1 rm2 : digits)
    (len_r1 len_rm1 len_rm2 len_r0 len_r4 : nat) (sign_rm1 sign_rm2 : bool)
  : M ((digits * (digits * digits * digits)) * nat) :=
  '(r0, r4) <- split_at result (Nat.min (4 * b) (length result)) ;;
  r4 <- prefix r4 len_r4 ;;
  r0 <- prefix r0 len_r0 ;;
  (* 183-200 *)
  let r3 := rm2 in
  r1p <- prefix r1 len_r1 ;;
  '(r3, (sign_r3, len_r3, carry)) <-
    (if sign_rm2 then
       let len_r3 := Nat.max len_rm2 len_r1 in
       '(r3, carry) <- with_prefix r3 len_r3 (fun s => add_assign_big D s r1p) ;;
       Ret (r3, (true, len_r3, carry))
     else
       '(r3, (sign, len)) <- sub_assign_big_abs_sign D r3 len_rm2 r1p ;;
       Ret (r3, (sign, len, false))) ;;
  '(r3, (len_r3, _)) <- with_prefix r3 len_r3
     (fun s => div3_carry_assign D s (b2z carry)) ;;
  (* 201-211 *)
  rm1p <- prefix rm1 len_rm1 ;;
  '(r1, (len_r1, carry)) <-
    (if sign_rm1 then
       let len_r1 := Nat.max len_r1 len_rm1 in
       '(r1, carry) <- with_prefix r1 len_r1 (fun s => add_assign_big D s rm1p) ;;
       Ret (r1, (len_r1, carry))
     else
       '(r1, len_r1) <- with_prefix r1 len_r1
                          (fun s => unwrap_with (sub_assign_big D s rm1p)) ;;
       Ret (r1, (len_r1, false))) ;;
  '(r1, (len_r1, _)) <- with_prefix r1 len_r1
     (fun s => shr_carry_assign_within_digit D s 1 (from_bit carry)) ;;
  (* 212-230 *)
  let r2 := rm1 in
  '(r2, (sign_r2, len_r2)) <-
    (if sign_rm1 then
       let len_r2 := Nat.max len_rm1 len_r0 in
       '(r2, carry) <- with_prefix r2 len_r2 (fun s => add_assign_big D s r0) ;;
       '(r2, len_r2) <- push_carry carry r2 len_r2 ;;
       Ret (r2, (true, len_r2))
     else sub_assign_big_abs_sign D r2 len_rm1 r0) ;;
  (* 231-244 *)
  r2p <- prefix r2 len_r2 ;;
  '(r3, (sign_r3, len_r3, carry)) <-
    (if xorb sign_r2 sign_r3 then
       let len_r3 := Nat.max len_r3 len_r2 in
       '(r3, carry) <- with_prefix r3 len_r3 (fun s => add_assign_big D s r2p) ;;
       Ret (r3, (sign_r2, len_r3, carry))
     else
       '(r3, (sign, len)) <- sub_assign_big_abs_sign D r3 len_r3 r2p ;;
       Ret (r3, (negb (xorb sign_r3 sign) && negb (len =? 0)%nat, len, false))) ;;
  '(r3, (len_r3, _)) <- with_prefix r3 len_r3
     (fun s => shr_carry_assign_within_digit D s 1 (from_bit carry)) ;;
  (* 245-273 *)
  r3p <- prefix r3 len_r3 ;;
  '(r3, len_r3) <-
    (if negb sign_r3 then
       let len_r3 := Nat.max len_r3 len_r4 in
       '(r3, carry) <- with_prefix r3 len_r3 (fun s => add_assign_big D s r4) ;;
       '(r3, len_r3) <- push_carry carry r3 len_r3 ;;
       '(r3, carry) <- with_prefix r3 len_r3 (fun s => add_assign_big D s r4) ;;
       push_carry carry r3 len_r3
     else if num_lt r3p r4 then
       '(r3, _) <- with_prefix r3 len_r4 (fun s => rsub_assign_big D s r4) ;;
       '(r3, carry) <- with_prefix r3 len_r4 (fun s => add_assign_big D s r4) ;;
       push_carry carry r3 len_r4
     else
       '(r3, _) <- with_prefix r3 len_r4 (fun s => sub_assign_big D s r4) ;;
       with_prefix r3 len_r4 (fun s => unwrap_with (rsub_assign_big D s r4))) ;;
  (* 275-290 *)
  r1p <- prefix r1 len_r1 ;;
  '(r2, len_r2) <-
    (if sign_r2 then
       with_prefix r2 len_r1 (fun s => unwrap_with (rsub_assign_big D s r1p))
     else
       let len_r2 := Nat.max len_r2 len_r1 in
       '(r2, carry) <- with_prefix r2 len_r2 (fun s => add_assign_big D s r1p) ;;
       push_carry carry r2 len_r2) ;;
  '(r2, len_r2) <- with_prefix r2 len_r2 (fun s => unwrap_with (sub_assign_big D s r4)) ;;
  r3p <- prefix r3 len_r3 ;;
  '(r1, len_r1) <- with_prefix r1 len_r1 (fun s => unwrap_with (sub_assign_big D s r3p)) ;;
  (* 292-296 *)
  r1p <- prefix r1 len_r1 ;;
  r2p <- prefix r2 len_r2 ;;
  '(result, _) <- with_suffix result b (fun s => add_assign_big D s r1p) ;;
  '(result, _) <- with_suffix result (2 * b) (fun s => add_assign_big D s r2p) ;;
  '(result, _) <- with_suffix result (3 * b) (fun s => add_assign_big D s r3p) ;;
  nres <- drop_leading_zeros result n ;;
  Ret (result, (r1, r2, r3), nres).

(** src/ubig/mul/toom3.rs:34-297 *)
Definition mul_big_toom3_into (rec : mul_fn) (nr0 nr1 result work : digits)
  : M ((digits * digits) * nat) :=
  let nd0 := length nr0 in
  let nd1 := length nr1 in
  let nmax := Nat.max nd0 nd1 in
  guard ((5 <=? nd0)%nat && (5 <=? nd1)%nat) PAssert ;;;
  guard (calc_toom3_work_size nmax <=? length work)%nat PWork ;;;
  let b := ((nmax + 2) / 3)%nat in
  let n := (nd0 + nd1)%nat in
  let result := zeros (length result) in
  '(pm2, qm2) <- split_at result (b + 2) ;;
  '(wrk, new_work) <- split_at work (6 * b + 10) ;;
  let wrk := zeros (length wrk) in
  '(r1, wrk) <- split_at wrk (2 * b + 3) ;;
  '(rm1, rm2) <- split_at wrk (2 * b + 3) ;;
  '(p1, q1) <- split_at rm1 (b + 1) ;;
  '(pm1, qm1) <- split_at rm2 (b + 1) ;;
  '(p0, m1, pinf) <- toom3_parts nr0 b ;;
  '((p1, len_p1), (pm1, (sign_pm1, len_pm1)), (pm2, (sign_pm2, len_pm2))) <-
     toom3_eval p0 m1 pinf p1 pm1 pm2 ;;
  '(q0, n1, qinf) <- toom3_parts nr1 b ;;
  '((q1, len_q1), (qm1, (sign_qm1, len_qm1)), (qm2, (sign_qm2, len_qm2))) <-
     toom3_eval q0 n1 qinf q1 qm1 qm2 ;;
  (* 170-180 *)
  x <- prefix p1 len_p1 ;; y <- prefix q1 len_q1 ;;
  '(r1, new_work, len_r1) <- rec x y r1 new_work ;;
  let rm1 := p1 ++ q1 in
  x <- prefix pm1 len_pm1 ;; y <- prefix qm1 len_qm1 ;;
  '(rm1, new_work, len_rm1) <- rec x y rm1 new_work ;;
  rm1 <- clear_from rm1 len_rm1 ;;
  let rm2 := pm1 ++ qm1 in
  x <- prefix pm2 len_pm2 ;; y <- prefix qm2 len_qm2 ;;
  '(rm2, new_work, len_rm2) <- rec x y rm2 new_work ;;
  rm2 <- clear_from rm2 len_rm2 ;;
  let result := pm2 ++ qm2 in
  result <- fill_zero result 0 n ;;
  '(r0, r4) <- split_at result (Nat.min (4 * b) (length result)) ;;
  '(r0, new_work, len_r0) <- rec p0 q0 r0 new_work ;;
  '(r4, new_work, len_r4) <- rec pinf qinf r4 new_work ;;
  '(result, (r1, r2, r3), nres) <-
     toom3_interpolate b n (r0 ++ r4) r1 rm1 rm2 len_r1 len_rm1 len_rm2 len_r0 len_r4
       (xorb sign_pm1 sign_qm1) (xorb sign_pm2 sign_qm2) ;;
  Ret (result, r1 ++ r2 ++ r3 ++ new_work, nres).

(** src/ubig/mul/toom3.rs:299-437 *)
Definition square_toom3_into (rec : square_fn) (nr0 result work : digits)
  : M ((digits * digits) * nat) :=
  let nd0 := length nr0 in
  guard (5 <=? nd0)%nat PAssert ;;;
  guard (calc_toom3_work_size nd0 <=? length work)%nat PWork ;;;
  let b := ((nd0 + 2) / 3)%nat in
  let n := (2 * nd0)%nat in
  '(p1, res) <- split_at result (b + 1) ;;
  '(pm1, pm2) <- split_at res (b + 1) ;;
  '(wrk, new_work) <- split_at work (6 * b + 10) ;;
  '(r1, wrk) <- split_at wrk (2 * b + 3) ;;
  '(rm1, rm2) <- split_at wrk (2 * b + 3) ;;
  '(p0, m1, pinf) <- toom3_parts nr0 b ;;
  '((p1, len_p1), (pm1, (_, len_pm1)), (pm2, (_, len_pm2))) <-
     toom3_eval p0 m1 pinf p1 pm1 pm2 ;;
  x <- prefix p1 len_p1 ;;
  '(r1, new_work, len_r1) <- rec x r1 new_work ;;
  x <- prefix pm1 len_pm1 ;;
  '(rm1, new_work, len_rm1) <- rec x rm1 new_work ;;
  rm1 <- clear_from rm1 len_rm1 ;;
  x <- prefix pm2 len_pm2 ;;
  '(rm2, new_work, len_rm2) <- rec x rm2 new_work ;;
  rm2 <- clear_from rm2 len_rm2 ;;
  let result := p1 ++ pm1 ++ pm2 in
  result <- fill_zero result 0 n ;;
  '(r0, r4) <- split_at result (Nat.min (4 * b) (length result)) ;;
  '(r0, new_work, len_r0) <- rec p0 r0 new_work ;;
  '(r4, new_work, len_r4) <- rec pinf r4 new_work ;;
  '(result, (r1, r2, r3), nres) <-
     toom3_interpolate b n (r0 ++ r4) r1 rm1 rm2 len_r1 len_rm1 len_rm2 len_r0 len_r4
       false false ;;
  Ret (result, r1 ++ r2 ++ r3 ++ new_work, nres).

(** ** Dispatch *)

(** src/ubig/mul.rs:153-179 *)
Definition mul_dispatch (rec : mul_fn) (nr0 nr1 product work : digits)
  : M ((digits * digits) * nat) :=
  let n0 := length nr0 in
  let n1 := length nr1 in
  if (n0 =? 0)%nat || (n1 =? 0)%nat then Ret (product, work, 0%nat)
  else
    guard (n0 + n1 <=? length product)%nat PSpace ;;;
    if (TOOM3_CUTOFF <=? n0)%nat && (TOOM3_CUTOFF <=? n1)%nat
    then mul_big_toom3_into rec nr0 nr1 product work
    else if (KARATSUBA_CUTOFF <=? n0)%nat && (KARATSUBA_CUTOFF <=? n1)%nat
    then mul_big_karatsuba_into rec nr0 nr1 product work
    else '(product, n) <- mul_big_long_into nr0 nr1 product ;; Ret (product, work, n).

Fixpoint mul_fuel (fuel : nat) : mul_fn :=
  match fuel with
  | O => fun _ _ _ _ => NoFuel
  | S f => mul_dispatch (mul_fuel f)
  end.

(** Fuel for the top-level call: recursive calls are on strictly shorter
    operands, so the longer operand's length bounds the depth. *)
Definition mul_big_into_with_work : mul_fn := fun nr0 nr1 product work =>
  mul_fuel (S (Nat.max (length nr0) (length nr1))) nr0 nr1 product work.

(** src/ubig/mul.rs:117-147: as above with a fresh zeroed scratch vector of
    the computed size (none for long multiplication). *)
Definition mul_big_into (nr0 nr1 product : digits) : M (digits * nat) :=
  let n0 := length nr0 in
  let n1 := length nr1 in
  if (n0 =? 0)%nat || (n1 =? 0)%nat then Ret (product, 0%nat)
  else
    guard (n0 + n1 <=? length product)%nat PSpace ;;;
    let rec := mul_fuel (Nat.max n0 n1) in
    if (TOOM3_CUTOFF <=? n0)%nat && (TOOM3_CUTOFF <=? n1)%nat
    then '(product, _, n) <- mul_big_toom3_into rec nr0 nr1 product
                               (zeros (calc_toom3_work_size (Nat.max n0 n1))) ;;
         Ret (product, n)
    else if (KARATSUBA_CUTOFF <=? n0)%nat && (KARATSUBA_CUTOFF <=? n1)%nat
    then '(product, _, n) <- mul_big_karatsuba_into rec nr0 nr1 product
                               (zeros (calc_karatsuba_work_size (Nat.max n0 n1))) ;;
         Ret (product, n)
    else mul_big_long_into nr0 nr1 product.

(** src/ubig/mul.rs:219-244 *)
Definition square_dispatch (rec : square_fn) (nr0 square work : digits)
  : M ((digits * digits) * nat) :=
  let n0 := length nr0 in
  if (n0 =? 0)%nat then Ret (square, work, 0%nat)
  else
    guard (2 * n0 <=? length square)%nat PSpace ;;;
    if (TOOM3_CUTOFF <=? n0)%nat then square_toom3_into rec nr0 square work
    else if (KARATSUBA_CUTOFF <=? n0)%nat then square_karatsuba_into rec nr0 square work
    else '(square, n) <- square_long_into nr0 square ;; Ret (square, work, n).

Fixpoint square_fuel (fuel : nat) : square_fn :=
  match fuel with
  | O => fun _ _ _ => NoFuel
  | S f => square_dispatch (square_fuel f)
  end.

(** src/ubig/mul.rs:184-213 *)
Definition square_into (nr0 square : digits) : M (digits * nat) :=
  let n0 := length nr0 in
  if (n0 =? 0)%nat then Ret (square, 0%nat)
  else
    guard (2 * n0 <=? length square)%nat PSpace ;;;
    let rec := square_fuel n0 in
    if (TOOM3_CUTOFF <=? n0)%nat
    then '(square, _, n) <- square_toom3_into rec nr0 square
                              (zeros (calc_toom3_work_size n0)) ;; Ret (square, n)
    else if (KARATSUBA_CUTOFF <=? n0)%nat
    then '(square, _, n) <- square_karatsuba_into rec nr0 square
                              (zeros (calc_karatsuba_work_size n0)) ;; Ret (square, n)
    else square_long_into nr0 square.

End WithDigit.
