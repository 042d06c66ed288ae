(** * Bench: the programs of benches/fibo.rs and benches/divbase.rs.

    No proofs in this file.  The benchmarks are the only clients of the library in
    the repository besides its tests; their timing loops are not modelled. *)
From Coq Require Import ZArith List Bool.
From Verif Require Import Base Digit Slice Mul Div UBig Forms.
Import ListNotations.
Open Scope Z_scope.
Open Scope m_scope.

(** ** Fibonacci numbers by doubling; [k] is a [u32] *)
Section Fibonacci.
Variable dbg : bool.
Variable t : dty.
Notation D := (impl dbg t).

(** benches/fibo.rs:30-54 *)
Fixpoint fibonacci_work (fuel : nat) (k : Z) : M (digits * digits) :=
  match fuel with
  | O => NoFuel
  | S fuel =>
      let one := ubig_one in
      if k =? 0 then Ret (ubig_zero, one)
      else
        '(a, b) <- fibonacci_work fuel (k / 2) ;;
        if k mod 2 =? 0 then
          b2 <- shl_r dbg t b 1 ;;
          t <- sub_vr D b2 a ;;
          if k mod 4 =? 0 then
            x <- mul_vr D a t ;; y <- mul_vr D b t ;; y <- sub_vr D y one ;; Ret (x, y)
          else
            x <- mul_vr D a t ;; y <- mul_vr D b t ;; y <- add_vr D y one ;; Ret (x, y)
        else
          a2 <- shl_r dbg t a 1 ;;
          t <- add_vr D a2 b ;;
          if k mod 4 =? 1 then
            x <- mul_vr D a t ;; x <- add_vr D x one ;; y <- mul_vr D b t ;; Ret (x, y)
          else
            x <- mul_vr D a t ;; x <- sub_vr D x one ;; y <- mul_vr D b t ;; Ret (x, y)
  end.

(** a [u32] is halved to zero in at most 32 steps *)
Definition fibonacci_depth : nat := 33.

(** benches/fibo.rs:56-78 *)
Definition fibonacci (k : Z) : M digits :=
  if k =? 0 then Ret ubig_zero
  else if k =? 1 then Ret ubig_one
  else
    '(a, b) <- fibonacci_work fibonacci_depth ((k - 1) / 2) ;;
    if k mod 2 =? 0 then
      a2 <- shl_v dbg t a 1 ;; s <- add_vr D a2 b ;; mul_vr D s b
    else
      let one := ubig_one in
      b2 <- shl_r dbg t b 1 ;; d <- sub_vr D b2 a ;; t <- mul_vr D d b ;;
      if k mod 4 =? 1 then sub_vr D t one else add_vr D t one.
End Fibonacci.

(** ** Dividing a [u128] by 10^19: the candidates of benches/divbase.rs *)
Section DivBase.
Variable dbg : bool.

(** benches/divbase.rs:20 *)
Definition BENCH_RADIX : Z := 10000000000000000000.

(** benches/divbase.rs:22-41 *)
Definition mul_inv_base (n : Z) : M (Z * Z) :=
  let SCALE_LOW := 6225051964306646475 in
  let SCALE_HIGH := 15581492618384294730 in
  let n_low := Z.land n (2 ^ 64 - 1) in
  n_high <- w_shr dbg 128 n 64 ;;
  c <- w_mul dbg 128 SCALE_LOW n_low ;;
  carry <- w_shr dbg 128 c 64 ;;
  a <- w_mul dbg 128 SCALE_LOW n_high ;;
  b <- w_mul dbg 128 SCALE_HIGH n_low ;;
  a <- w_add dbg 128 a b ;;
  a <- w_add dbg 128 a carry ;;
  carry <- w_shr dbg 128 a 64 ;;
  a <- w_mul dbg 128 SCALE_HIGH n_high ;;
  a <- w_add dbg 128 a carry ;;
  a <- w_add dbg 128 a n_low ;;
  a <- w_shr dbg 128 a 64 ;;
  quot <- w_add dbg 128 a n_high ;;
  p <- w_mul dbg 128 quot BENCH_RADIX ;;
  rem <- w_sub dbg 128 n p ;;
  Ret (wrap 64 quot, wrap 64 rem).

(** benches/divbase.rs:43-58; [SCALE_SUM] is a constant, added at compile time *)
Definition mul_inv_base_2 (n : Z) : M (Z * Z) :=
  let SCALE_LOW := 11918280793837635165 in
  let SCALE_HIGH := 2126764793255865396 in
  let SCALE_SUM := 14045045587093500561 in
  let n_low := Z.land n (2 ^ 64 - 1) in
  n_high <- w_shr dbg 128 n 64 ;;
  n_sum <- w_add dbg 128 n_low n_high ;;
  q0 <- w_mul dbg 128 SCALE_LOW n_low ;;
  q2 <- w_mul dbg 128 SCALE_HIGH n_high ;;
  a <- w_mul dbg 128 SCALE_SUM n_sum ;;
  a <- w_sub dbg 128 a q0 ;;
  a <- w_sub dbg 128 a q2 ;;
  c <- w_shr dbg 128 q0 64 ;;
  q1 <- w_add dbg 128 a c ;;
  c <- w_shr dbg 128 q1 64 ;;
  s <- w_add dbg 128 q2 c ;;
  quot <- w_shr dbg 128 s 60 ;;
  p <- w_mul dbg 128 quot BENCH_RADIX ;;
  rem <- w_sub dbg 128 n p ;;
  Ret (wrap 64 quot, wrap 64 rem).

(** benches/divbase.rs:60-65 *)
Definition div_op_base (n : Z) : M (Z * Z) :=
  quot <- w_div n BENCH_RADIX ;;
  rem <- w_rem n BENCH_RADIX ;;
  Ret (wrap 64 quot, wrap 64 rem).

(** benches/divbase.rs:67-83 (feature "asm"): the x86-64 instruction [div], which divides
    rdx:rax by a 64-bit register.  A quotient that does not fit in rax, or a zero divisor,
    is a hardware fault (divide error), written [Panic PDivZero]. *)
Definition divq (n d : Z) : M (Z * Z) :=
  let n_low := wrap 64 n in
  x <- w_shr dbg 128 n 64 ;;
  let n_high := wrap 64 x in
  let rdx_rax := n_high * 2 ^ 64 + n_low in
  if d =? 0 then Panic PDivZero
  else if 2 ^ 64 <=? rdx_rax / d then Panic PDivZero
  else Ret (rdx_rax / d, rdx_rax mod d).

(** benches/divbase.rs:85-89 *)
Definition divq_base (n : Z) : M (Z * Z) := divq n BENCH_RADIX.

(** benches/divbase.rs:97-107 and 111-121: lower a quotient digit at most twice *)
Definition fix_quot (n q qd : Z) : M (Z * Z) :=
  if n <? qd then
    q <- w_sub dbg 64 q 1 ;;
    qd <- w_sub dbg 128 qd BENCH_RADIX ;;
    if n <? qd then
      q <- w_sub dbg 64 q 1 ;;
      qd <- w_sub dbg 128 qd BENCH_RADIX ;;
      Ret (q, qd)
    else Ret (q, qd)
  else Ret (q, qd).

(** benches/divbase.rs:91-127 *)
Definition div_long_base (n : Z) : M (Z * Z) :=
  d_high <- w_shr dbg 64 BENCH_RADIX 32 ;;
  n0 <- w_shr dbg 128 n 32 ;;
  x <- w_shr dbg 128 n0 32 ;;
  q0 <- w_div (wrap 64 x) d_high ;;
  qd <- w_mul dbg 128 q0 BENCH_RADIX ;;
  '(q0, qd) <- fix_quot n0 q0 qd ;;
  x <- w_sub dbg 128 n0 qd ;;
  x <- w_shl dbg 128 x 32 ;;
  let n1 := Z.lor x (Z.land n (2 ^ 32 - 1)) in
  x <- w_shr dbg 128 n1 32 ;;
  q1 <- w_div (wrap 64 x) d_high ;;
  qd <- w_mul dbg 128 q1 BENCH_RADIX ;;
  '(q1, qd) <- fix_quot n1 q1 qd ;;
  x <- w_sub dbg 128 n1 qd ;;
  let rem := wrap 64 x in
  h <- w_shl dbg 64 q0 32 ;;
  Ret (Z.lor h q1, rem).

(** benches/divbase.rs:128-135: the fold over the inputs *)
Fixpoint test_div_from (op : Z -> M (Z * Z)) (nums : list Z) (acc_q acc_r : Z) : M (Z * Z) :=
  match nums with
  | [] => Ret (acc_q, acc_r)
  | n :: nums =>
      '(q, r) <- op n ;;
      test_div_from op nums (Z.lxor acc_q q) (Z.lxor acc_r r)
  end.
Definition test_div_base (op : Z -> M (Z * Z)) (nums : list Z) : M (Z * Z) :=
  test_div_from op nums 0 0.
End DivBase.
