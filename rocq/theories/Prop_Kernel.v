(** * Properties C35, C36: the digit kernels. *)
From Coq Require Import ZArith List Bool.
From Verif Require Import Base Digit Spec Cases ClaimsDigit TraitsProof.
Import ListNotations.
Open Scope Z_scope.

Theorem C35_div_rem_base : forall dbg n, 0 <= n < 10 ^ 19 * (10 ^ 19 + 2) ->
  div_rem_base dbg (decimal_radix D64) n = Ret (n / 10 ^ 19, n mod 10 ^ 19).
Proof. exact div_rem_base_claim. Qed.
Print Assumptions C35_div_rem_base.
Example C35_case : 0 <= 10 ^ 38 - 1 /\ 10 ^ 38 - 1 < 10 ^ 19 * (10 ^ 19 + 2)
  /\ div_rem_base true (decimal_radix D64) (10 ^ 38 - 1)
     = Ret (9999999999999999999, 9999999999999999999).
Proof. fact. Qed.

(** For all 128-bit numbers, debug builds return the right remainder and the low 64 bits of
    the quotient, or panic. *)
Theorem C35_debug : forall n, 0 <= n < 2 ^ 128 ->
  div_rem_base true (decimal_radix D64) n = Ret ((n / 10 ^ 19) mod 2 ^ 64, n mod 10 ^ 19)
  \/ div_rem_base true (decimal_radix D64) n = Panic POverflow.
Proof. exact div_rem_base_debug_claim. Qed.
Print Assumptions C35_debug.
Example C35_debug_case :
  div_rem_base true (decimal_radix D64) (11 * 10 ^ 37 + 3) = Ret (11 * 10 ^ 18, 3)
  /\ div_rem_base true (decimal_radix D64) (2 ^ 128 - 1) = Panic POverflow.
Proof. fact. Qed.

(** increment, decrement, addition, subtraction, doubling *)
Theorem C36_add_sub : forall dbg t d o (c : bool), 0 <= d < radix t -> 0 <= o < radix t ->
  (exists r k, d_inc (impl dbg t) d = Ret (r, k)
     /\ 0 <= r < radix t /\ r + radix t * of_bool k = d + 1)
  /\ (exists r k, d_dec (impl dbg t) d = Ret (r, k)
     /\ 0 <= r < radix t /\ r - radix t * of_bool k = d - 1)
  /\ (exists r k, d_add_carry (impl dbg t) d o c = Ret (r, k)
     /\ 0 <= r < radix t /\ r + radix t * of_bool k = d + o + of_bool c)
  /\ (exists r k, d_sub_carry (impl dbg t) d o c = Ret (r, k)
     /\ 0 <= r < radix t /\ r - radix t * of_bool k = d - o - of_bool c)
  /\ (exists r k, d_double_carry (impl dbg t) d c = Ret (r, k)
     /\ 0 <= r < radix t /\ r + radix t * of_bool k = 2 * d + of_bool c).
Proof. exact kernel_add_sub_claim. Qed.
Print Assumptions C36_add_sub.
Example C36_add_sub_case : 0 <= 9999999999999999999 /\ 9999999999999999999 < radix D64
  /\ d_add_carry (impl true D64) 9999999999999999999 9999999999999999999 true
     = Ret (9999999999999999999, true)
  /\ d_double_carry (impl true B64) 9223372036854775809 true = Ret (3, true).
Proof. fact. Qed.

(** shifts by less than a digit *)
Theorem C36_shift : forall dbg t d s c, 0 <= d < radix t -> 1 <= s -> 2 ^ s < radix t ->
  0 <= c < 2 ^ s ->
  (exists r k, d_shl_carry (impl dbg t) d s c = Ret (r, k)
     /\ 0 <= r < radix t /\ 0 <= k < 2 ^ s /\ r + radix t * k = d * 2 ^ s + c)
  /\ (exists r k, d_shr_carry (impl dbg t) d s c = Ret (r, k)
     /\ 0 <= r < radix t /\ 0 <= k < 2 ^ s /\ r * 2 ^ s + k = d + radix t * c).
Proof. exact kernel_shift_claim. Qed.
Print Assumptions C36_shift.
Example C36_shift_case : 2 ^ 6 < radix D8 /\ d_shl_carry (impl true D8) 99 6 63 = Ret (99, 63)
  /\ d_shr_carry (impl true D8) 99 6 63 = Ret (99, 63).
Proof. fact. Qed.

(** the largest shift that keeps a nonzero digit below the base *)
Theorem C36_max_shift : forall dbg t d, 0 < d < radix t ->
  exists s, d_max_shift (impl dbg t) d = Ret s /\ 0 <= s /\ d * 2 ^ s < radix t <= d * 2 ^ (s + 1).
Proof. exact kernel_max_shift_claim. Qed.
Print Assumptions C36_max_shift.
Example C36_max_shift_case : d_max_shift (impl true D8) 3 = Ret 5
  /\ d_max_shift (impl true B32) 1 = Ret 31.
Proof. fact. Qed.

(** multiply-add and multiply-subtract *)
Theorem C36_mul : forall dbg t d f g c, 0 <= d < radix t -> 0 <= f < radix t ->
  0 <= g < radix t -> 0 <= c < radix t ->
  (exists r k, d_mul_carry (impl dbg t) d f c = Ret (r, k)
     /\ 0 <= r < radix t /\ 0 <= k < radix t /\ r + radix t * k = d * f + c)
  /\ (exists r k, d_add_prod_carry (impl dbg t) d f g c = Ret (r, k)
     /\ 0 <= r < radix t /\ 0 <= k < radix t /\ r + radix t * k = d + f * g + c)
  /\ (exists r k, d_sub_prod_carry (impl dbg t) d f g c = Ret (r, k)
     /\ 0 <= r < radix t /\ 0 <= k < radix t /\ r - radix t * k = d - f * g - c).
Proof. exact kernel_mul_claim. Qed.
Print Assumptions C36_mul.
Example C36_mul_case : d_add_prod_carry (impl true B8) 255 255 255 255 = Ret (255, 255)
  /\ d_add_prod_carry (impl true D64) 9999999999999999999 9999999999999999999
       9999999999999999999 9999999999999999999 = Ret (9999999999999999999, 9999999999999999999).
Proof. fact. Qed.

(** division by a digit and by three, carry below the divisor *)
Theorem C36_div : forall dbg t d f c, 0 <= d < radix t -> 0 < f < radix t -> 0 <= c < f ->
  d_rem_carry (impl dbg t) d f c = Ret ((d + radix t * c) mod f)
  /\ d_div_carry (impl dbg t) d f c = Ret ((d + radix t * c) / f, (d + radix t * c) mod f)
  /\ (c < 3 -> d_div3_carry (impl dbg t) d c
               = Ret ((d + radix t * c) / 3, (d + radix t * c) mod 3)).
Proof. exact kernel_div_claim. Qed.
Print Assumptions C36_div.
Example C36_div_case : 0 <= 98 /\ 98 < 99 /\ d_div_carry (impl true D8) 99 99 98 = Ret (99, 98)
  /\ d_div3_carry (impl true B64) 18446744073709551615 2 = Ret (18446744073709551615, 2).
Proof. fact. Qed.
