(** * Properties C11, C17: multiplication and division by a machine integer. *)
From Coq Require Import ZArith List Bool.
From Verif Require Import Base Digit Slice Mul Div UBig Spec Cases ClaimsBasic.
Import ListNotations.
Open Scope Z_scope.

Theorem C11_mul_machine : forall dbg t x n, valid t x -> storage t n ->
  exists r, mul_assign_T dbg t x n = Ret r /\ valid t r /\ num t r = num t x * n
            /\ (normal x -> normal r).
Proof. exact mul_T_claim. Qed.
Print Assumptions C11_mul_machine.
Example C11_case : valid D8 [99; 99] /\ storage D8 255
  /\ mul_assign_T true D8 [99; 99] 255 = Ret [45; 97; 54; 2] /\ 9999 * 255 = 2549745.
Proof. fact. Qed.

(** Full statement of C17: [x / n] and [x % n] panic exactly when [n = 0] and
    otherwise satisfy the Euclidean equation.  False for decimal divisors of two
    digits: 1000000 / 157 panics with a machine division by zero, and
    1000000 / 199 returns 23391 with remainder 34 instead of 5025 and 25. *)
Theorem C17_panic_refuted : exists x n, well_formed D8 x /\ storage D8 n /\ n <> 0
  /\ div_assign_T true D8 x n = Panic PDivZero.
Proof. exists [0; 0; 0; 1], 157. fact. Qed.
Print Assumptions C17_panic_refuted.
Theorem C17_value_refuted : exists x n q r, well_formed D8 x /\ storage D8 n /\ n <> 0
  /\ div_assign_T true D8 x n = Ret q /\ rem_assign_T true D8 x n = Ret r
  /\ num D8 x <> num D8 q * n + num D8 r.
Proof. exists [0; 0; 0; 1], 199, [91; 33; 2], [34]. fact. Qed.
Print Assumptions C17_value_refuted.

(** Missing: decimal divisors of two digits (see C17_refuted).  For every
    divisor below the base (all divisors for binary types): *)
Theorem C17_partial : forall dbg t x n, valid t x -> storage t n -> n < radix t ->
  (n = 0 -> div_assign_T dbg t x n = Panic (PExplicit DivisionByZero)
            /\ rem_assign_T dbg t x n = Panic (PExplicit DivisionByZero))
  /\ (n <> 0 -> exists q r, div_assign_T dbg t x n = Ret q /\ rem_assign_T dbg t x n = Ret r
        /\ well_formed t q /\ well_formed t r
        /\ num t x = num t q * n + num t r /\ 0 <= num t r < n).
Proof. exact divrem_T_claim. Qed.
Print Assumptions C17_partial.
Example C17_case : valid B8 [1; 2; 3] /\ storage B8 7 /\ 7 < radix B8
  /\ div_assign_T true B8 [1; 2; 3] 7 = Ret [0; 110] /\ rem_assign_T true B8 [1; 2; 3] 7 = Ret [1].
Proof. fact. Qed.
