(** * Properties C21, C22: shifts. *)
From Coq Require Import ZArith List Bool.
From Verif Require Import Base Digit Slice Mul Div UBig Spec Cases ClaimsBasic.
Import ListNotations.
Open Scope Z_scope.

(** Full statement of C21: [x << n] denotes [x * 2^n] and is normalised.  The
    normal form fails for zero of a binary type. *)
Theorem C21_refuted : exists t n r, well_formed t [] /\ 0 <= n
  /\ shl_assign true t [] n = Ret r /\ ~ normal r.
Proof. exists B8, 9, [0]. fact. Qed.
Print Assumptions C21_refuted.

Theorem C21_shl_binary : forall dbg t x n, is_binary t = true -> valid t x -> 0 <= n ->
  exists r, shl_assign dbg t x n = Ret r /\ valid t r /\ num t r = num t x * 2 ^ n
            /\ (normal x -> x <> [] \/ n < bits t -> normal r).
Proof. exact shl_bin_claim. Qed.
Print Assumptions C21_shl_binary.
Example C21_case : valid B8 [255; 1] /\ shl_assign true B8 [255; 1] 19 = Ret [0; 0; 248; 15]
  /\ num B8 [0; 0; 248; 15] = 511 * 2 ^ 19.
Proof. fact. Qed.

(** Full statement of C22: [x >> n] denotes [x / 2^n] for every [n] and never
    panics.  False: 1 >> 17 panics on a slice index for 8-bit digits, and
    decimal types are unimplemented beyond one digit. *)
Theorem C22_refuted : exists x n, well_formed B8 x /\ 0 <= n
  /\ shr_assign true B8 x n = Panic PIndex.
Proof. exists [1], 17. fact. Qed.
Print Assumptions C22_refuted.
Theorem C22_refuted_decimal : exists x n, well_formed D8 x /\ 0 <= n
  /\ shr_assign true D8 x n = Panic PUnimplemented.
Proof. exists [1], 5. fact. Qed.
Print Assumptions C22_refuted_decimal.

(** Missing: the shift amounts on which the code panics. *)
Theorem C22_partial : forall dbg t x n, well_formed t x -> 0 <= n ->
  (if is_binary t then n / bits t <= Z.of_nat (length x)
   else n <= 4 * Z.of_nat (MAX_HEX_PLACES t)) ->
  exists r, shr_assign dbg t x n = Ret r /\ well_formed t r /\ num t r = num t x / 2 ^ n.
Proof. exact shr_claim. Qed.
Print Assumptions C22_partial.
(** The guard is exact: outside it the code always panics. *)
Theorem C22_panics : forall dbg t x n, 0 <= n ->
  (if is_binary t then Z.of_nat (length x) < n / bits t
   else 4 * Z.of_nat (MAX_HEX_PLACES t) < n) ->
  shr_assign dbg t x n = Panic (if is_binary t then PIndex else PUnimplemented).
Proof. exact shr_panic_claim. Qed.
Print Assumptions C22_panics.
Example C22_case : well_formed B16 [7; 8; 9] /\ 20 / bits B16 <= Z.of_nat (length [7; 8; 9])
  /\ shr_assign true B16 [7; 8; 9] 20 = Ret [36864] /\ shr_assign true D8 [0; 0; 1] 4 = Ret [25; 6].
Proof. fact. Qed.
