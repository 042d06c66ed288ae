(** * Properties C41 (Fibonacci program), C42 (division by 10^19), C43 (digit traits). *)
From Coq Require Import ZArith String List Bool.
From Verif Require Import Base Digit Slice UBig Traits Bench Spec SpecFib SpecFibStop Cases FibProof FibExact BenchProof TraitsProof.
Import ListNotations.
Open Scope Z_scope.

(** The program returns the Fibonacci number, or a multiplication panics. *)
Theorem C41_fibonacci : forall dbg t k, 0 <= k < 2 ^ 32 ->
  (exists r, fibonacci dbg t k = Ret r /\ well_formed t r /\ num t r = fib (Z.to_nat k))
  \/ fibonacci dbg t k = Panic (PUnwrap Underflow).
Proof. exact fibonacci_claim. Qed.
Print Assumptions C41_fibonacci.
(** It always returns while the factors of the last product are schoolbook size. *)
Theorem C41_fibonacci_total : forall dbg t k, 0 <= k < 2 ^ 32 ->
  fib (Z.to_nat ((k + 1) / 2)) < radix t ^ 19 ->
  exists r, fibonacci dbg t k = Ret r /\ well_formed t r /\ num t r = fib (Z.to_nat k).
Proof. exact fibonacci_total_claim. Qed.
Print Assumptions C41_fibonacci_total.
Example C41_case : fibonacci true D8 20 = Ret [65; 67] /\ fib 20 = 6765
  /\ fib (Z.to_nat ((20 + 1) / 2)) < radix D8 ^ 19
  /\ fibonacci false B8 21 = Ret [194; 42] /\ fib 21 = 10946.
Proof. fact. Qed.
(** It also returns while those factors have at most forty digits. *)
Theorem C41_forty : forall dbg t k, 0 <= k < 2 ^ 32 ->
  3 * fib (Z.to_nat ((k + 1) / 2)) < radix t ^ 40 ->
  exists r, fibonacci dbg t k = Ret r /\ well_formed t r /\ num t r = fib (Z.to_nat k).
Proof. exact fibonacci_forty. Qed.
Print Assumptions C41_forty.
Example C41_forty_case :
  (* F(800) is computed from F(400), whose 35 bytes are beyond the schoolbook size *)
  match fibonacci false B8 400 with
  | Ret x => length x = 35%nat /\ (radix B8 ^ 19 <? num B8 x) = true /\ (3 * num B8 x <? radix B8 ^ 40) = true
  | _ => False
  end.
Proof. vm_compute. repeat split. Qed.
(** It panics exactly when one of its products is one on which the multiplication stops. *)
Theorem C41_exact : forall dbg t k, 0 <= k < 2 ^ 32 ->
  (fib_stops (radix t) k -> fibonacci dbg t k = Panic (PUnwrap Underflow))
  /\ (~ fib_stops (radix t) k ->
      exists r, fibonacci dbg t k = Ret r /\ well_formed t r /\ num t r = fib (Z.to_nat k)).
Proof. exact fibonacci_exact. Qed.
Print Assumptions C41_exact.
(** Debug and release builds do the same. *)
Theorem C41_builds : forall t k, 0 <= k < 2 ^ 32 -> fibonacci true t k = fibonacci false t k.
Proof. exact fibonacci_builds. Qed.
Print Assumptions C41_builds.
Example C41_exact_case : ~ fib_stops (radix B8) 1000 /\ lucas 10 = 123
  /\ exists r, fibonacci true B8 1000 = Ret r.
Proof.
  split; [|split; [reflexivity|]].
  - intros H. apply (proj1 (C41_exact true B8 1000 ltac:(split; [discriminate|reflexivity]))) in H.
    vm_compute in H. discriminate H.
  - eexists. vm_compute. reflexivity.
Qed.
(** F(1000), of 87 bytes or 105 digits in base 100 *)
Example C41_big_case :
  match fibonacci true B8 1000, fibonacci true D8 1000 with
  | Ret x, Ret y => num B8 x = num D8 y /\ length x = 87%nat /\ length y = 105%nat
  | _, _ => False
  end.
Proof. vm_compute. repeat split. Qed.

Theorem C42_div_base : forall dbg n, 0 <= n < 10 ^ 38 ->
  mul_inv_base dbg n = Ret (n / 10 ^ 19, n mod 10 ^ 19)
  /\ mul_inv_base_2 dbg n = Ret (n / 10 ^ 19, n mod 10 ^ 19)
  /\ div_op_base n = Ret (n / 10 ^ 19, n mod 10 ^ 19)
  /\ div_long_base dbg n = Ret (n / 10 ^ 19, n mod 10 ^ 19)
  /\ divq_base dbg n = Ret (n / 10 ^ 19, n mod 10 ^ 19).
Proof. exact div_base_claim. Qed.
Print Assumptions C42_div_base.
(** Three of them divide every number whose quotient fits in 64 bits; for the others the
    division instruction traps. *)
Theorem C42_wide : forall dbg n, 0 <= n < 2 ^ 128 ->
  (n / 10 ^ 19 < 2 ^ 64 ->
     div_op_base n = Ret (n / 10 ^ 19, n mod 10 ^ 19)
     /\ div_long_base dbg n = Ret (n / 10 ^ 19, n mod 10 ^ 19)
     /\ divq_base dbg n = Ret (n / 10 ^ 19, n mod 10 ^ 19))
  /\ (2 ^ 64 <= n / 10 ^ 19 -> divq_base dbg n = Panic PDivZero).
Proof. exact div_base_wide_claim. Qed.
Print Assumptions C42_wide.
(** For every 128-bit number, the division operator and long division return the low 64
    bits of the quotient and the remainder. *)
Theorem C42_all : forall dbg n, 0 <= n < 2 ^ 128 ->
  div_op_base n = Ret ((n / 10 ^ 19) mod 2 ^ 64, n mod 10 ^ 19)
  /\ div_long_base dbg n = Ret ((n / 10 ^ 19) mod 2 ^ 64, n mod 10 ^ 19).
Proof. exact div_base_all_claim. Qed.
Print Assumptions C42_all.
(** So do the two multiplying routines in debug builds, if they do not panic. *)
Theorem C42_debug : forall n, 0 <= n < 2 ^ 128 ->
  (mul_inv_base true n = Ret ((n / 10 ^ 19) mod 2 ^ 64, n mod 10 ^ 19)
   \/ mul_inv_base true n = Panic POverflow)
  /\ (mul_inv_base_2 true n = Ret ((n / 10 ^ 19) mod 2 ^ 64, n mod 10 ^ 19)
      \/ mul_inv_base_2 true n = Panic POverflow).
Proof. exact div_base_debug_claim. Qed.
Print Assumptions C42_debug.
(** In release builds they can be wrong above 10^38. *)
Theorem C42_release_refuted :
  (exists n r, 0 <= n < 2 ^ 128 /\ mul_inv_base false n = Ret r /\ r <> (n / 10 ^ 19, n mod 10 ^ 19)
     /\ n / 10 ^ 19 < 2 ^ 64)
  /\ (exists n r, 0 <= n < 2 ^ 128 /\ mul_inv_base_2 false n = Ret r /\ r <> (n / 10 ^ 19, n mod 10 ^ 19)
     /\ n / 10 ^ 19 < 2 ^ 64).
Proof.
  split.
  - exists (15700474536878431869 * 10 ^ 19), (15700474536878431868, 10 ^ 19).
    split; [fact|]. split; [fact|]. split; [|fact]. intros E. vm_compute in E. discriminate E.
  - exists (10889395234254033663 * 10 ^ 19 - 1), (10889395234254033663, 2 ^ 64 - 1).
    split; [fact|]. split; [fact|]. split; [|fact]. intros E. vm_compute in E. discriminate E.
Qed.
Print Assumptions C42_release_refuted.
Example C42_all_case : (2 ^ 128 - 1) / 10 ^ 19 = 2 ^ 64 + 15581492618384294730
  /\ div_long_base true (2 ^ 128 - 1) = Ret (15581492618384294730, 3374607431768211455)
  /\ mul_inv_base true (11 * 10 ^ 37 + 3) = Ret (11 * 10 ^ 18, 3)
  /\ mul_inv_base_2 true (10889395234254033663 * 10 ^ 19 - 1) = Panic POverflow.
Proof. fact. Qed.
(** The program prints the same two numbers for each of the five. *)
Theorem C42_fold : forall dbg op nums, Forall (fun n => 0 <= n < 10 ^ 38) nums ->
  In op [mul_inv_base dbg; mul_inv_base_2 dbg; div_op_base; div_long_base dbg; divq_base dbg] ->
  test_div_base op nums = Ret (fold_left (fun a n => Z.lxor a (n / 10 ^ 19)) nums 0,
                               fold_left (fun a n => Z.lxor a (n mod 10 ^ 19)) nums 0).
Proof. exact div_base_fold_claim. Qed.
Print Assumptions C42_fold.
Example C42_case : 10 ^ 38 - 1 < 10 ^ 38 /\ (10 ^ 38 - 1) / 10 ^ 19 = 9999999999999999999
  /\ mul_inv_base_2 true (10 ^ 38 - 1) = Ret (9999999999999999999, 9999999999999999999)
  /\ div_long_base true (10 ^ 37 + 23) = Ret (1000000000000000000, 23)
  /\ (15 * 10 ^ 37 + 7) / 10 ^ 19 < 2 ^ 64
  /\ divq_base true (15 * 10 ^ 37 + 7) = Ret (15000000000000000000, 7)
  /\ test_div_base (mul_inv_base true) [10 ^ 19 * 6 + 5; 10 ^ 19 * 3 + 9] = Ret (5, 12)
  (* outside the range the two multiplying variants overflow *)
  /\ mul_inv_base true (2 ^ 128 - 1) = Panic POverflow
  /\ mul_inv_base_2 true (2 ^ 128 - 1) = Panic POverflow.
Proof. fact. Qed.

(** Full statement of C43: the sum and product of two digits is a digit, exact or
    reported as an overflow.  False: decimal digits add up to more than the base, and
    release builds wrap. *)
Theorem C43_decimal_refuted : exists d e r, 0 <= d < radix D8 /\ 0 <= e < radix D8
  /\ digit_add true D8 d e = Ret r /\ ~ r < radix D8.
Proof. exists 60, 60, 120. fact. Qed.
Print Assumptions C43_decimal_refuted.
Theorem C43_release_refuted : exists d e r, 0 <= d < radix B8 /\ 0 <= e < radix B8
  /\ digit_add false B8 d e = Ret r /\ r <> d + e.
Proof. exists 200, 100, 44. fact. Qed.
Print Assumptions C43_release_refuted.
(** Missing: results that do not fit.  What fits is exact; in debug builds of the binary
    types everything else panics. *)
Theorem C43_partial : forall dbg t d e, 0 <= d < radix t -> 0 <= e < radix t ->
  (d + e < radix t -> digit_add dbg t d e = Ret (d + e))
  /\ (d * e < radix t -> digit_mul dbg t d e = Ret (d * e)).
Proof. exact digit_traits_claim. Qed.
Print Assumptions C43_partial.
Theorem C43_overflow_partial : forall t d e, is_binary t = true -> 0 <= d < radix t -> 0 <= e < radix t ->
  (radix t <= d + e -> digit_add true t d e = Panic POverflow)
  /\ (radix t <= d * e -> digit_mul true t d e = Panic POverflow).
Proof. exact digit_traits_overflow_claim. Qed.
Print Assumptions C43_overflow_partial.
(** The outcome for all values of the storage type: exact if it fits there, else a panic
    in debug builds and the low bits in release builds. *)
Theorem C43_exact_partial : forall dbg t d e, storage t d -> storage t e ->
  (storage t (d + e) -> digit_add dbg t d e = Ret (d + e))
  /\ (~ storage t (d + e) ->
      digit_add dbg t d e = if dbg then Panic POverflow else Ret ((d + e) mod 2 ^ bits t))
  /\ (storage t (d * e) -> digit_mul dbg t d e = Ret (d * e))
  /\ (~ storage t (d * e) ->
      digit_mul dbg t d e = if dbg then Panic POverflow else Ret ((d * e) mod 2 ^ bits t)).
Proof. exact digit_traits_exact. Qed.
Print Assumptions C43_exact_partial.
Example C43_exact_case : storage D8 99 /\ storage D8 (99 + 99) /\ ~ storage D8 (99 * 99)
  /\ digit_add true D8 99 99 = Ret 198 /\ digit_mul true D8 99 99 = Panic POverflow
  /\ digit_mul false D8 99 99 = Ret (9801 - 38 * 256).
Proof.
  assert (H : ~ storage D8 (99 * 99)) by (intros [_ H]; vm_compute in H; discriminate H).
  split; [fact|]. split; [fact|]. split; [exact H|]. fact.
Qed.
(** the neutral elements *)
Theorem C43_neutral : forall dbg t d, 0 <= d < radix t ->
  digit_add dbg t d digit_zero = Ret d /\ digit_mul dbg t d digit_one = Ret d
  /\ (digit_is_zero d = true <-> d = digit_zero).
Proof. exact digit_neutral_claim. Qed.
Print Assumptions C43_neutral.
Theorem C43_error_texts : forall e e', error_text e = error_text e' -> e = e'.
Proof. exact error_text_claim. Qed.
Print Assumptions C43_error_texts.
Example C43_case : digit_add true B8 200 55 = Ret 255 /\ digit_mul true D8 9 11 = Ret 99
  /\ digit_mul true B8 16 16 = Panic POverflow /\ digit_mul false B8 16 17 = Ret 16.
Proof. fact. Qed.
