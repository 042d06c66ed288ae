(** * Property C37: a result of a debug build is the result of a release build.

    [impl true t] has overflow checks and debug assertions, [impl false t] wraps
    and skips them.  Digits and operands are arbitrary. *)
From Coq Require Import ZArith List Bool.
From Verif Require Import Base Digit Slice Mul Div UBig Text Builds Cases.
Import ListNotations.
Open Scope Z_scope.

Theorem C37_add : forall t x y r, add_assign (impl true t) x y = Ret r -> add_assign (impl false t) x y = Ret r.
Proof. exact (fun t => same_add _ _ (impl_same t)). Qed.
Print Assumptions C37_add.
Theorem C37_sub : forall t x y r, sub_assign (impl true t) x y = Ret r -> sub_assign (impl false t) x y = Ret r.
Proof. exact (fun t => same_sub _ _ (impl_same t)). Qed.
Print Assumptions C37_sub.
Theorem C37_mul : forall t x y r, mul_assign (impl true t) x y = Ret r -> mul_assign (impl false t) x y = Ret r.
Proof. exact (fun t => same_mul _ _ (impl_same t)). Qed.
Print Assumptions C37_mul.
Theorem C37_square : forall t x r, square (impl true t) x = Ret r -> square (impl false t) x = Ret r.
Proof. exact (fun t => same_square _ _ (impl_same t)). Qed.
Print Assumptions C37_square.
Theorem C37_pow : forall t x n r, pow (impl true t) x n = Ret r -> pow (impl false t) x n = Ret r.
Proof. exact (fun t => same_pow _ _ (impl_same t)). Qed.
Print Assumptions C37_pow.
(** The result of the two division methods includes the new dividend and the error. *)
Theorem C37_div_assign_big : forall t x y r,
  div_assign_big (impl true t) x y = Ret r -> div_assign_big (impl false t) x y = Ret r.
Proof. exact (fun t => same_div_assign_big _ _ (impl_same t)). Qed.
Print Assumptions C37_div_assign_big.
Theorem C37_rem_assign_big : forall t x y r,
  rem_assign_big (impl true t) x y = Ret r -> rem_assign_big (impl false t) x y = Ret r.
Proof. exact (fun t => same_rem_assign_big _ _ (impl_same t)). Qed.
Print Assumptions C37_rem_assign_big.
Theorem C37_div : forall t x y r, div_assign (impl true t) x y = Ret r -> div_assign (impl false t) x y = Ret r.
Proof. exact (fun t => same_div _ _ (impl_same t)). Qed.
Print Assumptions C37_div.
Theorem C37_rem : forall t x y r, rem_assign (impl true t) x y = Ret r -> rem_assign (impl false t) x y = Ret r.
Proof. exact (fun t => same_rem _ _ (impl_same t)). Qed.
Print Assumptions C37_rem.
Theorem C37_machine : forall t x n r,
  (add_assign_T true t x n = Ret r -> add_assign_T false t x n = Ret r)
  /\ (sub_assign_T true t x n = Ret r -> sub_assign_T false t x n = Ret r)
  /\ (mul_assign_T true t x n = Ret r -> mul_assign_T false t x n = Ret r)
  /\ (div_assign_T true t x n = Ret r -> div_assign_T false t x n = Ret r)
  /\ (rem_assign_T true t x n = Ret r -> rem_assign_T false t x n = Ret r).
Proof.
  exact (fun t x n r => conj (same_add_T t x n r) (conj (same_sub_T t x n r)
    (conj (same_mul_T t x n r) (conj (same_div_T t x n r) (same_rem_T t x n r))))).
Qed.
Print Assumptions C37_machine.
(** the operators and methods with digits *)
Theorem C37_digit : forall t x d r,
  (add_assign_d (impl true t) x d = Ret r -> add_assign_d (impl false t) x d = Ret r)
  /\ (sub_assign_d (impl true t) x d = Ret r -> sub_assign_d (impl false t) x d = Ret r)
  /\ (mul_assign_d (impl true t) x d = Ret r -> mul_assign_d (impl false t) x d = Ret r)
  /\ (div_assign_d (impl true t) x d = Ret r -> div_assign_d (impl false t) x d = Ret r)
  /\ (rem_assign_d (impl true t) x d = Ret r -> rem_assign_d (impl false t) x d = Ret r)
  /\ (rem_ref_d (impl true t) x d = Ret r -> rem_ref_d (impl false t) x d = Ret r).
Proof.
  exact (fun t x d r => conj (same_add_d _ _ (impl_same t) x d r) (conj (same_sub_d _ _ (impl_same t) x d r)
    (conj (same_mul_d _ _ (impl_same t) x d r) (conj (same_div_d _ _ (impl_same t) x d r)
    (conj (same_rem_d _ _ (impl_same t) x d r) (same_rem_ref_d _ _ (impl_same t) x d r)))))).
Qed.
Print Assumptions C37_digit.
(** the remaining methods: their results include the number left behind and the error *)
Theorem C37_methods : forall t x y o d e,
  (forall r, add_assign_big_at_offset (impl true t) x y o = Ret r -> add_assign_big_at_offset (impl false t) x y o = Ret r)
  /\ (forall r, sub_assign_big_at_offset (impl true t) x y o = Ret r -> sub_assign_big_at_offset (impl false t) x y o = Ret r)
  /\ (forall r, ubig_mul_add_assign_digit (impl true t) x d e = Ret r -> ubig_mul_add_assign_digit (impl false t) x d e = Ret r)
  /\ (forall f r, ubig_mul_pair_add_assign_digit (impl true t) x d e f = Ret r ->
                  ubig_mul_pair_add_assign_digit (impl false t) x d e f = Ret r)
  /\ (forall r, ubig_div_assign_digit (impl true t) x d = Ret r -> ubig_div_assign_digit (impl false t) x d = Ret r)
  /\ (forall r, ubig_div_assign_digit_pair (impl true t) x d e = Ret r -> ubig_div_assign_digit_pair (impl false t) x d e = Ret r).
Proof.
  exact (fun t x y o d e => conj (same_add_offset _ _ (impl_same t) x y o) (conj (same_sub_offset _ _ (impl_same t) x y o)
    (conj (same_ubig_mul_add _ _ (impl_same t) x d e) (conj (fun f => same_ubig_mul_pair _ _ (impl_same t) x d e f)
    (conj (same_ubig_div_digit _ _ (impl_same t) x d) (same_ubig_div_pair _ _ (impl_same t) x d e)))))).
Qed.
Print Assumptions C37_methods.
Theorem C37_shift : forall t x n r,
  (shl_assign true t x n = Ret r -> shl_assign false t x n = Ret r)
  /\ (shr_assign true t x n = Ret r -> shr_assign false t x n = Ret r).
Proof. exact (fun t x n r => conj (same_shl t x n r) (same_shr t x n r)). Qed.
Print Assumptions C37_shift.
Theorem C37_parse : forall t s r, from_str true t s = Ret r -> from_str false t s = Ret r.
Proof. exact same_from_str. Qed.
Print Assumptions C37_parse.
Theorem C37_to_decimal : forall t x r, to_decimal true t x = Ret r -> to_decimal false t x = Ret r.
Proof. exact same_to_decimal. Qed.
Print Assumptions C37_to_decimal.
Theorem C37_display : forall t f x r, fmt_display_bin true t f x = Ret r -> fmt_display_bin false t f x = Ret r.
Proof. exact same_display. Qed.
Print Assumptions C37_display.
Example C37_digit_case : div_assign_d (impl true D8) [5; 6; 7] 7 = Ret [86; 0; 1]
  /\ sub_assign_d (impl true B8) [0; 1] 1 = Ret [255]
  /\ sub_assign_big_at_offset (impl true B8) [0; 9; 1] [9] 1 = Ret ([0; 0], ROk tt) (* C63_sub_refuted *)
  /\ add_assign_big_at_offset (impl true D64) [1] [2] 2 = Ret [1; 0; 2].
Proof. fact. Qed.
(** A division both builds finish, and one where only the release build returns *)
Example C37_case :
  div_assign_big (impl true D8) [1; 2; 3; 4; 5; 6] [1; 56; 1] = div_assign_big (impl false D8) [1; 2; 3; 4; 5; 6] [1; 56; 1]
  /\ (exists r, div_assign_big (impl true D8) [1; 2; 3; 4; 5; 6] [1; 56; 1] = Ret r)
  /\ (exists w, div_assign_big (impl true D8) [0; 0; 0; 0; 1] [0; 99; 1] = Panic w)
  /\ (exists r, div_assign_big (impl false D8) [0; 0; 0; 0; 1] [0; 99; 1] = Ret r).
Proof.
  split; [vm_compute; reflexivity|]. repeat split; eexists; vm_compute; reflexivity.
Qed.
