(** * Properties C17 and C19: for which decimal divisors division is right.

    C17_two_digits_partial and C19_partial require the divisor to scale.  A divisor that does
    not scale is not even divided correctly by itself, so the condition cannot be
    weakened. *)
From Coq Require Import ZArith List Bool.
From Verif Require Import Base Digit Slice Mul Div UBig Spec SpecDiv Cases ClaimsDiv DivScale.
Import ListNotations.
Open Scope Z_scope.

(** Every number is divided correctly by [n] exactly when [n] scales. *)
Theorem C17_divisors : forall dbg t, is_binary t = false -> forall n, storage t n -> radix t <= n ->
  ((forall x, well_formed t x -> exists q r,
      div_assign_T dbg t x n = Ret q /\ rem_assign_T dbg t x n = Ret r
      /\ well_formed t q /\ well_formed t r /\ euclid (num t x) n (num t q) (num t r))
   <-> scales t 2 n).
Proof. exact pair_divisors_claim. Qed.
Print Assumptions C17_divisors.
(** A divisor that does not scale, divided by itself, never gives 1. *)
Theorem C17_self : forall dbg t, is_binary t = false -> forall n q, storage t n -> radix t <= n ->
  ~ scales t 2 n -> div_assign_T dbg t [n mod radix t; n / radix t] n = Ret q -> num t q <> 1.
Proof. exact pair_self_claim. Qed.
Print Assumptions C17_self.
(** 200 / 200 is computed correctly; 160 / 160 gives 49 *)
Example C17_self_case : scales D8 2 200 /\ div_assign_T true D8 [0; 2] 200 = Ret [1]
  /\ ~ scales D8 2 160 /\ div_assign_T true D8 [60; 1] 160 = Ret [49].
Proof.
  split; [apply (scales_check D8 2 200 5); dfact|]. split; [dfact|]. split; [|dfact].
  intros H. specialize (H 6). vm_compute in H. discriminate H; [congruence|reflexivity].
Qed.

(** The same for divisors of up to 19 digits. *)
Theorem C19_divisors_partial : forall dbg t, is_binary t = false -> forall y, well_formed t y ->
  (2 <= length y < 20)%nat ->
  ((forall x, well_formed t x -> divided dbg t x y) <-> scales t (length y) (num t y)).
Proof. exact divisors_claim. Qed.
Print Assumptions C19_divisors_partial.
Theorem C19_self : forall dbg t, is_binary t = false -> forall y q, well_formed t y ->
  (2 <= length y < 20)%nat -> ~ scales t (length y) (num t y) ->
  div_assign (impl dbg t) y y = Ret q -> num t q <> 1.
Proof. exact self_op_claim. Qed.
Print Assumptions C19_self.
Example C19_self_case : well_formed D8 [0; 99; 1] /\ ~ scales D8 3 19900
  /\ div_assign (impl false D8) [0; 99; 1] [0; 99; 1] = Ret [4].
Proof.
  split; [dfact|]. split; [|dfact].
  intros H. specialize (H 6). vm_compute in H. discriminate H; [congruence|reflexivity].
Qed.
