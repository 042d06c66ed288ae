(** * Property C40: termination.

    The model runs recursive code with fuel computed from the operands and
    answers [NoFuel] when it runs out; these theorems say that never happens.
    Digits are arbitrary here: not even their range is assumed. *)
From Coq Require Import ZArith List Bool.
From Verif Require Import Base Digit Slice Mul Div UBig Text Ends EndsTyped Cases.
Import ListNotations.
Open Scope Z_scope.

Theorem C40_multiply : forall dbg t x y, mul_big (impl dbg t) x y <> NoFuel.
Proof. exact (fun dbg t => ends_mul_big _ (impl_ends dbg t)). Qed.
Print Assumptions C40_multiply.
Theorem C40_square : forall dbg t x, square (impl dbg t) x <> NoFuel.
Proof. exact (fun dbg t => ends_square _ (impl_ends dbg t)). Qed.
Print Assumptions C40_square.
Theorem C40_pow : forall dbg t x n, pow (impl dbg t) x n <> NoFuel.
Proof. exact (fun dbg t => ends_pow _ (impl_ends dbg t)). Qed.
Print Assumptions C40_pow.
Theorem C40_divide : forall dbg t x y,
  div_assign_big (impl dbg t) x y <> NoFuel /\ rem_assign_big (impl dbg t) x y <> NoFuel.
Proof.
  exact (fun dbg t x y => conj (ends_div_assign_big _ (impl_ends dbg t) x y)
                               (ends_rem_assign_big _ (impl_ends dbg t) x y)).
Qed.
Print Assumptions C40_divide.
Theorem C40_operators : forall dbg t x y (D := impl dbg t),
  ubig_new x <> NoFuel /\ add_assign D x y <> NoFuel /\ sub_assign D x y <> NoFuel
  /\ mul_assign D x y <> NoFuel /\ div_assign D x y <> NoFuel /\ rem_assign D x y <> NoFuel.
Proof.
  exact (fun dbg t x y => let E := impl_ends dbg t in
    conj (ends_new x) (conj (ends_add _ E x y) (conj (ends_sub _ E x y)
      (conj (ends_mul _ E x y) (conj (ends_div _ E x y) (ends_rem _ E x y)))))).
Qed.
Print Assumptions C40_operators.
Theorem C40_machine : forall dbg t x n,
  add_assign_T dbg t x n <> NoFuel /\ sub_assign_T dbg t x n <> NoFuel
  /\ mul_assign_T dbg t x n <> NoFuel /\ div_assign_T dbg t x n <> NoFuel
  /\ rem_assign_T dbg t x n <> NoFuel /\ shl_assign dbg t x n <> NoFuel /\ shr_assign dbg t x n <> NoFuel.
Proof.
  exact (fun dbg t x n => conj (ends_add_T dbg t x n) (conj (ends_sub_T dbg t x n)
    (conj (ends_mul_T dbg t x n) (conj (ends_div_T dbg t x n) (conj (ends_rem_T dbg t x n)
      (conj (ends_shl dbg t x n) (ends_shr dbg t x n))))))).
Qed.
Print Assumptions C40_machine.
Theorem C40_parse : forall dbg t s, from_str dbg t s <> NoFuel.
Proof. exact ends_from_str. Qed.
Print Assumptions C40_parse.
(** Conversion to decimal, also where a wrong square (C15) makes its scales wrong *)
Theorem C40_decimal : forall dbg t x, is_binary t = true ->
  to_decimal dbg t x <> NoFuel /\ forall f, fmt_display_bin dbg t f x <> NoFuel.
Proof.
  exact (fun dbg t x Hb => conj (to_decimal_ends dbg t Hb x) (fun f => display_ends dbg t Hb f x)).
Qed.
Print Assumptions C40_decimal.
(** Digits at their maximum, a Karatsuba product and square, a recursive division
    and a conversion through two levels of scales *)
Example C40_case :
  (exists r, mul_big (impl false B8) (repeat 255 100) (repeat 255 90) = Ret r /\ length r = 190%nat)
  /\ (exists r, square (impl false D8) (repeat 99 60) = Ret r /\ length r = 120%nat)
  /\ (exists q r, div_assign_big (impl false B16) (repeat 255 90) (repeat 65535 41) = Ret (q, ROk r) /\ length q = 49%nat)
  /\ (exists r, to_decimal false B8 (repeat 255 60) = Ret r /\ length r = 73%nat).
Proof.
  split; [|split; [|split]].
  1, 2, 4: eexists; split; [vm_compute; reflexivity|reflexivity].
  eexists. eexists. split; [vm_compute; reflexivity|reflexivity].
Qed.
