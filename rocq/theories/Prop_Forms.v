(** * Property C33: the forms of an operator agree.

    [v] marks an operand taken by value, [r] one taken by reference.  The
    equations are between outcomes: the same result, or the same panic. *)
From Coq Require Import ZArith List Bool.
From Verif Require Import Base Digit Slice Mul Div UBig Forms FormsProof Cases.
Import ListNotations.
Open Scope Z_scope.

Theorem C33_add : forall dbg t x y (D := impl dbg t), add_vv D x y = add_assign D x y
  /\ add_vr D x y = add_assign D x y /\ add_rv D x y = add_assign D x y
  /\ add_rr D x y = add_assign D x y /\ add_assign_v D x y = add_assign D x y.
Proof. exact (fun dbg t => add_forms (impl dbg t)). Qed.
Print Assumptions C33_add.
Theorem C33_sub : forall dbg t x y (D := impl dbg t), sub_vv D x y = sub_assign D x y
  /\ sub_vr D x y = sub_assign D x y /\ sub_rv D x y = sub_assign D x y
  /\ sub_rr D x y = sub_assign D x y /\ sub_assign_v D x y = sub_assign D x y.
Proof. exact (fun dbg t => sub_forms (impl dbg t)). Qed.
Print Assumptions C33_sub.
Theorem C33_mul : forall dbg t x y (D := impl dbg t), mul_vv D x y = mul_assign D x y
  /\ mul_vr D x y = mul_assign D x y /\ mul_rv D x y = mul_assign D x y
  /\ mul_rr D x y = mul_assign D x y /\ mul_assign_v D x y = mul_assign D x y.
Proof. exact (fun dbg t => mul_forms (impl dbg t)). Qed.
Print Assumptions C33_mul.
Theorem C33_div : forall dbg t x y (D := impl dbg t), div_vv D x y = div_assign D x y
  /\ div_vr D x y = div_assign D x y /\ div_rv D x y = div_assign D x y
  /\ div_rr D x y = div_assign D x y /\ div_assign_v D x y = div_assign D x y.
Proof. exact (fun dbg t => div_forms (impl dbg t)). Qed.
Print Assumptions C33_div.
Theorem C33_rem : forall dbg t x y (D := impl dbg t), rem_vv D x y = rem_assign D x y
  /\ rem_vr D x y = rem_assign D x y /\ rem_rv D x y = rem_assign D x y
  /\ rem_rr D x y = rem_assign D x y /\ rem_assign_v D x y = rem_assign D x y.
Proof. exact (fun dbg t => rem_big_forms (impl dbg t)). Qed.
Print Assumptions C33_rem.
Theorem C33_digit : forall dbg t x d (D := impl dbg t),
  add_v_d D x d = add_assign_d D x d /\ add_r_d D x d = add_assign_d D x d
  /\ sub_v_d D x d = sub_assign_d D x d /\ sub_r_d D x d = sub_assign_d D x d
  /\ mul_v_d D x d = mul_assign_d D x d /\ mul_r_d D x d = mul_assign_d D x d
  /\ div_v_d D x d = div_assign_d D x d /\ div_r_d D x d = div_assign_d D x d
  /\ rem_v_d D x d = rem_assign_d D x d /\ rem_r_d D x d = rem_assign_d D x d.
Proof. exact (fun dbg t => digit_forms (impl dbg t)). Qed.
Print Assumptions C33_digit.
Theorem C33_machine : forall dbg t x n,
  add_v_T dbg t x n = add_assign_T dbg t x n /\ add_r_T dbg t x n = add_assign_T dbg t x n
  /\ sub_v_T dbg t x n = sub_assign_T dbg t x n /\ sub_r_T dbg t x n = sub_assign_T dbg t x n
  /\ mul_v_T dbg t x n = mul_assign_T dbg t x n /\ mul_r_T dbg t x n = mul_assign_T dbg t x n
  /\ div_v_T dbg t x n = div_assign_T dbg t x n /\ div_r_T dbg t x n = div_assign_T dbg t x n
  /\ rem_v_T dbg t x n = rem_assign_T dbg t x n /\ rem_r_T dbg t x n = rem_assign_T dbg t x n.
Proof. exact machine_forms. Qed.
Print Assumptions C33_machine.
Theorem C33_shift : forall dbg t x n,
  shl_v dbg t x n = shl_assign dbg t x n /\ shl_r dbg t x n = shl_assign dbg t x n
  /\ shr_v dbg t x n = shr_assign dbg t x n /\ shr_r dbg t x n = shr_assign dbg t x n.
Proof. exact shift_forms. Qed.
Print Assumptions C33_shift.
Theorem C33_pow : forall dbg t x n, pow_r (impl dbg t) x n = pow (impl dbg t) x n.
Proof. exact (fun dbg t x n => eq_refl). Qed.
Print Assumptions C33_pow.
(** 517 % 11 = 0, 518 % 11 = 1 by the two ways; 2 - 3 panics in every form *)
Example C33_case : rem_v_T true B8 [5; 2] 11 = Ret [] /\ rem_assign_T true B8 [5; 2] 11 = Ret []
  /\ rem_v_T true B8 [6; 2] 11 = Ret [1] /\ rem_assign_T true B8 [6; 2] 11 = Ret [1]
  /\ sub_rv (impl true D8) [2] [3] = Panic (PExplicit Underflow)
  /\ mul_vr (impl true D8) [99; 99] [99] = Ret [1; 99; 98].
Proof. fact. Qed.
