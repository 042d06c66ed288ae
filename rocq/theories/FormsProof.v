(** * FormsProof: every operator form agrees with the assigning form. *)
From Coq Require Import ZArith List Bool Lia.
From Verif Require Import Base Digit Slice Mul Div UBig Forms.
Import ListNotations.
Open Scope Z_scope.
Open Scope m_scope.

Lemma bind_ret {A} (m : M A) : (a <- m ;; Ret a) = m.
Proof. destruct m; reflexivity. Qed.

(** The remainder by a digit is built in two different ways. *)
Lemma rem_forms D x d : rem_ref_d D x d = rem_assign_d D x d.
Proof.
  unfold rem_ref_d, rem_assign_d. destruct (rem_digit D x d) as [r| |]; try reflexivity. cbn [bind].
  destruct r as [m|e]; [|reflexivity]. cbn [or_panic bind].
  unfold ubig_new, ubig_drop_leading_zeros. destruct m; reflexivity.
Qed.

Lemma add_forms D x y : add_vv D x y = add_assign D x y /\ add_vr D x y = add_assign D x y
  /\ add_rv D x y = add_assign D x y /\ add_rr D x y = add_assign D x y /\ add_assign_v D x y = add_assign D x y.
Proof. unfold add_vv, add_rv, add_rr, add_vr, add_assign_v. rewrite bind_ret. auto 10. Qed.
Lemma sub_forms D x y : sub_vv D x y = sub_assign D x y /\ sub_vr D x y = sub_assign D x y
  /\ sub_rv D x y = sub_assign D x y /\ sub_rr D x y = sub_assign D x y /\ sub_assign_v D x y = sub_assign D x y.
Proof. unfold sub_vv, sub_rv, sub_rr, sub_vr, sub_assign_v. rewrite bind_ret. auto 10. Qed.
Lemma mul_forms D x y : mul_vv D x y = mul_assign D x y /\ mul_vr D x y = mul_assign D x y
  /\ mul_rv D x y = mul_assign D x y /\ mul_rr D x y = mul_assign D x y /\ mul_assign_v D x y = mul_assign D x y.
Proof. unfold mul_vv, mul_rv, mul_vr, mul_rr, mul_assign_v, mul_assign. auto 10. Qed.
Lemma div_forms D x y : div_vv D x y = div_assign D x y /\ div_vr D x y = div_assign D x y
  /\ div_rv D x y = div_assign D x y /\ div_rr D x y = div_assign D x y /\ div_assign_v D x y = div_assign D x y.
Proof. unfold div_vv, div_rv, div_rr, div_vr, div_assign_v. rewrite bind_ret. auto 10. Qed.
Lemma rem_big_forms D x y : rem_vv D x y = rem_assign D x y /\ rem_vr D x y = rem_assign D x y
  /\ rem_rv D x y = rem_assign D x y /\ rem_rr D x y = rem_assign D x y /\ rem_assign_v D x y = rem_assign D x y.
Proof. unfold rem_vv, rem_rv, rem_rr, rem_vr, rem_assign_v. rewrite bind_ret. auto 10. Qed.

Lemma digit_forms D x d : add_v_d D x d = add_assign_d D x d /\ add_r_d D x d = add_assign_d D x d
  /\ sub_v_d D x d = sub_assign_d D x d /\ sub_r_d D x d = sub_assign_d D x d
  /\ mul_v_d D x d = mul_assign_d D x d /\ mul_r_d D x d = mul_assign_d D x d
  /\ div_v_d D x d = div_assign_d D x d /\ div_r_d D x d = div_assign_d D x d
  /\ rem_v_d D x d = rem_assign_d D x d /\ rem_r_d D x d = rem_assign_d D x d.
Proof.
  unfold add_r_d, sub_r_d, mul_r_d, div_r_d, rem_v_d, rem_r_d, add_v_d, sub_v_d, mul_v_d, div_v_d.
  rewrite !bind_ret, !rem_forms. auto 20.
Qed.

Lemma machine_forms dbg t x n : add_v_T dbg t x n = add_assign_T dbg t x n
  /\ add_r_T dbg t x n = add_assign_T dbg t x n
  /\ sub_v_T dbg t x n = sub_assign_T dbg t x n /\ sub_r_T dbg t x n = sub_assign_T dbg t x n
  /\ mul_v_T dbg t x n = mul_assign_T dbg t x n /\ mul_r_T dbg t x n = mul_assign_T dbg t x n
  /\ div_v_T dbg t x n = div_assign_T dbg t x n /\ div_r_T dbg t x n = div_assign_T dbg t x n
  /\ rem_v_T dbg t x n = rem_assign_T dbg t x n /\ rem_r_T dbg t x n = rem_assign_T dbg t x n.
Proof.
  unfold add_r_T, sub_r_T, mul_r_T, div_r_T, rem_r_T, rem_v_T, add_v_T, sub_v_T, mul_v_T, div_v_T.
  rewrite !bind_ret, !rem_forms. unfold rem_assign_T. destruct (is_binary t); auto 20.
Qed.

Lemma shift_forms dbg t x n : shl_v dbg t x n = shl_assign dbg t x n /\ shl_r dbg t x n = shl_assign dbg t x n
  /\ shr_v dbg t x n = shr_assign dbg t x n /\ shr_r dbg t x n = shr_assign dbg t x n.
Proof. unfold shl_r, shr_r, shl_v, shr_v. rewrite !bind_ret. auto. Qed.
