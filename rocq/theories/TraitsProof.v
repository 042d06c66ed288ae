(** * TraitsProof: digit traits. *)
From Coq Require Import ZArith String List Bool Lia.
From Verif Require Import Base Digit Slice UBig Traits Spec DigitOK Bench BenchProof.
Import ListNotations.
Open Scope Z_scope.

Lemma radix_le_storage t : 1 < radix t <= 2 ^ bits t.
Proof. destruct t; vm_compute; split; congruence. Qed.

Lemma digit_traits_claim dbg t d e : 0 <= d < radix t -> 0 <= e < radix t ->
  (d + e < radix t -> digit_add dbg t d e = Ret (d + e))
  /\ (d * e < radix t -> digit_mul dbg t d e = Ret (d * e)).
Proof.
  intros Hd He. pose proof (radix_le_storage t) as H. split; intros Hs.
  - apply w_add_ok; lia.
  - apply w_mul_ok. assert (0 <= d * e) by (apply Z.mul_nonneg_nonneg; lia). lia.
Qed.

Lemma checked_overflow w x : 2 ^ w <= x -> checked true w x = Panic POverflow.
Proof.
  intros H. unfold checked. destruct (Z.ltb_spec x (2 ^ w)); [lia|]. rewrite andb_false_r. reflexivity.
Qed.

Lemma digit_traits_overflow_claim t d e : is_binary t = true -> 0 <= d < radix t -> 0 <= e < radix t ->
  (radix t <= d + e -> digit_add true t d e = Panic POverflow)
  /\ (radix t <= d * e -> digit_mul true t d e = Panic POverflow).
Proof.
  intros Hb Hd He. assert (E : radix t = 2 ^ bits t) by (destruct t; try discriminate Hb; reflexivity).
  rewrite E. split; intros H; apply checked_overflow; exact H.
Qed.

Lemma digit_traits_exact dbg t d e : storage t d -> storage t e ->
  (storage t (d + e) -> digit_add dbg t d e = Ret (d + e))
  /\ (~ storage t (d + e) -> digit_add dbg t d e = if dbg then Panic POverflow else Ret ((d + e) mod 2 ^ bits t))
  /\ (storage t (d * e) -> digit_mul dbg t d e = Ret (d * e))
  /\ (~ storage t (d * e) -> digit_mul dbg t d e = if dbg then Panic POverflow else Ret ((d * e) mod 2 ^ bits t)).
Proof.
  intros Hd He.
  assert (C : forall x, (storage t x -> checked dbg (bits t) x = Ret x)
    /\ (~ storage t x -> checked dbg (bits t) x = if dbg then Panic POverflow else Ret (x mod 2 ^ bits t))).
  { intros x. assert (E : storage t x <-> 0 <= x < 2 ^ bits t) by (destruct t; reflexivity).
    unfold checked. split; intros H.
    - apply E in H. rewrite (proj2 (Z.leb_le _ _)), (proj2 (Z.ltb_lt _ _)) by apply H. reflexivity.
    - destruct (Z.leb_spec 0 x) as [H0|]; [|reflexivity]. destruct (Z.ltb_spec x (2 ^ bits t)) as [H1|]; [|reflexivity].
      exfalso. apply H, E. split; assumption. }
  split; [apply C|]. split; [apply C|]. split; apply C.
Qed.

Lemma digit_neutral_claim dbg t d : 0 <= d < radix t ->
  digit_add dbg t d digit_zero = Ret d /\ digit_mul dbg t d digit_one = Ret d
  /\ (digit_is_zero d = true <-> d = digit_zero).
Proof.
  intros Hd. pose proof (radix_le_storage t) as H. unfold digit_zero, digit_one, digit_is_zero.
  destruct (digit_traits_claim dbg t d 0 Hd ltac:(lia)) as [A _].
  destruct (digit_traits_claim dbg t d 1 Hd ltac:(lia)) as [_ M].
  rewrite A, M by lia. rewrite Z.add_0_r, Z.mul_1_r. split; [reflexivity|]. split; [reflexivity|].
  apply Z.eqb_eq.
Qed.

Lemma error_text_claim e e' : error_text e = error_text e' -> e = e'.
Proof. destruct e, e'; intros H; try reflexivity; discriminate H. Qed.

Lemma div_base_claim dbg n : 0 <= n < 10 ^ 38 ->
  mul_inv_base dbg n = Ret (n / 10 ^ 19, n mod 10 ^ 19)
  /\ mul_inv_base_2 dbg n = Ret (n / 10 ^ 19, n mod 10 ^ 19)
  /\ div_op_base n = Ret (n / 10 ^ 19, n mod 10 ^ 19)
  /\ div_long_base dbg n = Ret (n / 10 ^ 19, n mod 10 ^ 19)
  /\ divq_base dbg n = Ret (n / 10 ^ 19, n mod 10 ^ 19).
Proof.
  change (10 ^ 38) with (10000000000000000000 * 10000000000000000000).
  change (10 ^ 19) with 10000000000000000000. intros H.
  rewrite mul_inv_base_ok, mul_inv_base_2_ok, div_op_base_ok, div_long_base_ok, divq_base_ok by lia.
  rewrite (proj2 (Z.ltb_lt _ _)) by lia. auto.
Qed.
Lemma div_base_wide_claim dbg n : 0 <= n < 2 ^ 128 ->
  (n / 10 ^ 19 < 2 ^ 64 ->
     div_op_base n = Ret (n / 10 ^ 19, n mod 10 ^ 19)
     /\ div_long_base dbg n = Ret (n / 10 ^ 19, n mod 10 ^ 19)
     /\ divq_base dbg n = Ret (n / 10 ^ 19, n mod 10 ^ 19))
  /\ (2 ^ 64 <= n / 10 ^ 19 -> divq_base dbg n = Panic PDivZero).
Proof.
  change (10 ^ 19) with 10000000000000000000. intros H. rewrite divq_base_ok by lia.
  assert (Hr := div_mod_eq n 10000000000000000000 ltac:(reflexivity)).
  split; intros H1.
  - rewrite (proj2 (Z.ltb_lt _ _)) by lia. rewrite div_op_base_ok, div_long_base_ok by lia. auto.
  - rewrite (proj2 (Z.ltb_ge _ _)) by lia. reflexivity.
Qed.
Lemma div_base_all_claim dbg n : 0 <= n < 2 ^ 128 ->
  div_op_base n = Ret ((n / 10 ^ 19) mod 2 ^ 64, n mod 10 ^ 19)
  /\ div_long_base dbg n = Ret ((n / 10 ^ 19) mod 2 ^ 64, n mod 10 ^ 19).
Proof.
  change (10 ^ 19) with 10000000000000000000. intros H.
  rewrite div_op_base_all, div_long_base_all by lia. auto.
Qed.
Lemma div_base_debug_claim n : 0 <= n < 2 ^ 128 ->
  (mul_inv_base true n = Ret ((n / 10 ^ 19) mod 2 ^ 64, n mod 10 ^ 19)
   \/ mul_inv_base true n = Panic POverflow)
  /\ (mul_inv_base_2 true n = Ret ((n / 10 ^ 19) mod 2 ^ 64, n mod 10 ^ 19)
      \/ mul_inv_base_2 true n = Panic POverflow).
Proof. intros H. exact (conj (mul_inv_base_debug n H) (mul_inv_base_2_debug n H)). Qed.
Lemma div_rem_base_debug_claim n : 0 <= n < 2 ^ 128 ->
  div_rem_base true (decimal_radix D64) n = Ret ((n / 10 ^ 19) mod 2 ^ 64, n mod 10 ^ 19)
  \/ div_rem_base true (decimal_radix D64) n = Panic POverflow.
Proof. exact (mul_inv_base_debug n). Qed.
Lemma div_base_fold_claim dbg op nums : Forall (fun n => 0 <= n < 10 ^ 38) nums ->
  In op [mul_inv_base dbg; mul_inv_base_2 dbg; div_op_base; div_long_base dbg; divq_base dbg] ->
  test_div_base op nums = Ret (fold_left (fun a n => Z.lxor a (n / 10 ^ 19)) nums 0,
                               fold_left (fun a n => Z.lxor a (n mod 10 ^ 19)) nums 0).
Proof.
  intros H Ho. apply test_div_ok. eapply Forall_impl; [|exact H]. cbv beta. intros n Hn.
  destruct (div_base_claim dbg n Hn) as (H1 & H2 & H3 & H4 & H5).
  cbn [In] in Ho. destruct Ho as [<-|[<-|[<-|[<-|[<-|[]]]]]]; assumption.
Qed.
