(** * Properties C14, C15, C34, C66, C67: the exact outcome of products of any size and of squares of
    up to 1131 digits. *)
From Coq Require Import ZArith List Bool.
From Verif Require Import Base Digit Slice Mul Div UBig Spec SpecMul SpecToom Cases Witness ClaimsToom.
Import ListNotations.
Open Scope Z_scope.

(** Multiplication stops exactly when [jam_product] holds (SpecToom), with the
    same panic, and returns the product otherwise. *)
Theorem C66_mul_exact : forall dbg t x y, valid t x -> valid t y ->
  (jam_product t x y -> mul_assign (impl dbg t) x y = Panic (PUnwrap Underflow))
  /\ (~ jam_product t x y -> exists r, mul_assign (impl dbg t) x y = Ret r
        /\ well_formed t r /\ num t r = num t x * num t y).
Proof. exact mul_jam_claim. Qed.
Print Assumptions C66_mul_exact.
(** The condition can be computed. *)
Theorem C66_computed : forall t x y, valid t x -> valid t y ->
  (jam_check t x y = true <-> jam_product t x y).
Proof. exact jam_computed. Qed.
Print Assumptions C66_computed.
(** Whatever a multiplication stops with, it is this panic and this reason. *)
Theorem C66_only_panic : forall dbg t x y w, valid t x -> valid t y ->
  mul_assign (impl dbg t) x y = Panic w -> w = PUnwrap Underflow /\ jam_product t x y.
Proof. exact mul_panic_only_claim. Qed.
Print Assumptions C66_only_panic.
(** (B^43 - 1 + B^127)^2 stops when the product is put together; the second number
    stops when its value at -2 is formed; 128 ones do not stop. *)
Example C66_case : let x := toom_bad B8 in let y := toom_bad_point D8 in let z := repeat 1 128 in
  well_formed B8 x /\ jam_product B8 x x /\ not_together 256 128 (num B8 x) 128 (num B8 x)
  /\ mul_assign (impl true B8) x x = Panic (PUnwrap Underflow)
  /\ well_formed D8 y /\ jam_product D8 y z /\ goes_wrong 100 128 (num D8 y) (third 128 128)
  /\ mul_assign (impl false D8) y z = Panic (PUnwrap Underflow)
  /\ valid B8 z /\ ~ jam_product B8 z z
  /\ (exists r, mul_assign (impl true B8) z z = Ret r /\ num B8 r = num B8 z * num B8 z).
Proof.
  cbv zeta. split; [fact|]. split; [apply jam_computed; fact|].
  split; [apply together_lost_b_spec; fact|]. split; [fact|].
  split; [fact|]. split; [apply jam_computed; fact|].
  split; [apply lost_b_spec; fact|]. split; [fact|]. split; [fact|].
  assert (N : ~ jam_product B8 (repeat 1 128) (repeat 1 128)).
  { intros H. apply jam_computed in H; [|fact|fact]. vm_compute in H. discriminate H. }
  split; [exact N|].
  destruct (proj2 (mul_jam_claim true B8 (repeat 1 128) (repeat 1 128) ltac:(fact) ltac:(fact)) N) as (r & E & _ & V).
  exists r. split; assumption.
Qed.

(** Both orders of a product, and both builds, have the same outcome, panics
    included. *)
Theorem C67_order : forall dbg t x y, valid t x -> valid t y ->
  mul_assign (impl dbg t) x y = mul_assign (impl dbg t) y x.
Proof. exact mul_comm_jam_claim. Qed.
Print Assumptions C67_order.
Theorem C67_build : forall t x y, valid t x -> valid t y ->
  mul_assign (impl true t) x y = mul_assign (impl false t) x y.
Proof. exact mul_build_claim. Qed.
Print Assumptions C67_build.
Example C67_case : let x := repeat 7 130 in let y := repeat 99 140 in valid D8 x /\ valid D8 y
  /\ mul_assign (impl true D8) x y = mul_assign (impl true D8) y x.
Proof. fact. Qed.

(** Full statement of C15 (refuted by C15_refuted): the square is always right.
    Missing: squares of 1132 digits and more, which can be wrong. *)
Theorem C15_exact_limit_partial : forall dbg t x, valid t x -> (length x <= 1131)%nat ->
  (jam_product t x x -> square (impl dbg t) x = Panic (PUnwrap Underflow))
  /\ (~ jam_product t x x -> exists r, square (impl dbg t) x = Ret r
        /\ well_formed t r /\ num t r = num t x * num t x).
Proof. exact square_jam_claim. Qed.
Print Assumptions C15_exact_limit_partial.
(** The square and the product by itself have the same outcome. *)
Theorem C15_is_product_limit_partial : forall dbg t x, valid t x -> (length x <= 1131)%nat ->
  square (impl dbg t) x = mul_assign (impl dbg t) x x.
Proof. exact square_is_mul_jam_claim. Qed.
Print Assumptions C15_is_product_limit_partial.
Example C15_limit_case : let x := toom_bad D8 in well_formed D8 x /\ jam_product D8 x x
  /\ square (impl true D8) x = Panic (PUnwrap Underflow)
  /\ (let z := repeat 99 128 in valid D8 z /\ ~ jam_product D8 z z
      /\ square (impl false D8) z = Ret ([1] ++ zeros 127 ++ [98] ++ repeat 99 127)).
Proof.
  cbv zeta. split; [fact|]. split; [apply jam_computed; fact|]. split; [fact|]. split; [fact|].
  split; [|fact]. intros H. apply jam_computed in H; [|fact|fact]. vm_compute in H. discriminate H.
Qed.
