(** * Properties C14, C15, C34: the exact outcome of products and squares when a factor has fewer
    than 128 digits. *)
From Coq Require Import ZArith List Bool.
From Verif Require Import Base Digit Slice Mul Div UBig Spec SpecMul Cases Witness ClaimsKara.
Import ListNotations.
Open Scope Z_scope.

(** Full statement of C14 (refuted by C14_refuted): multiplication always
    returns.  Missing: products of two numbers of 128 digits or more, which use
    Toom-3. *)
Theorem C14_exact_partial : forall dbg t x y, valid t x -> valid t y ->
  (length x < 128)%nat \/ (length y < 128)%nat ->
  (stuck_product t x y -> mul_assign (impl dbg t) x y = Panic (PUnwrap Underflow))
  /\ (~ stuck_product t x y -> exists r, mul_assign (impl dbg t) x y = Ret r
        /\ well_formed t r /\ num t r = num t x * num t y).
Proof. exact mul_exact_claim. Qed.
Print Assumptions C14_exact_partial.
(** The condition can be computed. *)
Theorem C14_computed : forall t x y, valid t x -> valid t y ->
  (stuck_check t x y = true <-> stuck_product t x y).
Proof. exact stuck_computed. Qed.
Print Assumptions C14_computed.

Example C14_exact_case : valid B8 kara_bad /\ stuck_product B8 kara_bad kara_bad
  /\ mul_assign (impl true B8) kara_bad kara_bad = Panic (PUnwrap Underflow)
  /\ (let x := repeat 255 50 in valid B8 x /\ ~ stuck_product B8 x x
      /\ mul_assign (impl true B8) x x = Ret ([1] ++ zeros 49 ++ [254] ++ repeat 255 49)).
Proof.
  split; [fact|]. split; [apply stuck_computed; fact|]. split; [fact|].
  cbv zeta. split; [fact|]. split; [|fact].
  intros H. apply stuck_computed in H; [|fact|fact]. vm_compute in H. discriminate H.
Qed.

Theorem C15_exact_partial : forall dbg t x, valid t x -> (length x < 128)%nat ->
  (stuck_product t x x -> square (impl dbg t) x = Panic (PUnwrap Underflow))
  /\ (~ stuck_product t x x -> exists r, square (impl dbg t) x = Ret r
        /\ well_formed t r /\ num t r = num t x * num t x).
Proof. exact square_exact_claim. Qed.
Print Assumptions C15_exact_partial.
(** The square and the product by itself have the same outcome. *)
Theorem C15_is_product_partial : forall dbg t x, valid t x -> (length x < 128)%nat ->
  square (impl dbg t) x = mul_assign (impl dbg t) x x.
Proof. exact square_is_mul_claim. Qed.
Print Assumptions C15_is_product_partial.
Example C15_exact_case : square (impl false B8) kara_bad = Panic (PUnwrap Underflow)
  /\ (let x := repeat 99 60 in valid D8 x /\ ~ stuck_product D8 x x
      /\ square (impl false D8) x = Ret ([1] ++ zeros 59 ++ [98] ++ repeat 99 59)).
Proof.
  split; [fact|]. cbv zeta. split; [fact|]. split; [|fact].
  intros H. apply stuck_computed in H; [|fact|fact]. vm_compute in H. discriminate H.
Qed.

(** Both orders of a product have the same outcome, panics included. *)
Theorem C34_comm_outcome : forall dbg t x y, valid t x -> valid t y ->
  (length x < 128)%nat \/ (length y < 128)%nat ->
  mul_assign (impl dbg t) x y = mul_assign (impl dbg t) y x.
Proof. exact mul_comm_exact_claim. Qed.
Print Assumptions C34_comm_outcome.
Example C34_comm_case : let x := repeat 99 30 in let y := repeat 7 22 in valid D8 x /\ valid D8 y
  /\ mul_assign (impl true D8) x y = mul_assign (impl true D8) y x.
Proof. fact. Qed.
