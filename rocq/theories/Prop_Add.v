(** * Properties C05-C07: addition. *)
From Coq Require Import ZArith List Bool.
From Verif Require Import Base Digit Slice Mul Div UBig Spec Cases ClaimsBasic.
Import ListNotations.
Open Scope Z_scope.

Theorem C05_add : forall dbg t x y, valid t x -> valid t y ->
  exists r, add_assign (impl dbg t) x y = Ret r /\ valid t r /\ num t r = num t x + num t y
            /\ (normal x -> normal y -> normal r).
Proof. exact add_claim. Qed.
Print Assumptions C05_add.
Example C05_case : valid D64 [9999999999999999999; 9999999999999999999] /\ valid D64 [1]
  /\ add_assign (impl true D64) [9999999999999999999; 9999999999999999999] [1] = Ret [0; 0; 1]
  /\ add_assign (impl true B8) [255] [1; 255; 255] = Ret [0; 0; 0; 1].
Proof. fact. Qed.

Theorem C06_add_machine : forall dbg t x n, valid t x -> storage t n ->
  exists r, add_assign_T dbg t x n = Ret r /\ valid t r /\ num t r = num t x + n
            /\ (normal x -> normal r).
Proof. exact add_T_claim. Qed.
Print Assumptions C06_add_machine.
Example C06_case : valid D8 [99; 99] /\ storage D8 255
  /\ add_assign_T true D8 [99; 99] 255 = Ret [54; 2; 1] /\ add_assign_T true D8 [] 200 = Ret [0; 2].
Proof. fact. Qed.

Theorem C07_comm : forall dbg t x y, well_formed t x -> well_formed t y ->
  exists a b, add_assign (impl dbg t) x y = Ret a /\ add_assign (impl dbg t) y x = Ret b
              /\ ubig_eqb a b = true.
Proof. exact add_comm_claim. Qed.
Print Assumptions C07_comm.
Theorem C07_assoc : forall dbg t x y z, well_formed t x -> well_formed t y -> well_formed t z ->
  exists xy a yz b, add_assign (impl dbg t) x y = Ret xy /\ add_assign (impl dbg t) xy z = Ret a
     /\ add_assign (impl dbg t) y z = Ret yz /\ add_assign (impl dbg t) x yz = Ret b
     /\ ubig_eqb a b = true.
Proof. exact add_assoc_claim. Qed.
Print Assumptions C07_assoc.
Theorem C07_zero : forall dbg t x, well_formed t x ->
  exists a b, add_assign (impl dbg t) x ubig_zero = Ret a
              /\ add_assign (impl dbg t) ubig_zero x = Ret b
              /\ ubig_eqb a x = true /\ ubig_eqb b x = true.
Proof. exact add_zero_claim. Qed.
Print Assumptions C07_zero.
Example C07_case : well_formed B16 [65535; 65535] /\ well_formed B16 [1] /\ well_formed B16 [7; 8; 9]
  /\ add_assign (impl false B16) [65535; 65535] [1] = Ret [0; 0; 1]
  /\ add_assign (impl false B16) [0; 0; 1] [7; 8; 9] = Ret [7; 8; 10].
Proof. fact. Qed.
