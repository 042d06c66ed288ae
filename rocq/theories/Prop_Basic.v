(** * Properties C01-C04: construction, equality, order, conversion. *)
From Coq Require Import ZArith List Bool.
From Verif Require Import Base Digit Slice Mul Div UBig Spec Cases ClaimsBasic.
Import ListNotations.
Open Scope Z_scope.

Theorem C01_new : forall t ds, valid t ds ->
  exists r, ubig_new ds = Ret r /\ well_formed t r /\ num t r = num t ds.
Proof. exact new_claim. Qed.
Print Assumptions C01_new.
Example C01_case : valid D8 [0; 99; 7; 0; 0] /\ ubig_new [0; 99; 7; 0; 0] = Ret [0; 99; 7]
  /\ num D8 [0; 99; 7] = 79900 /\ ubig_new [0; 0] = Ret [].
Proof. fact. Qed.

(** zero is the empty vector *)
Theorem C01_zero : forall t x, well_formed t x -> (num t x = 0 <-> x = []).
Proof. exact zero_claim. Qed.
Print Assumptions C01_zero.
Example C01_zero_case : well_formed B16 [0; 1] /\ num B16 [0; 1] <> 0.
Proof. fact. Qed.

Theorem C02_eq : forall t x y, well_formed t x -> well_formed t y ->
  (ubig_eqb x y = true <-> num t x = num t y).
Proof. exact eq_claim. Qed.
Print Assumptions C02_eq.
Theorem C02_is_zero : forall t x, well_formed t x -> (ubig_is_zero x = true <-> num t x = 0).
Proof. exact is_zero_claim. Qed.
Print Assumptions C02_is_zero.
Example C02_case : well_formed B8 [0; 0; 5] /\ well_formed B8 [0; 5]
  /\ ubig_eqb [0; 0; 5] [0; 5] = false /\ ubig_eqb [0; 5] [0; 5] = true.
Proof. fact. Qed.

Theorem C03_cmp : forall t x y, well_formed t x -> well_formed t y ->
  ubig_cmp x y = (num t x ?= num t y).
Proof. exact cmp_claim. Qed.
Print Assumptions C03_cmp.
Theorem C03_cmp_eq : forall t x y, well_formed t x -> well_formed t y ->
  (ubig_cmp x y = Eq <-> ubig_eqb x y = true).
Proof. exact cmp_eq_claim. Qed.
Print Assumptions C03_cmp_eq.
Example C03_case : well_formed D16 [9999; 1] /\ well_formed D16 [0; 2]
  /\ ubig_cmp [9999; 1] [0; 2] = Lt /\ num D16 [9999; 1] = 19999.
Proof. fact. Qed.

Theorem C04_from : forall t n, storage t n ->
  well_formed t (from_T t n) /\ num t (from_T t n) = n.
Proof. exact from_claim. Qed.
Print Assumptions C04_from.
Example C04_case : storage D64 18446744073709551615
  /\ from_T D64 18446744073709551615 = [8446744073709551615; 1] /\ from_T D8 255 = [55; 2].
Proof. fact. Qed.
