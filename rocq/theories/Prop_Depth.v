(** * Property C55: the recursions are shallow. *)
From Coq Require Import ZArith List Bool Lia.
From Verif Require Import Base Digit Slice Mul Div UBig Spec Cases Depth.
Import ListNotations.
Open Scope Z_scope.

(** [mul_fuel D f], [square_fuel D f] and [bz_fuel D f] are the functions of the source,
    cut off ([NoFuel]) where their calls are nested more than [f] deep.  No hypothesis
    on the digits, the buffers or the scratch space is needed. *)

(** C55, multiplication: up to 19 * 2^k digits, never nested more than k + 1 deep *)
Theorem C55_mul_depth : forall dbg t k x y product work g,
  Z.of_nat (Nat.max (length x) (length y)) <= 19 * 2 ^ Z.of_nat k -> (k < g)%nat ->
  mul_fuel (impl dbg t) (S k) x y product work <> NoFuel
  /\ mul_fuel (impl dbg t) g x y product work = mul_fuel (impl dbg t) (S k) x y product work.
Proof. exact mul_depth_claim. Qed.
Print Assumptions C55_mul_depth.

(** C55, squaring *)
Theorem C55_square_depth : forall dbg t k x product work g,
  Z.of_nat (length x) <= 19 * 2 ^ Z.of_nat k -> (k < g)%nat ->
  square_fuel (impl dbg t) (S k) x product work <> NoFuel
  /\ square_fuel (impl dbg t) g x product work = square_fuel (impl dbg t) (S k) x product work.
Proof. exact square_depth_claim. Qed.
Print Assumptions C55_square_depth.

(** C55, recursive division: the length of the divisor counts *)
Theorem C55_div_depth : forall dbg t k x y quot work g,
  Z.of_nat (length y) <= 19 * 2 ^ Z.of_nat k -> (k < g)%nat ->
  bz_fuel (impl dbg t) (S k) x y quot work <> NoFuel
  /\ bz_fuel (impl dbg t) g x y quot work = bz_fuel (impl dbg t) (S k) x y quot work.
Proof. exact bz_depth_claim. Qed.
Print Assumptions C55_div_depth.

(** C55, the functions called by the rest of the library are these recursions *)
Theorem C55_mul_entry : forall dbg t k x y product work,
  Z.of_nat (Nat.max (length x) (length y)) <= 19 * 2 ^ Z.of_nat k ->
  mul_big_into_with_work (impl dbg t) x y product work = mul_fuel (impl dbg t) (S k) x y product work.
Proof. exact mul_work_claim. Qed.
Print Assumptions C55_mul_entry.
Theorem C55_div_entry : forall dbg t k x y quot work,
  Z.of_nat (length y) <= 19 * 2 ^ Z.of_nat k ->
  div_big_bz_2n_n (impl dbg t) x y quot work = bz_fuel (impl dbg t) (S k) x y quot work.
Proof. exact bz_2n_n_claim. Qed.
Print Assumptions C55_div_entry.

(** The bound is met with equality: 38 digits need two levels and no more, 39 need three *)
Example C55_case_38 : let x := repeat 1 38 in
  mul_fuel (impl true B8) 1 x x (repeat 0 76) (repeat 0 200) = NoFuel
  /\ exists r, mul_fuel (impl true B8) 2 x x (repeat 0 76) (repeat 0 200) = Ret r.
Proof. split; [vm_compute; reflexivity|]. eexists. vm_compute. reflexivity. Qed.
Example C55_case_39 : let x := repeat 1 39 in
  mul_fuel (impl true B8) 2 x x (repeat 0 78) (repeat 0 200) = NoFuel
  /\ square_fuel (impl true B8) 2 x (repeat 0 78) (repeat 0 200) = NoFuel.
Proof. vm_compute. split; reflexivity. Qed.
Example C55_case_div : let y := repeat 0 19 ++ [128] in
  bz_fuel (impl false B8) 1 (repeat 0 39 ++ [1]) y (repeat 0 20) (repeat 0 100) = NoFuel
  /\ exists r, bz_fuel (impl false B8) 2 (repeat 0 39 ++ [1]) y (repeat 0 20) (repeat 0 100) = Ret r.
Proof. split; [vm_compute; reflexivity|]. eexists. vm_compute. reflexivity. Qed.
(** no number that fits in a 64 bit address space goes more than 61 levels deep *)
Example C55_address_space : 2 ^ 64 <= 19 * 2 ^ Z.of_nat 60.
Proof. vm_compute. discriminate. Qed.
