(** * Properties C18 and C52, divisors of 20 digits and more: exactly the divisions with a tie go wrong. *)
From Coq Require Import ZArith List Bool Lia.
From Verif Require Import Base Digit Slice Mul Div UBig Spec SpecDiv Cases ClaimsDiv ClaimsDivBig DivTie DivBzTie.
Import ListNotations.
Open Scope Z_scope.

(** [recursive_tie] (SpecDiv.v) is about integers only; [divided] (ClaimsDiv.v): both
    methods and both operators return, and the Euclidean equation holds.  Full statement
    of C18: see Prop_Div.v; this one says precisely when it holds. *)
Theorem C18_mid_exact_partial : forall dbg t, is_binary t = true -> forall x y,
  well_formed t x -> well_formed t y -> (20 <= length y <= 80)%nat ->
  (divided dbg t x y <-> ~ recursive_tie t x y).
Proof. exact bz_exact_claim. Qed.
Print Assumptions C18_mid_exact_partial.

(** With a tie no quotient that is returned is right, in either build. (A vector of 2^64
    digits does not fit in memory.) *)
Theorem C18_large_tied_partial : forall dbg t, is_binary t = true -> forall x y q r,
  well_formed t x -> well_formed t y -> (20 <= length y)%nat -> Z.of_nat (length y) < 2 ^ 64 ->
  recursive_tie t x y -> div_assign_big (impl dbg t) x y = Ret (q, ROk r) ->
  num t q <> num t x / num t y.
Proof. exact bz_tied_claim. Qed.
Print Assumptions C18_large_tied_partial.
Theorem C18_large_tied_operator_partial : forall dbg t, is_binary t = true -> forall x y q,
  well_formed t x -> well_formed t y -> (20 <= length y)%nat -> Z.of_nat (length y) < 2 ^ 64 ->
  recursive_tie t x y -> div_assign (impl dbg t) x y = Ret q -> num t q <> num t x / num t y.
Proof. exact bz_tied_op_claim. Qed.
Print Assumptions C18_large_tied_operator_partial.

(** C52 is this part of C18 as a property of its own: up to 80 digits with all four
    methods and operators, above that for the quotient, if one is returned. *)
Theorem C52_exact : forall dbg t, is_binary t = true -> forall x y,
  well_formed t x -> well_formed t y -> (20 <= length y <= 80)%nat ->
  (~ recursive_tie t x y ->
     exists q r, div_assign_big (impl dbg t) x y = Ret (q, ROk r)
       /\ div_assign (impl dbg t) x y = Ret q /\ rem_assign (impl dbg t) x y = Ret r
       /\ num t q = num t x / num t y /\ num t r = num t x mod num t y
       /\ well_formed t q /\ well_formed t r)
  /\ (recursive_tie t x y -> forall q, div_assign (impl dbg t) x y = Ret q -> num t q <> num t x / num t y).
Proof. exact bz_exact_explicit_claim. Qed.
Print Assumptions C52_exact.
Theorem C52_exact_large : forall dbg t, is_binary t = true -> forall x y,
  well_formed t x -> well_formed t y -> (20 <= length y)%nat -> Z.of_nat (length y) < 2 ^ 64 ->
  forall q r, div_assign_big (impl dbg t) x y = Ret (q, ROk r) ->
  (num t q = num t x / num t y <-> ~ recursive_tie t x y).
Proof. exact bz_exact_large_claim. Qed.
Print Assumptions C52_exact_large.

(** 2^311 / (129 * 2^152 - 1): the true quotient has 19 digits, the program returns 0.
    For 2^239 it panics. *)
Example C52_case : let y := repeat 255 19 ++ [128] in
  well_formed B8 (zeros 38 ++ [128]) /\ well_formed B8 y /\ length y = 20%nat
  /\ recursive_tie B8 (zeros 38 ++ [128]) y
  /\ div_assign (impl false B8) (zeros 38 ++ [128]) y = Ret []
  /\ 2 ^ 150 < num B8 (zeros 38 ++ [128]) / num B8 y
  /\ div_assign (impl false B8) (zeros 29 ++ [128]) y = Panic PIndex.
Proof.
  split; [dfact|]. split; [dfact|]. split; [reflexivity|]. split; [|split; [dfact|split; dfact]].
  exists 0, 20%nat, 0%nat. split; [dfact|]. split; [|split].
  - exists 20%nat, 0%nat. cbn. lia.
  - cbn. repeat constructor.
  - apply (block_tie_half _ 10 _ _ (128 * 256 ^ 28)).
    + repeat constructor.
    + left. vm_compute. reflexivity.
    + vm_compute. reflexivity.
    + apply (block_tie_base _ 10 _ _ 9); [repeat constructor|split; repeat constructor|vm_compute; reflexivity].
Qed.
(** Without a tie: the same divisor, another dividend. *)
Example C52_no_tie : let y := repeat 255 19 ++ [128] in let x := repeat 200 39 in
  ~ recursive_tie B8 x y /\ divided false B8 x y.
Proof.
  cbv zeta. assert (H : ~ recursive_tie B8 (repeat 200 39) (repeat 255 19 ++ [128])).
  { apply (recursive_tie_check B8 _ _ 0 20).
    - repeat constructor.
    - vm_compute. reflexivity.
    - dfact.
    - exists 20%nat, 0%nat. cbn. lia.
    - repeat constructor.
    - vm_compute. reflexivity. }
  split; [exact H|]. apply C18_mid_exact_partial; auto; try dfact. split; repeat constructor.
Qed.
