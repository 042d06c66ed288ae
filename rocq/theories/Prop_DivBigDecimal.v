(** * Properties C19 and C53: when the recursive division of decimal numbers stops. *)
From Coq Require Import ZArith List Bool Lia.
From Verif Require Import Base Digit Slice Mul Div UBig Spec SpecDiv Cases ClaimsDiv ClaimsDivBig DivBzOpen.
From Verif Require ClaimsBz.
Import ListNotations.
Open Scope Z_scope.

(** [recursive_open] (SpecDiv.v) is about integers only; [divided] (ClaimsDiv.v): both
    methods and both operators return, and the Euclidean equation holds; [stops]
    (ClaimsDivBig.v): all four panic in the given way.  Full statement of C19: see
    Prop_Div.v.  Missing here: divisors that do not scale. *)
Theorem C19_mid_exact_partial : forall dbg t, is_binary t = false -> forall x y,
  well_formed t x -> well_formed t y -> (20 <= length y <= 80)%nat -> scales t (length y) (num t y) ->
  (recursive_open t x y -> stops dbg t x y PIndex)
  /\ (~ recursive_open t x y -> divided dbg t x y).
Proof. exact bz_decimal_claim. Qed.
Print Assumptions C19_mid_exact_partial.
Theorem C19_large_exact_partial : forall dbg t, is_binary t = false -> forall x y,
  well_formed t x -> well_formed t y -> (20 <= length y)%nat -> scales t (length y) (num t y) ->
  (recursive_open t x y -> stops dbg t x y PIndex \/ stops dbg t x y (PUnwrap Underflow))
  /\ (~ recursive_open t x y ->
      divided dbg t x y \/ stops dbg t x y (PUnwrap Underflow)).
Proof. exact ClaimsBz.div_open_either_claim. Qed.
Print Assumptions C19_large_exact_partial.

(** C53 is this part of C19 as a property of its own, spelled out for the methods. *)
Theorem C53_exact : forall dbg t, is_binary t = false -> forall x y,
  well_formed t x -> well_formed t y -> (20 <= length y <= 80)%nat -> scales t (length y) (num t y) ->
  (div_assign_big (impl dbg t) x y = Panic PIndex <-> recursive_open t x y)
  /\ (~ recursive_open t x y ->
      exists q r, div_assign_big (impl dbg t) x y = Ret (q, ROk r)
        /\ div_assign (impl dbg t) x y = Ret q /\ rem_assign (impl dbg t) x y = Ret r
        /\ num t q = num t x / num t y /\ num t r = num t x mod num t y
        /\ well_formed t q /\ well_formed t r).
Proof. exact bz_decimal_explicit_claim. Qed.
Print Assumptions C53_exact.

(** 50 * 100^39 / (51 * 100^19 - 1) stops, 50 * 100^38 divided by the same number does
    not (the division of binary numbers of this shape gives zero, see C52_case) *)
Example C53_case : let y := repeat 99 19 ++ [50] in
  well_formed D8 y /\ length y = 20%nat /\ scales D8 (length y) (num D8 y)
  /\ recursive_open D8 (zeros 39 ++ [50]) y
  /\ div_assign (impl false D8) (zeros 39 ++ [50]) y = Panic PIndex
  /\ ~ recursive_open D8 (zeros 38 ++ [50]) y
  /\ match div_assign (impl false D8) (zeros 38 ++ [50]) y with
     | Ret q => num D8 q = 50 * 100 ^ 38 / (51 * 100 ^ 19 - 1) | _ => False end.
Proof.
  split; [dfact|]. split; [reflexivity|]. split.
  { intros s Hs. assert (E : s = 0 \/ 1 <= s) by lia. destruct E as [->|E].
    - intros _. vm_compute. reflexivity.
    - change (leading D8 (length (repeat 99 19 ++ [50])) (num D8 (repeat 99 19 ++ [50]))) with 50.
      change (radix D8) with 100. intros H. exfalso.
      assert (2 ^ 1 <= 2 ^ s) by (apply Z.pow_le_mono_r; lia). lia. }
  split; [|split; [dfact|split; [|vm_compute; reflexivity]]].
  - exists 0, 20%nat, 0%nat. split; [dfact|]. split; [|split].
    + exists 20%nat, 0%nat. cbn. lia.
    + cbn. repeat constructor.
    + apply (block_open_half _ 10 _ _ (50 * 100 ^ 29)).
      * repeat constructor.
      * left. vm_compute. reflexivity.
      * vm_compute. reflexivity.
      * apply block_open_base; [repeat constructor|vm_compute; reflexivity].
  - apply (recursive_open_check D8 _ _ 0 20).
    + repeat constructor.
    + vm_compute. reflexivity.
    + dfact.
    + exists 20%nat, 0%nat. cbn. lia.
    + repeat constructor.
    + vm_compute. reflexivity.
Qed.
