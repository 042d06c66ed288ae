(** * Property C68: the outcome of division by divisors of 20 digits and more, at every size. *)
From Coq Require Import ZArith List Bool Lia.
From Verif Require Import Base Digit Slice Mul Div UBig Spec SpecDiv SpecMul SpecToom SpecBz Witness Cases
  ClaimsDiv ClaimsDivBig ClaimsBz.
Import ListNotations.
Open Scope Z_scope.

(** [recursive_jam] (SpecBz.v): one of the multiplications in the recursive division stops;
    a condition on integers, built on that of C66.  [recursive_tie] and [recursive_open]
    as in C52 and C53 (SpecDiv.v).  [divided] (ClaimsDiv.v): both methods and both operators
    return, and the Euclidean equation holds.  [stops … w] (ClaimsDivBig.v): all four panic
    with [w].  (A vector of 2^64 digits does not fit in memory.) *)
Theorem C68_binary : forall dbg t x y, is_binary t = true -> well_formed t x -> well_formed t y ->
  (20 <= length y)%nat -> Z.of_nat (length y) < 2 ^ 64 ->
  (divided dbg t x y <-> ~ recursive_tie t x y /\ ~ recursive_jam t x y).
Proof. exact bz_binary_claim. Qed.
Print Assumptions C68_binary.
Theorem C68_untied : forall dbg t x y, is_binary t = true -> well_formed t x -> well_formed t y ->
  (20 <= length y)%nat -> ~ recursive_tie t x y ->
  (recursive_jam t x y -> stops dbg t x y (PUnwrap Underflow))
  /\ (~ recursive_jam t x y -> divided dbg t x y).
Proof. exact bz_untied_claim. Qed.
Print Assumptions C68_untied.

(** Decimal types, divisors that scale. *)
Theorem C68_decimal : forall dbg t x y, is_binary t = false -> well_formed t x -> well_formed t y ->
  (20 <= length y)%nat -> scales t (length y) (num t y) ->
  (divided dbg t x y <-> ~ recursive_open t x y /\ ~ recursive_jam t x y).
Proof. exact bz_scaling_iff_claim. Qed.
Print Assumptions C68_decimal.
Theorem C68_decimal_stops : forall dbg t x y, is_binary t = false -> well_formed t x -> well_formed t y ->
  (20 <= length y)%nat -> scales t (length y) (num t y) ->
  (~ recursive_open t x y -> ~ recursive_jam t x y -> divided dbg t x y)
  /\ (~ recursive_open t x y -> recursive_jam t x y -> stops dbg t x y (PUnwrap Underflow))
  /\ (recursive_open t x y -> ~ recursive_jam t x y -> stops dbg t x y PIndex)
  /\ (recursive_open t x y -> recursive_jam t x y ->
        stops dbg t x y PIndex \/ stops dbg t x y (PUnwrap Underflow)).
Proof. exact bz_scaling_claim. Qed.
Print Assumptions C68_decimal_stops.

(** Up to 80 digits of divisor no multiplication stops. *)
Theorem C68_short : forall t x y, well_formed t x -> well_formed t y -> (20 <= length y <= 80)%nat ->
  scales t (length y) (num t y) -> ~ recursive_jam t x y.
Proof. exact recursive_jam_short. Qed.
Print Assumptions C68_short.

(** The condition is decided by computation. *)
Theorem C68_computed : forall t x y s n, valid t x -> well_formed t y -> (20 <= length y)%nat ->
  scales t (length y) (num t y) -> scaling t (length y) (num t y) s -> padded (length y) n ->
  (recursive_jam_b t s n x y = true <-> recursive_jam t x y).
Proof. exact recursive_jam_check. Qed.
Print Assumptions C68_computed.

(** All divisors of a binary type together: this says of every division whether C18 holds.
    [division_right] is in SpecBz.v. *)
Theorem C18_everywhere_exact_partial : forall dbg t x y, is_binary t = true -> well_formed t x ->
  well_formed t y -> y <> [] -> Z.of_nat (length y) < 2 ^ 64 ->
  (divided dbg t x y <-> division_right t x y).
Proof. exact division_exact_claim. Qed.
Print Assumptions C18_everywhere_exact_partial.

(** A divisor of 88 digits: its lower half is [kara_bad] (Witness.v).  [kara_bad] times it,
    divided by it, stops; 256^130 divided by it does not. *)
Fixpoint to_base (n : nat) (B v : Z) : digits :=
  match n with O => [] | S n => if v =? 0 then [] else v mod B :: to_base n B (v / B) end.
Definition jam_y : digits := kara_bad ++ zeros 3 ++ repeat 77 43 ++ [200].
Definition jam_x : digits := to_base 200 256 (num B8 kara_bad * num B8 jam_y).
Example C68_case : well_formed B8 jam_y /\ length jam_y = 88%nat /\ well_formed B8 jam_x
  /\ ~ recursive_tie B8 jam_x jam_y /\ recursive_jam B8 jam_x jam_y
  /\ stops true B8 jam_x jam_y (PUnwrap Underflow) /\ stops false B8 jam_x jam_y (PUnwrap Underflow).
Proof.
  assert (Wy : well_formed B8 jam_y) by dfact. assert (Wx : well_formed B8 jam_x) by dfact.
  assert (Hs : scaling B8 (length jam_y) (num B8 jam_y) 0) by dfact.
  assert (Hp : padded (length jam_y) 88) by (exists 11%nat, 3%nat; cbn; lia).
  assert (Hl : (20 <= length jam_y)%nat) by (cbn; lia).
  assert (HT : ~ recursive_tie B8 jam_x jam_y).
  { apply (recursive_tie_check B8 _ _ 0 88); [cbn; lia|dfact|exact Hs|exact Hp|lia|vm_compute; reflexivity]. }
  assert (HJ : recursive_jam B8 jam_x jam_y).
  { apply (C68_computed B8 _ _ 0 88 (proj1 Wx) Wy Hl (binary_fits B8 _ eq_refl Wy ltac:(lia)) Hs Hp).
    vm_compute; reflexivity. }
  split; [exact Wy|]. split; [reflexivity|]. split; [exact Wx|]. split; [exact HT|]. split; [exact HJ|].
  split; apply (C68_untied _ B8 jam_x jam_y eq_refl Wx Wy Hl HT); exact HJ.
Qed.
Example C68_case_right : divided true B8 (zeros 130 ++ [1]) jam_y.
Proof.
  assert (Wy : well_formed B8 jam_y) by dfact. assert (Wx : well_formed B8 (zeros 130 ++ [1])) by dfact.
  assert (Hs : scaling B8 (length jam_y) (num B8 jam_y) 0) by dfact.
  assert (Hp : padded (length jam_y) 88) by (exists 11%nat, 3%nat; cbn; lia).
  assert (Hl : (20 <= length jam_y)%nat) by (cbn; lia).
  apply C68_binary; [reflexivity|exact Wx|exact Wy|exact Hl|cbn; lia|]. split.
  - apply (recursive_tie_check B8 _ _ 0 88); [cbn; lia|dfact|exact Hs|exact Hp|lia|vm_compute; reflexivity].
  - intros HJ. apply (C68_computed B8 _ _ 0 88 (proj1 Wx) Wy Hl (binary_fits B8 _ eq_refl Wy ltac:(lia)) Hs Hp) in HJ.
    vm_compute in HJ. discriminate.
Qed.
