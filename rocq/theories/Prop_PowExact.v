(** * Properties C16, C21 (decimal), C32: exactly when powers and left shifts stop, and when
    the same product does in two types. *)
From Coq Require Import ZArith NArith List Bool Lia.
From Verif Require Import Base Digit Slice Mul Div UBig Spec SpecMul SpecToom Witness Cases ClaimsToom PowExact
  TwoTypes Prop_SquareBig.
Import ListNotations.
Open Scope Z_scope.

(** Full statement of C16: whenever [pow] returns, the result is the power.  False: the
    power with exponent two is the square, and squares of 1132 digits can be wrong. *)
Theorem C16_refuted : forall dbg, exists x r, well_formed B8 x
  /\ pow (impl dbg B8) x 2 = Ret r /\ num B8 r <> num B8 x ^ 2.
Proof.
  intros dbg. destruct (C15_refuted dbg) as (x & r & _ & W & E & H).
  exists x, r. split; [exact W|]. split; [exact E|]. rewrite Z.pow_2_r. exact H.
Qed.
Print Assumptions C16_refuted.

(** Powers for which no number of more than 1131 digits is squared: a power stops
    exactly when one of its multiplications does, and is right otherwise.  Missing:
    larger squares, which can be wrong. *)
Theorem C16_exact_partial : forall dbg t x e, well_formed t x ->
  (forall i, 0 <= i -> 2 ^ (i + 1) <= Z.of_N e -> num t x ^ 2 ^ i < radix t ^ 1131) ->
  (jam_power (radix t) (num t x) (Z.of_N e) -> pow (impl dbg t) x e = Panic (PUnwrap Underflow))
  /\ (~ jam_power (radix t) (num t x) (Z.of_N e) ->
      exists r, pow (impl dbg t) x e = Ret r /\ well_formed t r /\ num t r = num t x ^ Z.of_N e).
Proof. exact pow_exact_claim. Qed.
Print Assumptions C16_exact_partial.
Example C16_exact_case : well_formed B8 kara_bad
  /\ (forall i, 0 <= i -> 2 ^ (i + 1) <= Z.of_N 3 -> num B8 kara_bad ^ 2 ^ i < radix B8 ^ 1131)
  /\ jam_power (radix B8) (num B8 kara_bad) 3
  /\ pow (impl true B8) kara_bad 3 = Panic (PUnwrap Underflow)
  /\ (let x := repeat 255 30 in ~ jam_power (radix B8) (num B8 x) 3
      /\ pow (impl true B8) x 3 = Ret (repeat 255 30 ++ [2] ++ zeros 29 ++ [253] ++ repeat 255 29)).
Proof.
  assert (S : forall y i, num B8 y < radix B8 ^ 1131 -> 0 <= i -> 2 ^ (i + 1) <= Z.of_N 3 ->
    num B8 y ^ 2 ^ i < radix B8 ^ 1131).
  { intros y i HL Hi H. destruct (Z.eq_dec i 0) as [->|]; [change (2 ^ 0) with 1; rewrite Z.pow_1_r; exact HL|].
    exfalso. pose proof (Z.pow_le_mono_r 2 2 (i + 1) ltac:(lia) ltac:(lia)). lia. }
  split; [fact|]. split; [intros i; apply S; fact|]. split.
  { exists 0. left. split; [fact|]. split; [fact|].
    change (2 ^ 0) with 1. rewrite Z.pow_1_r. apply (jam_wf true); [fact|fact|]. apply jam_computed; fact. }
  split; [fact|]. cbv zeta. split; [|fact].
  intros H. apply (proj1 (pow_exact_claim true B8 (repeat 255 30) 3 ltac:(fact) ltac:(intros i; apply S; fact))) in H.
  vm_compute in H. discriminate H.
Qed.

(** Full statement of C21 for decimal numbers: [x << n] is [x * 2^n].  False: the
    multiplication by 2^n can stop. *)
Theorem C21_decimal_refuted : forall dbg, exists x n, well_formed D8 x /\ 0 <= n
  /\ shl_assign dbg D8 x n = Panic (PUnwrap Underflow).
Proof. intros dbg. exists (repeat 99 20 ++ zeros 32 ++ [1]), 420. destruct dbg; fact. Qed.
Print Assumptions C21_decimal_refuted.

(** A decimal left shift stops exactly when the computation of 2^n or the final
    multiplication does.  Missing: shifts for which a power of two of more than 1131
    digits is squared. *)
Theorem C21_decimal_exact_partial : forall dbg t x n, is_binary t = false -> well_formed t x -> 0 <= n ->
  (forall i, 0 <= i -> 2 ^ (i + 1) <= n -> 2 ^ 2 ^ i < radix t ^ 1131) ->
  (jam_power (radix t) 2 n \/ jam_at (radix t) (num t x) (2 ^ n) ->
   shl_assign dbg t x n = Panic (PUnwrap Underflow))
  /\ (~ (jam_power (radix t) 2 n \/ jam_at (radix t) (num t x) (2 ^ n)) ->
      exists r, shl_assign dbg t x n = Ret r /\ well_formed t r /\ num t r = num t x * 2 ^ n).
Proof. exact shl_exact_claim. Qed.
Print Assumptions C21_decimal_exact_partial.
Example C21_exact_case : let x := repeat 99 20 ++ zeros 32 ++ [1] in
  is_binary D8 = false /\ well_formed D8 x
  /\ (forall i, 0 <= i -> 2 ^ (i + 1) <= 421 -> 2 ^ 2 ^ i < radix D8 ^ 1131)
  /\ jam_at (radix D8) (num D8 x) (2 ^ 420)
  /\ ~ (jam_power (radix D8) 2 421 \/ jam_at (radix D8) (num D8 [7; 3]) (2 ^ 421)).
Proof.
  cbv zeta. do 2 (split; [fact|]).
  assert (S : forall i, 0 <= i -> 2 ^ (i + 1) <= 421 -> 2 ^ 2 ^ i < radix D8 ^ 1131).
  { intros i Hi H. assert (i <= 8).
    { destruct (Z.le_gt_cases i 8); [assumption|]. pose proof (Z.pow_le_mono_r 2 9 (i + 1) ltac:(lia) ltac:(lia)). lia. }
    apply Z.le_lt_trans with (2 ^ 2 ^ 8); [|fact].
    apply Z.pow_le_mono_r; [lia|]. apply Z.pow_le_mono_r; lia. }
  split; [exact S|]. split.
  - apply (jam_in_sound 4). fact.
  - intros H. apply (proj1 (shl_exact_claim true D8 [7; 3] 421 ltac:(fact) ltac:(fact) ltac:(fact) S)) in H.
    vm_compute in H. discriminate H.
Qed.

(** Two types agree on whether a product comes about exactly if both multiplications stop,
    or neither does; and then on the product (C32_mul). *)
Theorem C32_mul_exact : forall dbg t t' x y x' y',
  well_formed t x -> well_formed t y -> well_formed t' x' -> well_formed t' y' ->
  num t x = num t' x' -> num t y = num t' y' ->
  (((exists r, mul_assign (impl dbg t) x y = Ret r) <-> (exists r, mul_assign (impl dbg t') x' y' = Ret r))
   <-> (jam_at (radix t) (num t x) (num t y) <-> jam_at (radix t') (num t x) (num t y))).
Proof. exact two_mul_exact. Qed.
Print Assumptions C32_mul_exact.
Example C32_mul_exact_case : well_formed B8 kara_bad /\ well_formed B64 kara_bad64 /\ num B8 kara_bad = num B64 kara_bad64
  /\ jam_at (radix B8) (num B8 kara_bad) (num B8 kara_bad) /\ ~ jam_at (radix B64) (num B64 kara_bad64) (num B64 kara_bad64).
Proof.
  assert (W : well_formed B8 kara_bad) by fact. assert (W' : well_formed B64 kara_bad64) by fact.
  split; [exact W|]. split; [exact W'|]. split; [fact|]. split.
  - destruct (jam_at_dec true B8 kara_bad kara_bad W W) as [H|H]; [exact H|exfalso].
    apply (mul_returns true B8 kara_bad kara_bad W W) in H. destruct H as [r H]. vm_compute in H. discriminate H.
  - apply (mul_returns true B64 kara_bad64 kara_bad64 W' W'). eexists. vm_compute. reflexivity.
Qed.
