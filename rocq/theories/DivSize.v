(** * DivSize: block sizes and scratch sizes of the recursive division. *)
From Coq Require Import ZArith List Bool Lia.
From Verif Require Import Base Digit Slice Mul Div WorkSize.
Open Scope Z_scope.

(** ** Lengths that keep halving until they fall below the cutoff *)
Inductive halving : nat -> Prop :=
| halving_small n : (10 <= n < 20)%nat -> halving n
| halving_even n : halving n -> (20 <= 2 * n)%nat -> halving (2 * n).

Lemma halving_pow j k : 10 <= j <= 20 -> halving (Z.to_nat (j * 2 ^ Z.of_nat k)).
Proof.
  intros Hj. induction k as [|k IH].
  - change (2 ^ Z.of_nat 0) with 1. rewrite Z.mul_1_r.
    destruct (Z.eq_dec j 20) as [->|N].
    + change (Z.to_nat 20) with (2 * 10)%nat. apply halving_even; [apply halving_small|]; lia.
    + apply halving_small. lia.
  - rewrite Nat2Z.inj_succ, Z.pow_succ_r by lia.
    replace (j * (2 * 2 ^ Z.of_nat k)) with (2 * (j * 2 ^ Z.of_nat k)) by ring.
    assert (1 <= 2 ^ Z.of_nat k) by (pose proof (Z.pow_pos_nonneg 2 (Z.of_nat k)); lia).
    rewrite Z2Nat.inj_mul by nia. change (Z.to_nat 2) with 2%nat. apply halving_even; [exact IH|].
    assert (10 <= j * 2 ^ Z.of_nat k) by nia. lia.
Qed.
Lemma block_size_ok n : (20 <= n)%nat -> halving (block_size n) /\ (n <= block_size n)%nat.
Proof.
  intros Hn. unfold block_size, BZ_CUTOFF. change (Z.of_nat 20) with 20.
  set (z := Z.of_nat n). assert (Hz : 20 <= z) by lia.
  set (x := (z - 1) / 20).
  set (s := if x =? 0 then 0 else Z.log2 x + 1).
  assert (Hx : 20 * x <= z - 1 < 20 * x + 20).
  { unfold x. pose proof (Z.div_mod (z - 1) 20 ltac:(lia)). pose proof (Z.mod_pos_bound (z - 1) 20 ltac:(lia)). lia. }
  assert (Hs : 0 <= s /\ x < 2 ^ s /\ (s = 0 \/ 2 ^ s <= 2 * x)).
  { unfold s. destruct (Z.eqb_spec x 0) as [E|N]; [rewrite E; cbn; lia|].
    pose proof (Z.log2_spec x ltac:(lia)) as [L1 L2]. pose proof (Z.log2_nonneg x).
    rewrite Z.pow_add_r by lia. rewrite Z.pow_succ_r in L2 by lia. change (2 ^ 1) with 2. lia. }
  destruct Hs as (S0 & S1 & S2). set (m := 2 ^ s) in *.
  assert (M1 : 1 <= m) by (unfold m; pose proof (Z.pow_pos_nonneg 2 s); lia).
  set (j := (z + m - 1) / m).
  assert (Hj : m * j <= z + m - 1 < m * j + m).
  { unfold j. pose proof (Z.div_mod (z + m - 1) m ltac:(lia)). pose proof (Z.mod_pos_bound (z + m - 1) m ltac:(lia)). lia. }
  assert (J : 10 <= j <= 20).
  { split; [|nia]. destruct S2 as [->|S2]; [unfold m in *; change (2 ^ 0) with 1 in *; nia|].
    assert (10 * m <= z - 1) by lia. nia. }
  split.
  - unfold m. rewrite <- (Z2Nat.id s S0). apply halving_pow, J.
  - assert (z <= j * m) by nia. lia.
Qed.

(** ** Scratch needed at a level of the recursion *)
Definition wneed (n : nat) : nat :=
  if (n <? 20)%nat then (n + 1)%nat else (3 * (n / 2) + 1 + calc_mul_work_size (n / 2))%nat.
Lemma need_calc x y m : (x <= m)%nat -> (y <= m)%nat -> (need x y <= calc_mul_work_size m)%nat.
Proof.
  intros Hx Hy. unfold calc_mul_work_size, TOOM3_CUTOFF, KARATSUBA_CUTOFF.
  destruct (Nat.leb_spec 128 m); [apply need_le; lia|].
  destruct (Nat.leb_spec 20 m); [apply need_le_k; lia|].
  unfold need. destruct (Nat.leb_spec 128 x); [lia|]. destruct (Nat.leb_spec 20 x); [lia|]. cbn. lia.
Qed.
Lemma calc_mul_mono m n : (m <= n)%nat -> (calc_mul_work_size m <= calc_mul_work_size n)%nat.
Proof.
  intros H. unfold calc_mul_work_size, TOOM3_CUTOFF, KARATSUBA_CUTOFF.
  pose proof (k_mono n m H). pose proof (t_mono n m H). pose proof (k_le_t m). pose proof (k_le_t n).
  destruct (Nat.leb_spec 128 m), (Nat.leb_spec 128 n), (Nat.leb_spec 20 m), (Nat.leb_spec 20 n); lia.
Qed.
Lemma half2 n : (2 * n / 2 = n)%nat.
Proof. rewrite Nat.mul_comm. apply Nat.div_mul. lia. Qed.
Lemma wneed_half n : halving n -> (20 <= 2 * n)%nat -> (wneed n <= wneed (2 * n))%nat.
Proof.
  intros H H2. unfold wneed. destruct (Nat.ltb_spec (2 * n) 20); [lia|]. rewrite half2.
  destruct (Nat.ltb_spec n 20); [lia|].
  pose proof (Nat.div_mod n 2 ltac:(lia)). pose proof (calc_mul_mono (n / 2) n ltac:(lia)). lia.
Qed.
