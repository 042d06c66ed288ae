(** * WorkBound: the scratch sizes grow linearly, and grow with the operands. *)
From Coq Require Import ZArith List Bool Lia Wf_nat.
From Verif Require Import Base Digit Slice Mul Div SpecDiv WorkSize DivSize ClaimsDivBig.
Open Scope nat_scope.

Local Notation k := calc_karatsuba_work_size.
Local Notation t := calc_toom3_work_size.

Lemma k_linear n : 4 * k n <= 9 * n.
Proof.
  induction n as [n IH] using lt_wf_ind.
  destruct (Nat.lt_ge_cases n 20) as [Hn|Hn]; [rewrite k_small; lia|].
  rewrite k_step by lia. pose proof (split_bounds n).
  specialize (IH (Nat.div2 (n + 1)) ltac:(lia)). lia.
Qed.
Lemma t_linear n : 2 * t n <= 7 * n.
Proof.
  induction n as [n IH] using lt_wf_ind.
  destruct (Nat.lt_ge_cases n 128) as [Hn|Hn]; [rewrite t_small by lia; pose proof (k_linear n); lia|].
  rewrite t_step by lia. pose proof (third_bounds n).
  specialize (IH ((n + 2) / 3 + 2) ltac:(lia)). lia.
Qed.
Lemma t_twice n : 128 <= n -> 2 * n <= t n.
Proof.
  intros H. rewrite t_step by lia. pose proof (third_bounds n). lia.
Qed.

Lemma kara_size_claim n : (n < 20 -> k n = 0) /\ (20 <= n -> n <= k n /\ 4 * k n <= 9 * n).
Proof. split; intros H; [apply k_small, H|]. split; [apply k_ge, H|apply k_linear]. Qed.
Lemma toom_size_claim n : 128 <= n -> 2 * n <= t n /\ 2 * t n <= 7 * n.
Proof. intros H. split; [apply t_twice, H|apply t_linear]. Qed.

Lemma mul_size n : 2 * calc_mul_work_size n <= 7 * n.
Proof.
  unfold calc_mul_work_size. destruct (TOOM3_CUTOFF <=? n); [apply t_linear|].
  destruct (KARATSUBA_CUTOFF <=? n); [|lia]. pose proof (k_linear n). lia.
Qed.

Lemma pad_small nd n : padded nd n -> 10 * n < 11 * nd + 10.
Proof.
  intros (j & e & E & H1 & H2 & [->|H3]); [change (2 ^ 0) with 1 in *; lia|].
  destruct e as [|e]; [change (2 ^ 0) with 1 in *; lia|].
  replace (S e - 1) with e in H3 by lia. cbn [Nat.pow] in *. lia.
Qed.
Lemma pad_mono a b m n : padded a m -> padded b n -> a <= b -> m <= n.
Proof.
  intros (j & e & E & H1 & H2 & H3) (i & f & F & H4 & H5 & H6) H.
  destruct (Nat.lt_trichotomy e f) as [L|[L|L]].
  - destruct H6 as [->|H6]; [lia|].
    assert (Hp : 2 ^ e <= 2 ^ (f - 1)) by (apply Nat.pow_le_mono_r; lia).
    assert (j <= 20).
    { destruct (Nat.lt_ge_cases 20 j) as [Hj|Hj]; [exfalso|exact Hj]. nia. }
    nia.
  - subst f. assert (j < S i) by nia. nia.
  - destruct H3 as [->|H3]; [lia|].
    assert (Hp : 2 ^ f <= 2 ^ (e - 1)) by (apply Nat.pow_le_mono_r; lia). lia.
Qed.

Lemma bz_size_claim nd : 20 <= nd ->
  nd <= block_size nd /\ 10 * block_size nd < 11 * nd + 10
  /\ nd < calc_div_bz_work_size nd /\ calc_div_bz_work_size nd <= 4 * nd.
Proof.
  intros H. pose proof (block_size_padded nd H) as P. pose proof (pad_small nd _ P) as S.
  assert (L : nd <= block_size nd) by (destruct P as (? & ? & ? & ? & ?); lia).
  split; [exact L|]. split; [exact S|].
  unfold calc_div_bz_work_size. set (n := block_size nd) in *. cbv zeta.
  pose proof (mul_size (n / 2)) as M.
  pose proof (Nat.div_mod n 2 ltac:(lia)). pose proof (Nat.mod_upper_bound n 2 ltac:(lia)).
  pose proof (Nat.div_mod (3 * n) 2 ltac:(lia)). pose proof (Nat.mod_upper_bound (3 * n) 2 ltac:(lia)).
  lia.
Qed.

Lemma sizes_grow_claim m n : m <= n ->
  k m <= k n /\ t m <= t n /\ calc_mul_work_size m <= calc_mul_work_size n
  /\ calc_div_long_work_size m <= calc_div_long_work_size n
  /\ (20 <= m -> block_size m <= block_size n /\ calc_div_bz_work_size m <= calc_div_bz_work_size n).
Proof.
  intros H. split; [apply k_mono, H|]. split; [apply t_mono, H|]. split; [apply calc_mul_mono, H|].
  split; [unfold calc_div_long_work_size; lia|]. intros H20.
  assert (L : block_size m <= block_size n).
  { apply (pad_mono m n); [apply block_size_padded; lia..|exact H]. }
  split; [exact L|]. unfold calc_div_bz_work_size. cbv zeta.
  pose proof (calc_mul_mono (block_size m / 2) (block_size n / 2) (Nat.div_le_mono _ _ 2 ltac:(lia) L)).
  pose proof (Nat.div_le_mono (3 * block_size m) (3 * block_size n) 2 ltac:(lia) ltac:(lia)). lia.
Qed.

(** ** Machine words *)
Lemma words_claim n : (Z.of_nat n < 2 ^ 61)%Z ->
  (Z.of_nat (k n) < 2 ^ 64)%Z /\ (Z.of_nat (t n) < 2 ^ 64)%Z /\ (Z.of_nat (calc_mul_work_size n) < 2 ^ 64)%Z
  /\ ((20 <= n)%nat -> Z.of_nat (3 * block_size n) < 2 ^ 64 /\ Z.of_nat (calc_div_bz_work_size n) < 2 ^ 64)%Z.
Proof.
  intros H. change (2 ^ 61)%Z with 2305843009213693952%Z in H. change (2 ^ 64)%Z with 18446744073709551616%Z.
  pose proof (k_linear n). pose proof (t_linear n). pose proof (mul_size n).
  split; [lia|]. split; [lia|]. split; [lia|]. intros H20.
  destruct (bz_size_claim n H20) as (B1 & B2 & B3 & B4). lia.
Qed.
