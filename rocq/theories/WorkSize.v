(** * WorkSize: the scratch sizes of Karatsuba and Toom-3. *)
From Coq Require Import ZArith List Bool Lia Wf_nat.
From Verif Require Import Base Digit Slice Mul.
Import ListNotations.
Open Scope nat_scope.

Local Notation k := calc_karatsuba_work_size.
Local Notation t := calc_toom3_work_size.

Lemma div2_half n : Nat.div2 (n + 1) = (n + 1) / 2.
Proof. apply Nat.div2_div. Qed.

Lemma split_bounds n : 2 * Nat.div2 (n + 1) <= n + 1 < 2 * Nat.div2 (n + 1) + 2.
Proof.
  rewrite div2_half. pose proof (Nat.div_mod (n + 1) 2 ltac:(lia)).
  pose proof (Nat.mod_upper_bound (n + 1) 2 ltac:(lia)). lia.
Qed.
Lemma third_bounds n : 3 * ((n + 2) / 3) <= n + 2 < 3 * ((n + 2) / 3) + 3.
Proof.
  pose proof (Nat.div_mod (n + 2) 3 ltac:(lia)).
  pose proof (Nat.mod_upper_bound (n + 2) 3 ltac:(lia)). lia.
Qed.

Lemma kloop_acc f : forall ws nn, karatsuba_work_loop f ws nn = ws + karatsuba_work_loop f 0 nn.
Proof.
  induction f as [|f IH]; intros ws nn; cbn [karatsuba_work_loop]; [lia|].
  destruct (KARATSUBA_CUTOFF <=? nn); [|lia].
  rewrite (IH (ws + _)), (IH (0 + _)). lia.
Qed.
Lemma kloop_fuel f : forall f' nn, nn <= f -> nn <= f' ->
  karatsuba_work_loop f 0 nn = karatsuba_work_loop f' 0 nn.
Proof.
  induction f as [|f IH]; intros f' nn H1 H2.
  - replace nn with 0 by lia. destruct f'; reflexivity.
  - destruct f' as [|f']; [replace nn with 0 by lia; reflexivity|].
    cbn [karatsuba_work_loop]. destruct (Nat.leb_spec KARATSUBA_CUTOFF nn) as [Hc|Hc]; [|reflexivity].
    unfold KARATSUBA_CUTOFF in Hc. pose proof (split_bounds nn).
    rewrite !(kloop_acc _ (0 + _)). f_equal. apply IH; lia.
Qed.

Lemma k_small n : n < 20 -> k n = 0.
Proof.
  intros H. unfold k. destruct n; [reflexivity|]. cbn [karatsuba_work_loop].
  destruct (Nat.leb_spec KARATSUBA_CUTOFF (S n)) as [Hc|Hc]; [unfold KARATSUBA_CUTOFF in Hc; lia|reflexivity].
Qed.
Lemma k_step n : 20 <= n -> k n = 2 * Nat.div2 (n + 1) + k (Nat.div2 (n + 1)).
Proof.
  intros H. unfold k. pose proof (split_bounds n). destruct n as [|n]; [lia|].
  cbn [karatsuba_work_loop].
  destruct (Nat.leb_spec KARATSUBA_CUTOFF (S n)) as [Hc|Hc]; [|unfold KARATSUBA_CUTOFF in Hc; lia].
  rewrite kloop_acc. rewrite (kloop_fuel n (Nat.div2 (S n + 1))) by lia. lia.
Qed.

Lemma tloop_acc f : forall ws nn, toom3_work_loop f ws nn = ws + toom3_work_loop f 0 nn.
Proof.
  induction f as [|f IH]; intros ws nn; cbn [toom3_work_loop]; [lia|].
  destruct (TOOM3_CUTOFF <=? nn); [|lia].
  rewrite (IH (ws + _)), (IH (0 + _)). lia.
Qed.
Lemma tloop_fuel f : forall f' nn, nn <= f -> nn <= f' ->
  toom3_work_loop f 0 nn = toom3_work_loop f' 0 nn.
Proof.
  induction f as [|f IH]; intros f' nn H1 H2.
  - replace nn with 0 by lia. destruct f'; reflexivity.
  - destruct f' as [|f']; [replace nn with 0 by lia; reflexivity|].
    cbn [toom3_work_loop]. destruct (Nat.leb_spec TOOM3_CUTOFF nn) as [Hc|Hc]; [|reflexivity].
    unfold TOOM3_CUTOFF in Hc. pose proof (third_bounds nn).
    rewrite !(tloop_acc _ (0 + _)). f_equal. apply IH; lia.
Qed.

Lemma t_small n : n < 128 -> t n = k n.
Proof.
  intros H. unfold t. destruct n; [reflexivity|]. cbn [toom3_work_loop].
  destruct (Nat.leb_spec TOOM3_CUTOFF (S n)) as [Hc|Hc]; [unfold TOOM3_CUTOFF in Hc; lia|lia].
Qed.
Lemma t_step n : 128 <= n -> t n = 6 * ((n + 2) / 3) + 10 + t ((n + 2) / 3 + 2).
Proof.
  intros H. unfold t. pose proof (third_bounds n). destruct n as [|n]; [lia|].
  cbn [toom3_work_loop].
  destruct (Nat.leb_spec TOOM3_CUTOFF (S n)) as [Hc|Hc]; [|unfold TOOM3_CUTOFF in Hc; lia].
  rewrite tloop_acc. rewrite (tloop_fuel n ((S n + 2) / 3 + 2)) by lia. lia.
Qed.

Lemma k_mono : forall n m, m <= n -> k m <= k n.
Proof.
  induction n as [n IH] using lt_wf_ind. intros m H.
  destruct (Nat.lt_ge_cases m 20) as [Hm|Hm]; [rewrite (k_small m); lia|].
  rewrite (k_step m), (k_step n) by lia. pose proof (split_bounds m). pose proof (split_bounds n).
  assert (Nat.div2 (m + 1) <= Nat.div2 (n + 1)) by lia.
  specialize (IH (Nat.div2 (n + 1)) ltac:(lia) (Nat.div2 (m + 1)) ltac:(lia)). lia.
Qed.
Lemma k_ge n : 20 <= n -> n <= k n.
Proof. intros H. rewrite k_step by lia. pose proof (split_bounds n). lia. Qed.
Lemma k_le n : 10 * k n <= 21 * n + 60.
Proof.
  induction n as [n IH] using lt_wf_ind.
  destruct (Nat.lt_ge_cases n 20) as [Hn|Hn]; [rewrite k_small; lia|].
  rewrite k_step by lia. pose proof (split_bounds n).
  destruct (Nat.lt_ge_cases (Nat.div2 (n + 1)) 20) as [Hs|Hs]; [rewrite k_small by lia; lia|].
  specialize (IH (Nat.div2 (n + 1)) ltac:(lia)).
  destruct (Nat.lt_ge_cases n 41) as [H1|H1]; [|lia].
  replace (Nat.div2 (n + 1)) with 20 in * by lia. change (k 20) with 20. lia.
Qed.
Lemma t_ge n : 20 <= n -> n <= t n.
Proof.
  induction n as [n IH] using lt_wf_ind. intros H.
  destruct (Nat.lt_ge_cases n 128) as [Hn|Hn]; [rewrite t_small by lia; apply k_ge; lia|].
  rewrite t_step by lia. pose proof (third_bounds n). lia.
Qed.
Lemma k_le_t n : k n <= t n.
Proof.
  destruct (Nat.lt_ge_cases n 128) as [Hn|Hn]; [rewrite t_small; lia|].
  rewrite t_step by lia. pose proof (third_bounds n). pose proof (k_le n).
  pose proof (t_ge ((n + 2) / 3 + 2) ltac:(lia)). lia.
Qed.
Lemma t_mono : forall n m, m <= n -> t m <= t n.
Proof.
  induction n as [n IH] using lt_wf_ind. intros m H.
  destruct (Nat.lt_ge_cases m 128) as [Hm|Hm].
  - rewrite (t_small m) by lia. pose proof (k_mono n m H). pose proof (k_le_t n). lia.
  - rewrite (t_step m), (t_step n) by lia. pose proof (third_bounds m). pose proof (third_bounds n).
    assert ((m + 2) / 3 <= (n + 2) / 3) by lia.
    specialize (IH ((n + 2) / 3 + 2) ltac:(lia) ((m + 2) / 3 + 2) ltac:(lia)). lia.
Qed.

(** Scratch that a product of operands of the given lengths needs. *)
Definition need (n0 n1 : nat) : nat :=
  if (128 <=? n0) && (128 <=? n1) then t (Nat.max n0 n1)
  else if (20 <=? n0) && (20 <=? n1) then k (Nat.max n0 n1) else 0.

Lemma need_le n0 n1 m : Nat.max n0 n1 <= m -> need n0 n1 <= t m.
Proof.
  intros H. unfold need. destruct ((128 <=? n0) && (128 <=? n1)); [apply t_mono; assumption|].
  destruct ((20 <=? n0) && (20 <=? n1)); [|lia].
  etransitivity; [apply k_le_t|apply t_mono; assumption].
Qed.
Lemma need_le_k n0 n1 m : Nat.max n0 n1 <= m -> Nat.min n0 n1 < 128 -> need n0 n1 <= k m.
Proof.
  intros H H1. unfold need.
  destruct (Nat.leb_spec 128 n0), (Nat.leb_spec 128 n1); cbn [andb]; try lia;
  destruct ((20 <=? n0) && (20 <=? n1)); try lia; apply k_mono; lia.
Qed.
Lemma need_sq n m : n <= m -> m < 128 -> need n n <= k m.
Proof. intros. apply need_le_k; lia. Qed.
