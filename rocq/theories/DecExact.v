(** * DecExact: conversion to decimal of binary numbers of any length; the pieces. *)
From Coq Require Import ZArith List Bool Lia.
From Verif Require Import Base Digit Slice Mul Div UBig Text Spec SpecDiv SpecDec Hoare DigitOK ListLemmas
  SliceProof UBigProof PowProof TypedProof TextProof Cases ClaimsBasic ClaimsMul ClaimsText ClaimsDiv ClaimsDivBig
  Gives Ends EndsLow EndsTyped.
From Verif Require Import SpecDec.
Import ListNotations.
Open Scope Z_scope.
Open Scope m_scope.

Lemma piece_trans t u v w : piece t u v -> piece t v w -> piece t u w.
Proof. intros H1 H2. induction H2; [exact H1|eapply piece_low; eauto|eapply piece_high; eauto]. Qed.

Section Dec.
Variable dbg : bool.
Variable t : dty.
Hypothesis Hb : is_binary t = true.
Notation td := (decimal_of t).
Notation R := (radix td).
Notation g := (group_places t).

Lemma R_ten : R = 10 ^ g.
Proof. destruct t; try discriminate Hb; reflexivity. Qed.
Lemma g_places : Z.of_nat (NR_DECIMAL_PLACES t) = g.
Proof. destruct t; try discriminate Hb; reflexivity. Qed.
Lemma g_pos : 1 <= g.
Proof. destruct t; cbn; lia. Qed.
Lemma estimate_places n : Z.of_nat (nr_decimal_places t n) = estimate t (Z.of_nat n).
Proof.
  unfold nr_decimal_places, estimate. replace (bits t / 8) with (Z.of_nat (size_of t)) by (destruct t; reflexivity).
  apply Z2Nat.id. apply Z.div_pos; lia.
Qed.
Lemma R_pow i : 10 ^ (g * 2 ^ Z.of_nat i) = pw R (2 ^ i).
Proof.
  unfold pw. rewrite R_ten, <- Z.pow_mul_r by (pose proof g_pos; lia).
  rewrite Nat2Z.inj_pow. reflexivity.
Qed.

(** a number is cut in one way only *)
Lemma cut_unique v S1 S2 : cut t v S1 -> cut t v S2 -> S1 = S2.
Proof.
  intros (n & i & N1 & V1 & I1 & E1 & M1 & ->) (m & j & N2 & V2 & I2 & E2 & M2 & ->).
  pose proof (radix_gt t) as HB. pose proof g_pos as Hg.
  assert (n = m).
  { destruct (Z.lt_trichotomy n m) as [H|[H|H]]; [exfalso|exact H|exfalso].
    - assert (radix t ^ n <= radix t ^ (m - 1)) by (apply Z.pow_le_mono_r; lia). lia.
    - assert (radix t ^ m <= radix t ^ (n - 1)) by (apply Z.pow_le_mono_r; lia). lia. }
  subst m. assert (i = j); [|subst; reflexivity].
  assert (aux : forall a b, 0 <= a -> a < b -> g * 2 ^ a <= g * 2 ^ (b - 1)).
  { intros a b H1 H2. apply Z.mul_le_mono_nonneg_l; [lia|]. apply Z.pow_le_mono_r; lia. }
  destruct (Z.lt_trichotomy i j) as [H|[H|H]]; [exfalso|exact H|exfalso].
  - pose proof (aux i j I1 H). lia.
  - pose proof (aux j i I2 H). lia.
Qed.

Lemma not_cut v S : v < radix t ^ 15 -> ~ cut t v S.
Proof.
  intros H (n & i & N1 & V1 & _). pose proof (radix_gt t).
  assert (radix t ^ 15 <= radix t ^ (n - 1)) by (apply Z.pow_le_mono_r; lia). lia.
Qed.
Lemma filled_small v : v < radix t ^ 15 -> filled t v.
Proof.
  intros H w S Hp Hc. exfalso.
  assert (w = v); [|subst; exact (not_cut v S H Hc)].
  clear Hc. induction Hp as [|u S' Hp IH Hc|u S' Hp IH Hc]; [reflexivity|subst..]; exfalso; exact (not_cut _ _ H Hc).
Qed.
Lemma piece_cut v S w : cut t v S -> piece t v w -> w = v \/ piece t (v mod S) w \/ piece t (v / S) w.
Proof.
  intros HC Hp. induction Hp as [|u S' Hp IH Hc|u S' Hp IH Hc]; [left; reflexivity| |];
    (destruct IH as [->|[IH|IH]]; [rewrite (cut_unique _ _ _ HC Hc)|right; left|right; right]).
  - right. left. constructor.
  - eapply piece_low; eauto.
  - eapply piece_low; eauto.
  - right. right. constructor.
  - eapply piece_high; eauto.
  - eapply piece_high; eauto.
Qed.
Lemma filled_cut v S : cut t v S ->
  (filled t v <-> S <= R * (v mod S) /\ filled t (v mod S) /\ filled t (v / S)).
Proof.
  intros HC. rewrite R_ten. split.
  - intros H. split; [apply H; [constructor|exact HC]|]. split; intros w S' Hp Hc; apply H; auto.
    + eapply piece_trans; [eapply piece_low; [constructor|exact HC]|exact Hp].
    + eapply piece_trans; [eapply piece_high; [constructor|exact HC]|exact Hp].
  - intros (H1 & H2 & H3) w S' Hp Hc. destruct (piece_cut v S w HC Hp) as [->|[Hq|Hq]]; auto.
    rewrite <- (cut_unique _ _ _ HC Hc). exact H1.
Qed.
Lemma smooth_low v S : cut_smoothly t v -> cut t v S -> cut_smoothly t (v mod S).
Proof.
  intros H HC x y Wx Wy Hp Hc. apply H; auto.
  eapply piece_trans; [eapply piece_low; [constructor|exact HC]|exact Hp].
Qed.
Lemma smooth_high v S : cut_smoothly t v -> cut t v S -> cut_smoothly t (v / S).
Proof.
  intros H HC x y Wx Wy Hp Hc. apply H; auto.
  eapply piece_trans; [eapply piece_high; [constructor|exact HC]|exact Hp].
Qed.

(** joining a lower part [a] and a nonzero higher part [b] *)
Lemma join n l q a b : (0 <= l <= n)%nat -> 0 <= a -> 0 < b <= q -> forall r, a <= r ->
  let v := pw R n * q + r in
  a + pw R l * b <= v /\ (a + pw R l * b = v <-> a = r /\ b = q /\ l = n).
Proof.
  intros Hl Ha Hq r Hr. cbv zeta. pose proof (radix_gt td) as HR.
  pose proof (pw_pos R l HR) as P1.
  assert (P2 : pw R l <= pw R n) by (apply pw_le; [exact HR|lia]).
  assert (H1 : pw R l * b <= pw R n * b) by (apply Z.mul_le_mono_nonneg_r; lia).
  assert (H2 : pw R n * b <= pw R n * q) by (apply Z.mul_le_mono_nonneg_l; lia).
  split; [lia|]. split; [|intros (-> & -> & ->); ring].
  intros E. assert (E1 : pw R l * b = pw R n * b) by lia. assert (E2 : pw R n * b = pw R n * q) by lia.
  apply Z.mul_reg_r in E1; [|lia]. apply Z.mul_reg_l in E2; [|lia]. conj; try lia.
  destruct (Nat.eq_dec l n) as [|Hne]; [assumption|exfalso].
  assert (pw R (S l) <= pw R n) by (apply pw_le; [exact HR|lia]).
  rewrite pw_S in *. nia.
Qed.

Definition scales_right (l : list digits) (m : nat) : Prop :=
  (forall i y, nth_error l i = Some y -> well_formed t y /\ num t y = 10 ^ (g * 2 ^ Z.of_nat i))
  /\ (nr_decimal_places t m <= 3 * (NR_DECIMAL_PLACES t * 2 ^ (length l - 1)) /\ 1 <= length l)%nat.

Lemma places_mono m n : (m <= n -> nr_decimal_places t m <= nr_decimal_places t n)%nat.
Proof.
  intros H. apply Nat2Z.inj_le. rewrite !estimate_places. unfold estimate. apply Z.div_le_mono; [lia|].
  assert (0 <= bits t / 8) by (destruct t; cbn; lia).
  apply Z.mul_le_mono_nonneg_r; [lia|]. apply Z.mul_le_mono_nonneg_r; lia.
Qed.

Definition converted (x r : digits) : Prop := well_formed td r /\ num td r <= num t x
  /\ (0 < num t x -> 0 < num td r) /\ (num td r = num t x <-> filled t (num t x)).

Lemma build_small_case x : well_formed t x -> (length x < 16)%nat ->
  total (build_decimal dbg t 1 x []) (converted x).
Proof.
  intros Wx Hl. destruct (to_decimal_claim dbg t x Hb Wx Hl) as (r & E & W & V).
  unfold to_decimal in E. change TO_DEC_DIV_CUTOFF with 16%nat in E. rewrite (proj2 (Nat.ltb_lt _ _) Hl) in E.
  assert (E' : build_decimal dbg t 1 x [] = Ret r).
  { rewrite <- E. cbn [build_decimal]. cbv zeta. change TO_DEC_DIV_CUTOFF with 16%nat. destruct (length x =? 0)%nat; [reflexivity|].
    rewrite (proj2 (Nat.ltb_lt _ _) Hl). reflexivity. }
  rewrite E'. apply spec_ret. split; [exact W|]. rewrite V. split; [lia|]. split; [auto|].
  split; [intros _|auto]. apply filled_small.
  pose proof (value_bound _ (radix_gt t) x (proj1 Wx)) as [_ Hu].
  eapply Z.lt_le_trans; [exact Hu|]. apply Z.pow_le_mono_r; [pose proof (radix_gt t)|]; lia.
Qed.

(** the power of ten used for a number of at most 120 digits has at most 80 *)
Lemma cut_short m i y : (16 <= m <= 120)%nat -> well_formed t y ->
  num t y = 10 ^ Z.of_nat (NR_DECIMAL_PLACES t * 2 ^ i) ->
  (i = 0 \/ 3 * (NR_DECIMAL_PLACES t * 2 ^ i) < 2 * nr_decimal_places t m)%nat ->
  (length y <= 80)%nat.
Proof.
  intros Hm [Vy Ny] E Hi. set (k := (NR_DECIMAL_PLACES t * 2 ^ i)%nat) in *.
  pose proof (places_bound t Hb m). pose proof (places_lower t Hb m ltac:(lia)). pose proof (size_pos t Hb).
  destruct (first_places t Hb) as [F1 F2].
  assert (Hk : (3 * k < 2 * nr_decimal_places t m)%nat).
  { destruct Hi as [->|Hi]; [|exact Hi]. unfold k. rewrite Nat.pow_0_r, Nat.mul_1_r. lia. }
  apply (normal_short _ _ (impl_ok dbg t)); [exact Vy|exact Ny|].
  unfold num in E. rewrite E. unfold pw. rewrite (radix_pow t Hb). apply ten_256; [lia|lia|].
  set (s := Z.of_nat (size_of t)) in *.
  assert (s * Z.of_nat m <= s * 120) by (apply Z.mul_le_mono_nonneg_l; lia). change (Z.of_nat 80) with 80. lia.
Qed.

End Dec.

(** ** Checking the conditions by computation, for numbers cut once *)
Lemma smooth_check t v S x y : is_binary t = true -> cut t v S ->
  v mod S < radix t ^ 15 -> v / S < radix t ^ 15 ->
  well_formed t x -> num t x = v -> well_formed t y -> num t y = S ->
  (if (length y <? 20)%nat then ~ tie t x y else ~ recursive_tie t x y) -> cut_smoothly t v.
Proof.
  intros Hb HC H1 H2 Wx Vx Wy Vy HT x' y' Wx' Wy' Hp Hc.
  assert (Ex : num t x' = v).
  { destruct (piece_cut t Hb v S _ HC Hp) as [E|[E|E]]; [exact E|exfalso..].
    - assert (aux : forall w, piece t (v mod S) w -> w = v mod S).
      { intros w Hw. induction Hw as [|u S' Hw IH Hcu|u S' Hw IH Hcu]; [reflexivity|subst..];
          exfalso; exact (not_cut t _ _ H1 Hcu). }
      apply aux in E. rewrite E in Hc. exact (not_cut t _ _ H1 Hc).
    - assert (aux : forall w, piece t (v / S) w -> w = v / S).
      { intros w Hw. induction Hw as [|u S' Hw IH Hcu|u S' Hw IH Hcu]; [reflexivity|subst..];
          exfalso; exact (not_cut t _ _ H2 Hcu). }
      apply aux in E. rewrite E in Hc. exact (not_cut t _ _ H2 Hc). }
  rewrite Ex in Hc. pose proof (cut_unique t Hb _ _ _ HC Hc) as Ey.
  assert (x' = x) by (apply (wf_eq t); congruence). assert (y' = y) by (apply (wf_eq t); congruence).
  subst. exact HT.
Qed.
Lemma filled_check t v S : is_binary t = true -> cut t v S -> v mod S < radix t ^ 15 -> v / S < radix t ^ 15 ->
  (filled t v <-> S <= 10 ^ group_places t * (v mod S)).
Proof.
  intros Hb HC H1 H2. rewrite (filled_cut t Hb v S HC), <- (R_ten t Hb).
  pose proof (filled_small t _ H1). pose proof (filled_small t _ H2). tauto.
Qed.
Lemma no_tie_computed t x y s : 0 < leading t (length y) (num t y) -> scaling t (length y) (num t y) s ->
  forallb (fun i => negb (leading t (length y) ((num t x * 2 ^ s / radix t ^ Z.of_nat i) mod (num t y * 2 ^ s))
                          =? leading t (length y) (num t y * 2 ^ s))) (seq 1 (length x - length y)) = true ->
  ~ tie t x y.
Proof.
  intros H1 H2 H3. apply (tie_check t x y s H1 H2). apply Forall_forall. intros i Hi.
  rewrite forallb_forall in H3. specialize (H3 i Hi). apply negb_true_iff in H3. apply Z.eqb_neq. exact H3.
Qed.
