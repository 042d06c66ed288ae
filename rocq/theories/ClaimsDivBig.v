(** * ClaimsDivBig: division by divisors of 20 digits and more. *)
From Coq Require Import ZArith List Bool Lia.
From Verif Require Import Base Digit Slice Mul Div UBig Spec SpecDiv Hoare DigitOK ListLemmas
  SliceProof KaratsubaProof UBigProof DivProof DivWide DivPairProof DivLongProof DivTopProof DivSize DivBzProof
  TypedProof Cases ClaimsBasic ClaimsDiv.
Import ListNotations.
Open Scope Z_scope.
Open Scope m_scope.

(** both methods and both operators panic, in the same way *)
Definition stops dbg t (x y : digits) (w : panic) : Prop :=
  div_assign_big (impl dbg t) x y = Panic w /\ rem_assign_big (impl dbg t) x y = Panic w
  /\ div_assign (impl dbg t) x y = Panic w /\ rem_assign (impl dbg t) x y = Panic w.

Lemma block_size_padded nd : (20 <= nd)%nat -> padded nd (block_size nd).
Proof.
  intros Hn. unfold block_size, BZ_CUTOFF. change (Z.of_nat 20) with 20.
  set (z := Z.of_nat nd). assert (Hz : 20 <= z) by lia.
  set (x := (z - 1) / 20).
  set (s := if x =? 0 then 0 else Z.log2 x + 1).
  assert (Hx : 20 * x <= z - 1 < 20 * x + 20).
  { unfold x. pose proof (Z.div_mod (z - 1) 20 ltac:(lia)). pose proof (Z.mod_pos_bound (z - 1) 20 ltac:(lia)). lia. }
  assert (Hs : 0 <= s /\ x < 2 ^ s /\ (s = 0 \/ (0 < s /\ 2 ^ (s - 1) <= x))).
  { unfold s. destruct (Z.eqb_spec x 0) as [E|N]; [rewrite E; cbn; lia|].
    pose proof (Z.log2_spec x ltac:(lia)) as [L1 L2]. pose proof (Z.log2_nonneg x).
    replace (Z.log2 x + 1 - 1) with (Z.log2 x) by lia. change (Z.log2 x + 1) with (Z.succ (Z.log2 x)). lia. }
  destruct Hs as (S0 & S1 & S2). set (m := 2 ^ s) in *.
  assert (M1 : 1 <= m) by (unfold m; pose proof (Z.pow_pos_nonneg 2 s); lia).
  set (j := (z + m - 1) / m).
  assert (Hj : m * j <= z + m - 1 < m * j + m).
  { unfold j. pose proof (Z.div_mod (z + m - 1) m ltac:(lia)). pose proof (Z.mod_pos_bound (z + m - 1) m ltac:(lia)). lia. }
  assert (J : 0 <= j) by nia.
  assert (Em : Z.of_nat (2 ^ Z.to_nat s) = m).
  { rewrite Nat2Z.inj_pow. unfold m. f_equal. lia. }
  exists (Z.to_nat j), (Z.to_nat s). conj.
  - apply Nat2Z.inj. rewrite Nat2Z.inj_mul, Em, Z2Nat.id by nia. rewrite !Z2Nat.id by lia. reflexivity.
  - apply Nat2Z.inj_le. rewrite Z2Nat.id by nia. fold z. lia.
  - apply Nat2Z.inj_lt. rewrite Nat2Z.inj_add, Em, Z2Nat.id by nia. fold z. lia.
  - apply Nat2Z.inj_le. rewrite Nat2Z.inj_mul, Em. fold z. lia.
  - destruct S2 as [S2|[S2 S3]]; [left; lia|]. right. apply Nat2Z.inj_lt.
    rewrite Nat2Z.inj_mul, Nat2Z.inj_pow. replace (Z.of_nat (Z.to_nat s - 1)) with (s - 1) by lia. fold z. 
    change (Z.of_nat 20) with 20. change (Z.of_nat 2) with 2. lia.
Qed.

Lemma large_guard t idx x y : valid t x -> well_formed t y -> (20 <= length y)%nat ->
  is_binary t = true \/ scales t (length y) (num t y) ->
  (is_binary t = false /\ (idx = true \/ ~ recursive_open t x y)) \/ ~ recursive_tie t x y ->
  bz_guard (radix t) (slack t) idx x y.
Proof.
  intros Vx [Vy Ny] Hl HS HR s Hs.
  pose proof (SliceProof.HB _ _ (impl_ok true t)) as HB.
  pose proof (top_pos (radix t) y Vy Ny ltac:(lia)) as Ht.
  pose proof (leading_top t y Vy ltac:(lia)) as EL.
  split.
  - destruct (is_binary t) eqn:Eb.
    + destruct (radix_pw2 t Eb) as (w & Hw & Ew).
      apply (binary_scales (radix t) HB w _ (nth (length y - 1) y 0)); auto; try lia.
      rewrite (split_last y (length y - 1)) at 1 by lia. rewrite value_app.
      rewrite firstn_length_le by lia. cbn [value].
      pose proof (value_bound (radix t) HB _ (below_firstn (radix t) (length y - 1) y Vy)) as Hb.
      rewrite firstn_length_le in Hb by lia. lia.
    + destruct HS as [HS|HS]; [discriminate HS|].
      apply HS; [exact (proj1 Hs)|]. rewrite EL. exact (proj1 (proj2 Hs)).
  - intros j Hj.
    assert (Hjl : (j * block_size (length y) <= length x - length y)%nat).
    { destruct (block_size_ok (length y) Hl) as [_ Hb].
      pose proof (Nat.mul_div_le (length x - length y) (block_size (length y)) ltac:(lia)). nia. }
    assert (Hsc : scaling t (length y) (num t y) s) by (unfold scaling; rewrite EL; exact Hs).
    destruct HR as [[Eb [Ei|HR]]|HR].
    + left. unfold slack. rewrite Eb. auto.
    + left. unfold slack. rewrite Eb. split; [reflexivity|]. right. intros HT. apply HR.
      exists s, (block_size (length y)), j. conj; auto. apply block_size_padded, Hl.
    + right. intros HT. apply HR. exists s, (block_size (length y)), j. conj; auto. apply block_size_padded, Hl.
Qed.

Lemma stops_intro dbg t x y w :
  div_big (impl dbg t) x y (zeros (length x - length y + 1)) = Panic w -> (length y <= length x)%nat ->
  stops dbg t x y w.
Proof.
  intros E H. unfold stops, div_assign, rem_assign, div_assign_big, rem_assign_big.
  destruct (Nat.ltb_spec (length x) (length y)); [lia|]. destruct (Nat.leb_spec (length y) (length x)); [|lia].
  rewrite E. conj; reflexivity.
Qed.

Lemma div_large dbg t tot idx x y : well_formed t x -> well_formed t y -> (20 <= length y)%nat ->
  (tot = true -> (length y <= 80)%nat) ->
  is_binary t = true \/ scales t (length y) (num t y) ->
  (is_binary t = false /\ (idx = true \/ ~ recursive_open t x y)) \/ ~ recursive_tie t x y ->
  divided dbg t x y \/ exists w, oops tot idx w /\ stops dbg t x y w.
Proof.
  intros Wx Wy Hl Htot HS HR.
  pose proof (large_guard t idx x y (proj1 Wx) Wy Hl HS HR) as HG.
  assert (Hy : y <> []) by (intros ->; cbn in Hl; lia).
  pose proof (num_pos t y Wy Hy) as Py. destruct Wx as [Vx Nx], Wy as [Vy Ny].
  pose proof (div_assign_big_large_ok _ _ (slack t) tot idx (impl_ok dbg t) (impl_div dbg t) x y Vx Vy Nx Ny
    Hl Htot (fun _ => HG)) as H1.
  pose proof (rem_assign_big_large_ok _ _ (slack t) tot idx (impl_ok dbg t) (impl_div dbg t) x y Vx Vy Nx Ny
    Hl Htot (fun _ => HG)) as H2.
  destruct (div_assign_big (impl dbg t) x y) as [[q res]|w|] eqn:E1; cbn in H1; [| |contradiction].
  - left. destruct (rem_assign_big (impl dbg t) x y) as [[r' res']|w|] eqn:E2; cbn in H2; [| |contradiction].
    + destruct H1 as (r & -> & Q1 & Q2 & Q3 & Q4 & Q5 & Q6). destruct H2 as (-> & R1 & R2 & R3).
      eapply divided_intro; eauto; split; auto.
    + exfalso. unfold div_assign_big in E1. unfold rem_assign_big in E2.
      destruct (Nat.ltb_spec (length x) (length y)), (Nat.leb_spec (length y) (length x)); try lia; try discriminate E2.
      destruct (div_big _ _ _ _) as [[[? ?] [[? ?]|]]| |]; discriminate.
  - right. exists w. split; [exact H1|]. unfold div_assign_big in E1.
    destruct (Nat.ltb_spec (length x) (length y)) as [Hlt|Hge].
    + destruct (total_inv _ _ (new_ok (radix t) x Vx)) as (r & E & _). rewrite E in E1. discriminate E1.
    + apply stops_intro; [|lia].
      destruct (div_big _ _ _ _) as [[[rem self] [[nq nr]|e]]|w'|] eqn:E; cbn [bind] in E1; try discriminate E1; [|congruence].
      exfalso.
      destruct (total_inv _ _ (drop_ok (truncate nr rem) (length (truncate nr rem)) ltac:(lia))) as (m & Em & _).
      unfold ubig_new, ubig_drop_leading_zeros in E1. rewrite Em in E1. discriminate E1.
Qed.

(** The forms used by the properties *)
Lemma div_mid_claim dbg t x y : well_formed t x -> well_formed t y -> (20 <= length y <= 80)%nat ->
  is_binary t = true \/ scales t (length y) (num t y) -> ~ recursive_tie t x y -> divided dbg t x y.
Proof.
  intros Wx Wy Hl HS HR.
  destruct (div_large dbg t true false x y Wx Wy ltac:(lia) ltac:(intros _; lia) HS (or_intror HR))
    as [H|(w & [[H _]|[H _]] & _)]; [exact H|discriminate H|discriminate H].
Qed.
Lemma div_large_claim dbg t x y : well_formed t x -> well_formed t y -> (20 <= length y)%nat ->
  is_binary t = true \/ scales t (length y) (num t y) -> ~ recursive_tie t x y ->
  divided dbg t x y \/ stops dbg t x y (PUnwrap Underflow) \/ stops dbg t x y PAssert.
Proof.
  intros Wx Wy Hl HS HR.
  destruct (div_large dbg t false false x y Wx Wy Hl ltac:(discriminate) HS (or_intror HR))
    as [H|(w & [[_ [->| ->]]|[H _]] & H2)]; [auto|auto|auto|discriminate H].
Qed.
Lemma div_large_tied_claim dbg t x y : is_binary t = false -> well_formed t x -> well_formed t y ->
  (20 <= length y)%nat -> scales t (length y) (num t y) ->
  divided dbg t x y \/ stops dbg t x y PIndex
  \/ stops dbg t x y (PUnwrap Underflow) \/ stops dbg t x y PAssert.
Proof.
  intros Hb Wx Wy Hl HS.
  destruct (div_large dbg t false true x y Wx Wy Hl ltac:(discriminate) (or_intror HS) (or_introl (conj Hb (or_introl eq_refl))))
    as [H|(w & [[_ [->| ->]]|[_ ->]] & H2)]; auto.
Qed.
Lemma div_mid_tied_claim dbg t x y : is_binary t = false -> well_formed t x -> well_formed t y ->
  (20 <= length y <= 80)%nat -> scales t (length y) (num t y) ->
  divided dbg t x y \/ stops dbg t x y PIndex.
Proof.
  intros Hb Wx Wy Hl HS.
  destruct (div_large dbg t true true x y Wx Wy ltac:(lia) ltac:(intros _; lia) (or_intror HS) (or_introl (conj Hb (or_introl eq_refl))))
    as [H|(w & [[H _]|[_ ->]] & H2)]; [auto|discriminate H|auto].
Qed.

Lemma div_mid_closed_claim dbg t x y : is_binary t = false -> well_formed t x -> well_formed t y ->
  (20 <= length y <= 80)%nat -> scales t (length y) (num t y) -> ~ recursive_open t x y -> divided dbg t x y.
Proof.
  intros Hb Wx Wy Hl HS HO.
  destruct (div_large dbg t true false x y Wx Wy ltac:(lia) ltac:(intros _; lia) (or_intror HS)
      (or_introl (conj Hb (or_intror HO))))
    as [H|(w & [[H _]|[H _]] & _)]; [exact H|discriminate H|discriminate H].
Qed.
Lemma div_large_closed_claim dbg t x y : is_binary t = false -> well_formed t x -> well_formed t y ->
  (20 <= length y)%nat -> scales t (length y) (num t y) -> ~ recursive_open t x y ->
  divided dbg t x y \/ stops dbg t x y (PUnwrap Underflow) \/ stops dbg t x y PAssert.
Proof.
  intros Hb Wx Wy Hl HS HO.
  destruct (div_large dbg t false false x y Wx Wy Hl ltac:(discriminate) (or_intror HS)
      (or_introl (conj Hb (or_intror HO))))
    as [H|(w & [[_ [->| ->]]|[H _]] & H2)]; [auto|auto|auto|discriminate H].
Qed.

Lemma div_mid_binary_claim dbg t x y : is_binary t = true -> well_formed t x ->
  well_formed t y -> (20 <= length y <= 80)%nat -> ~ recursive_tie t x y -> divided dbg t x y.
Proof. intros Hb Wx Wy Hl HR. apply div_mid_claim; auto. Qed.
Lemma div_mid_decimal_claim dbg t x y : is_binary t = false -> well_formed t x ->
  well_formed t y -> (20 <= length y <= 80)%nat -> scales t (length y) (num t y) ->
  ~ recursive_tie t x y -> divided dbg t x y.
Proof. intros Hb Wx Wy Hl HS HR. apply div_mid_claim; auto. Qed.
Lemma div_large_binary_claim dbg t x y : is_binary t = true -> well_formed t x ->
  well_formed t y -> (20 <= length y)%nat -> ~ recursive_tie t x y ->
  divided dbg t x y \/ stops dbg t x y (PUnwrap Underflow) \/ stops dbg t x y PAssert.
Proof. intros Hb Wx Wy Hl HR. apply div_large_claim; auto. Qed.

(** ** Checking for ties by computation *)
Fixpoint block_tie_b (fuel : nat) (B : Z) (n : nat) (a b : Z) : bool :=
  match fuel with
  | O => true
  | S f =>
      if (n <? 20)%nat then
        existsb (fun i => (a / B ^ Z.of_nat i) mod b / B ^ Z.of_nat (n - 1) =? b / B ^ Z.of_nat (n - 1)) (seq 1 n)
      else let h := (n / 2)%nat in
        existsb (fun c => if c / B ^ Z.of_nat (2 * h) <? b / B ^ Z.of_nat h
                          then block_tie_b f B h (c / B ^ Z.of_nat h) (b / B ^ Z.of_nat h) else false)
          [a / B ^ Z.of_nat h; a mod (b * B ^ Z.of_nat h)]
  end.
Lemma block_tie_check fuel B n a b : block_tie B n a b -> block_tie_b fuel B n a b = true.
Proof.
  intros H. revert fuel. induction H as [n a b i Hn Hi E|h a b c Hh Hc Hlt H IH]; intros [|f]; cbn [block_tie_b]; try reflexivity.
  - destruct (Nat.ltb_spec n 20); [|lia].
    apply existsb_exists. exists i. split; [apply in_seq; lia|]. apply Z.eqb_eq. exact E.
  - destruct (Nat.ltb_spec (2 * h) 20); [lia|].
    rewrite half2. cbv zeta. apply existsb_exists. exists c. split; [destruct Hc as [-> | ->]; cbn; auto|].
    destruct (Z.ltb_spec (c / B ^ Z.of_nat (2 * h)) (b / B ^ Z.of_nat h)); [apply IH|lia].
Qed.
Lemma padded_unique nd n m : (0 < nd)%nat -> padded nd n -> padded nd m -> n = m.
Proof.
  intros H0 (j & k & -> & Ha & Hb & Hc) (j' & k' & -> & Ha' & Hb' & Hc').
  assert (Hk : forall k k', (nd <= 20 * 2 ^ k)%nat -> (k' = 0 \/ 20 * 2 ^ (k' - 1) < nd)%nat -> (k' <= k)%nat).
  { intros a c H1 [->|H2]; [lia|]. destruct (Nat.le_gt_cases c a); [assumption|].
    pose proof (Nat.pow_le_mono_r 2 a (c - 1) ltac:(lia) ltac:(lia)). lia. }
  assert (k = k') as <- by (apply Nat.le_antisymm; eauto).
  f_equal. pose proof (Nat.pow_nonzero 2 k ltac:(lia)). nia.
Qed.
Lemma recursive_tie_check t x y s0 n : (0 < length y)%nat -> 0 < leading t (length y) (num t y) ->
  scaling t (length y) (num t y) s0 -> padded (length y) n -> (0 < n)%nat ->
  (let sc v := v * 2 ^ s0 * radix t ^ Z.of_nat (n - length y) in
   let X := sc (num t x) in let Y := sc (num t y) in let R := radix t ^ Z.of_nat n in
   existsb (fun i => block_tie_b n (radix t) n ((X / radix t ^ Z.of_nat (i * n)) mod (Y * R)) Y)
     (seq 0 (S ((length x - length y) / n))) = false) -> ~ recursive_tie t x y.
Proof.
  intros H0 Hl Hs Hp Hn HF (s & m & i & Hs' & Hp' & Hi & HT).
  pose proof (scaling_unique _ _ _ _ _ Hl Hs Hs') as ->.
  pose proof (padded_unique _ _ _ H0 Hp Hp') as ->.
  cbv zeta in HF, HT. apply (block_tie_check m) in HT.
  assert (E : false = true); [|discriminate E]. rewrite <- HF. apply existsb_exists. exists i. split; [|exact HT].
  apply in_seq. assert (i <= (length x - length y) / m)%nat; [|lia].
  apply Nat.div_le_lower_bound; lia.
Qed.
