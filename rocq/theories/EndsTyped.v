(** * EndsTyped: termination of the typed operations, parsing and decimal conversion. *)
From Coq Require Import ZArith List Bool Lia.
From Verif Require Import Base Digit Slice Mul Div UBig Text Spec Hoare DigitOK ListLemmas SliceProof
  Gives Ends EndsLow UBigProof PowProof KaratsubaProof TypedProof ClaimsBasic ClaimsMul.
Import ListNotations.
Open Scope Z_scope.
Open Scope m_scope.

Section Typed.
Variable dbg : bool.
Variable t : dty.
Notation D := (impl dbg t).
Let HD : digit_ends D := impl_ends dbg t.

Ltac dend := first [apply (ends_add_assign_digit D HD) | apply (ends_sub_assign_digit D HD)
  | apply (ends_add_d D HD) | apply (ends_sub_d D HD) | apply (ends_mul_d D HD) | apply (ends_div_d D HD)
  | apply (ends_rem_d D HD) | apply (ends_ubig_mul_pair D HD) | apply (ends_ubig_div_pair D HD)
  | apply (ends_add D HD) | apply (ends_mul D HD) | apply (ends_pow D HD)
  | apply (ends_shl_within D HD) | apply (ends_shr_within D HD) | apply (ends_ubig_mul_add D HD)
  | apply ends_new].
Local Hint Extern 1 (ends _) => dend : ends.

Lemma ends_add_T x n : ends (add_assign_T dbg t x n).
Proof. unfold add_assign_T. ends. Qed.
Lemma ends_sub_T x n : ends (sub_assign_T dbg t x n).
Proof. unfold sub_assign_T. ends. Qed.
Lemma ends_mul_T x n : ends (mul_assign_T dbg t x n).
Proof. unfold mul_assign_T. ends. Qed.
Lemma ends_div_T x n : ends (div_assign_T dbg t x n).
Proof. unfold div_assign_T. ends. Qed.
Lemma ends_rem_T x n : ends (rem_assign_T dbg t x n).
Proof. unfold rem_assign_T. ends. Qed.
Lemma ends_shl x n : ends (shl_assign dbg t x n).
Proof. unfold shl_assign. ends. Qed.
Lemma ends_shr x n : ends (shr_assign dbg t x n).
Proof. unfold shr_assign. ends. Qed.
Lemma ends_mul_parts b s l r : ends (mul_add_parts dbg t b s l r).
Proof. revert r. induction l as [|p l IH]; intros r; cbn [mul_add_parts]; ends. Qed.
Local Hint Resolve ends_mul_parts : ends.
Lemma ends_from_str s : ends (from_str dbg t s).
Proof. unfold from_str, from_str_bin, from_str_dec, new_result. ends. Qed.
End Typed.

(** ** The division of [build_decimal] shortens the number *)
Section Shrink.
Variable D : digit.

Lemma shr_count l s c : gives (shr_carry_assign_within_digit D l s c) (fun '(_, (n, _)) => (n <= length l)%nat).
Proof.
  unfold shr_carry_assign_within_digit. destruct (s =? 0).
  - eapply gives_bind; [apply drop_below|]. intros n Hn. apply gives_ret. exact Hn.
  - apply gives_bind with (R := fun '(l', _) => length l' = length l).
    { revert c. induction l as [|d l IH]; intros c; cbn [shr_loop]; [apply gives_ret; reflexivity|].
      eapply gives_bind; [apply IH|]. intros [l' c'] L. apply gives_any. intros [d' c2].
      apply gives_ret. cbn [length]. lia. }
    intros [l' c'] L. eapply gives_bind; [apply drop_below|]. intros n Hn. apply gives_ret.
    cbv beta iota in *. lia.
Qed.

Lemma copy_into_gives l i j s : gives (copy_into l i j s) (fun _ => (i <= j <= length l)%nat).
Proof.
  unfold copy_into, with_slice. intros a E.
  destruct (sub_slice l i j) as [x| |] eqn:Es; try discriminate E.
  apply sub_slice_gives in Es. apply Es.
Qed.

Lemma long_scaled_counts num msd den quot work :
  gives (div_big_long_scaled D num msd den quot work) (fun '(_, (nq, nr)) =>
    (nq <= length num - length den + 1 /\ nr <= length den)%nat).
Proof.
  unfold div_big_long_scaled. cbv zeta.
  apply gives_any. intros ?. apply gives_any. intros ?. apply gives_any. intros ?. apply gives_any. intros qden.
  apply gives_bind with (R := fun '(_, nq) => (nq <= length num - length den + 1)%nat).
  { unfold div_long_first. cbv zeta. apply gives_any. intros ?. apply gives_any. intros ?.
    apply gives_any. intros [q c]. destruct (q =? 0); [apply gives_ret; lia|].
    apply gives_any. intros ?. apply gives_any. intros ?. apply gives_any. intros [? ?].
    apply gives_any. intros ?. apply gives_any. intros [? ?]. apply gives_any. intros ?. apply gives_ret. lia. }
  intros [[[x1 x2] x3] nq] Hq. apply gives_any. intros [[y1 y2] y3].
  eapply gives_bind; [apply drop_below|]. intros nq' Hq'.
  eapply gives_bind; [apply drop_below|]. intros nr' Hr'. apply gives_ret. cbv beta iota in *. lia.
Qed.

Lemma shl_length l s c : gives (shl_carry_assign_within_digit D l s c) (fun '(l', _) => length l' = length l).
Proof.
  unfold shl_carry_assign_within_digit. destruct (s =? 0); [apply gives_ret; reflexivity|].
  revert c. induction l as [|d l IH]; intros c; cbn [shl_loop]; [apply gives_ret; reflexivity|].
  apply gives_any. intros [d' c']. eapply gives_bind; [apply IH|]. intros [l' c2] L.
  apply gives_ret. cbn [length]. lia.
Qed.

Lemma long_counts num den quot work :
  gives (div_big_long D num den quot work) (fun '(_, (nq, nr)) =>
    (nq <= length num - length den + 1 /\ nr <= length den)%nat).
Proof.
  unfold div_big_long. cbv zeta. do 4 (apply gives_any; intros ?). apply gives_any. intros top.
  apply gives_any. intros shift. destruct (shift =? 0); [apply long_scaled_counts|].
  eapply gives_bind; [apply shl_length|]. intros [sden ?] L1.
  eapply gives_bind; [apply shl_length|]. intros [snum ?] L2.
  apply gives_any. intros qden. eapply gives_bind; [apply long_scaled_counts|].
  intros [[[x1 x2] x3] [nq nr]] [Hq Hr].
  eapply gives_bind.
  { unfold with_prefix. apply with_slice_gives with (Q := fun '(k, _) => (k <= nr)%nat).
    intros s Ls _. eapply gives_post; [apply shr_count|]. intros [? [k ?]] Hk. lia. }
  intros [y1 [k ?]] Hk. apply gives_ret. cbv beta iota in *. lia.
Qed.

Lemma bz_counts num den quot work :
  gives (div_big_bz D num den quot work) (fun '(_, (nq, nr)) => (nq <= length quot /\ nr <= length den)%nat).
Proof.
  unfold div_big_bz. cbv zeta. do 4 (apply gives_any; intros ?).
  eapply gives_bind; [apply copy_into_gives|]. intros sden H0.
  apply gives_any. intros top. apply gives_any. intros shift. apply gives_any. intros [sden' ?].
  apply gives_any. intros snum. apply gives_any. intros [snum' ?].
  apply gives_any. intros [[snum2 q] w].
  eapply gives_bind.
  { apply with_slice_gives with (Q := fun '(k, _) => (k <= length den)%nat).
    intros s Ls _. eapply gives_post; [apply shr_count|]. intros [? [k ?]] Hk. lia. }
  intros [snum3 [nr ?]] Hr. cbv beta iota in Hr.
  eapply gives_bind; [apply drop_below|]. intros nq Hq.
  apply gives_bind with (R := fun _ => (nq <= length quot)%nat).
  { unfold copy_prefix. apply gives_any. intros s.
    eapply gives_post; [apply copy_into_gives|]. cbn. lia. }
  intros quot' Hq'. apply gives_any. intros r. apply gives_any. intros num'. apply gives_ret. lia.
Qed.

Lemma div_big_counts num den quot : (2 <= length den < length num)%nat ->
  length quot = (length num - length den + 1)%nat ->
  gives (div_big D num den quot) (fun '(_, r) => forall nq nr, r = ROk (nq, nr) ->
    (nq < length num /\ nr < length num)%nat).
Proof.
  intros Hd Lq. unfold div_big. cbv zeta.
  apply gives_bind with (R := fun '(_, r) => forall nq nr, r = ROk (nq, nr) ->
    (nq < length num /\ nr < length num)%nat).
  2:{ intros [[[a b] c] r] H. apply gives_ret. exact H. }
  unfold div_big_with_work, div_big_with_work_gen. cbv zeta.
  destruct (Nat.eqb_spec (length den) 0) as [E|_]; [lia|].
  destruct (num_lt num den) eqn:El; [apply num_lt_true_len in El; lia|].
  destruct (_ && _); [apply gives_ret; intros ? ? E; discriminate E|].
  destruct (Nat.eqb_spec (length den) 1) as [E|_]; [lia|].
  destruct (Nat.eqb_spec (length den) 2) as [E|_].
  { apply gives_any. intros d0. apply gives_any. intros d1. apply gives_any. intros [num' r].
    destruct r as [[[nq rl] rh]|e]; [|apply gives_ret; intros ? ? E'; discriminate E'].
    destruct (Nat.ltb_spec (length quot) nq); [apply gives_ret; intros ? ? E'; discriminate E'|].
    apply gives_any. intros quot'. destruct (rh =? 0); [destruct (rl =? 0)|].
    - apply gives_ret. intros ? ? E'. injection E' as <- <-. lia.
    - apply gives_any. intros ?. apply gives_ret. intros ? ? E'. injection E' as <- <-. lia.
    - apply gives_any. intros ?. apply gives_any. intros ?. apply gives_ret. intros ? ? E'.
      injection E' as <- <-. assert (3 <= length num)%nat by lia. lia. }
  destruct (_ <? _)%nat.
  - apply gives_any. intros ?. eapply gives_bind; [apply long_counts|].
    intros [s [nq nr]] H. apply gives_ret. intros ? ? E'. injection E' as <- <-. cbv beta iota in H. lia.
  - apply gives_bind with (R := fun '(_, (nq, nr)) => (nq <= length quot /\ nr <= length den)%nat).
    { apply gives_any. intros ?. apply bz_counts. }
    intros [s [nq nr]] H. apply gives_ret. intros ? ? E'. injection E' as <- <-. cbv beta iota in H. lia.
Qed.

Lemma new_length l : gives (ubig_new l) (fun r => (length r <= length l)%nat).
Proof.
  unfold ubig_new, ubig_drop_leading_zeros. apply gives_any. intros n. apply gives_ret.
  destruct (_ <? _)%nat; [unfold truncate; len|lia].
Qed.

Lemma div_assign_big_shrinks x y : (2 <= length y < length x)%nat ->
  gives (div_assign_big D x y) (fun '(q, r) => forall low, r = ROk low ->
    (length q < length x /\ length low < length x)%nat).
Proof.
  intros H. unfold div_assign_big. cbv zeta.
  destruct (Nat.ltb_spec (length x) (length y)) as [|_]; [lia|].
  eapply gives_bind; [apply div_big_counts; [exact H|len]|].
  intros [[rem q] r] Hr. destruct r as [[nq nr]|e]; [|apply gives_ret; intros ? E; discriminate E].
  specialize (Hr nq nr eq_refl). cbv beta iota in Hr.
  eapply gives_bind; [apply new_length|]. intros low Hl. apply gives_ret. intros l E. injection E as <-.
  unfold truncate in *. rewrite firstn_length in *. lia.
Qed.
Lemma div_by_nothing x : div_assign_big D x [] = Ret (zeros (length x - 0 + 1), RErr DivisionByZero).
Proof.
  unfold div_assign_big. cbn [length]. cbv zeta. destruct (Nat.ltb_spec (length x) 0) as [|_]; [lia|]. reflexivity.
Qed.
End Shrink.

(** ** Decimal conversion *)
Lemma ten_256 a b : 0 <= a -> 0 < b -> 267 * a <= 643 * b -> 10 ^ a < 256 ^ b.
Proof.
  intros Ha Hb H. destruct (Z.lt_ge_cases (10 ^ a) (256 ^ b)) as [|Hge]; [assumption|exfalso].
  assert (H1 : (256 ^ b) ^ 267 <= (10 ^ a) ^ 267) by (apply Z.pow_le_mono_l; split; [apply Z.pow_nonneg; lia|exact Hge]).
  rewrite <- !Z.pow_mul_r in H1 by lia.
  assert (H2 : 10 ^ (a * 267) <= 10 ^ (643 * b)) by (apply Z.pow_le_mono_r; lia).
  assert (H3 : (10 ^ 643) ^ b < (256 ^ 267) ^ b).
  { apply Z.pow_lt_mono_l; [exact Hb|]. split; [apply Z.pow_nonneg; lia|vm_compute; reflexivity]. }
  rewrite <- !Z.pow_mul_r in H3 by lia. rewrite (Z.mul_comm b 267) in H1. lia.
Qed.

Lemma scale_index_ends f tot idx nr : (1 <= nr -> tot <= nr + f -> 1 <= f -> ends (scale_index f tot idx nr))%nat.
Proof.
  revert idx nr. induction f as [|f IH]; intros idx nr H1 H2 H3; cbn [scale_index]; [lia|].
  destruct (Nat.ltb_spec (3 * nr) tot); [|apply ends_ret].
  apply IH; lia.
Qed.
Lemma scale_index_gives f tot idx nr :
  gives (scale_index f tot idx nr) (fun j => exists i, j = idx + i /\ tot <= 3 * (nr * 2 ^ i)
    /\ (i = 0 \/ 3 * (nr * 2 ^ i) < 2 * tot))%nat.
Proof.
  revert idx nr. induction f as [|f IH]; intros idx nr; cbn [scale_index]; [intros j E; discriminate E|].
  destruct (Nat.ltb_spec (3 * nr) tot).
  - eapply gives_post; [apply IH|]. intros j (i & -> & H1 & H2).
    assert (E : (nr * 2 ^ S i = 2 * nr * 2 ^ i)%nat) by (cbn [Nat.pow]; lia).
    exists (S i). rewrite E. split; [lia|]. split; [lia|].
    right. destruct H2 as [->|H2]; [cbn [Nat.pow]; lia|lia].
  - apply gives_ret. exists 0%nat. cbn [Nat.pow]. split; [lia|]. split; [lia|auto].
Qed.

Section ToDecimal.
Variable dbg : bool.
Variable t : dty.
Hypothesis Hb : is_binary t = true.

Notation s := (Z.of_nat (size_of t)).
Lemma radix_256 : radix t = 256 ^ s.
Proof. destruct t; try discriminate Hb; reflexivity. Qed.
Lemma size_pos : 1 <= s.
Proof. destruct t; cbn; lia. Qed.
Lemma radix_pow n : radix t ^ Z.of_nat n = 256 ^ (s * Z.of_nat n).
Proof. rewrite radix_256, <- Z.pow_mul_r; [reflexivity| |]; pose proof size_pos; lia. Qed.
Lemma places_bound n : 267 * Z.of_nat (nr_decimal_places t n) <= 643 * (s * Z.of_nat n).
Proof.
  unfold nr_decimal_places. pose proof size_pos.
  assert (H0 : 0 <= Z.of_nat n * s * 643 / 267) by (apply Z.div_pos; lia).
  rewrite Z2Nat.id by exact H0.
  pose proof (Z.mul_div_le (Z.of_nat n * s * 643) 267 ltac:(lia)). lia.
Qed.
Lemma places_lower n : (16 <= n)%nat -> 38 * s <= Z.of_nat (nr_decimal_places t n).
Proof.
  intros Hn. unfold nr_decimal_places. pose proof size_pos.
  assert (H0 : 0 <= Z.of_nat n * s * 643 / 267) by (apply Z.div_pos; lia).
  rewrite Z2Nat.id by exact H0. apply Z.div_le_lower_bound; [lia|].
  assert (16 * s <= Z.of_nat n * s) by (apply Z.mul_le_mono_nonneg_r; lia). lia.
Qed.
Lemma first_places : 3 * Z.of_nat (NR_DECIMAL_PLACES t) < 38 * s /\ 1 <= Z.of_nat (NR_DECIMAL_PLACES t).
Proof. destruct t; try discriminate Hb; vm_compute; split; congruence. Qed.

(** A scale is the right power of ten, or at least ends in a zero digit, is not a
    single digit and is not too long: the squares of long scales may be wrong (C15). *)
Definition exact (k : nat) (x : digits) : Prop := well_formed t x /\ num t x = 10 ^ Z.of_nat k.
Definition rough (k : nat) (x : digits) : Prop :=
  hd 0 x = 0 /\ length x <> 1%nat /\ 5 * (s * Z.of_nat (length x)) <= 3 * Z.of_nat k.
Definition scales_good (l : list digits) : Prop := forall i x, nth_error l i = Some x ->
  exact (NR_DECIMAL_PLACES t * 2 ^ i) x \/ rough (NR_DECIMAL_PLACES t * 2 ^ i) x.

Lemma build_scales_ends f tot nr x : (1 <= nr -> tot <= nr + f -> 1 <= f ->
  ends (build_scales dbg t f tot nr x))%nat.
Proof.
  revert nr x. induction f as [|f IH]; intros nr x H1 H2 H3; cbn [build_scales]; [lia|].
  destruct (Nat.ltb_spec (3 * nr) tot); [|apply ends_ret].
  apply ends_bind; [apply ends_square, impl_ends|]. intros sq _.
  apply ends_bind; [apply IH; lia|]. intros r _. apply ends_ret.
Qed.

Lemma exact_short k x : Z.of_nat k < 8 * s -> exact k x -> (length x <= 1131)%nat.
Proof.
  intros Hk [[Vx Nx] E]. pose proof size_pos.
  apply (normal_short _ _ (impl_ok dbg t)); [exact Vx|exact Nx|].
  unfold num in E. rewrite E. unfold pw. rewrite radix_pow.
  apply ten_256; lia.
Qed.

Lemma exact_rough k x : 8 * s <= Z.of_nat k -> exact k x -> rough k x.
Proof.
  intros Hk [[Vx Nx] E]. pose proof size_pos. unfold num in E.
  assert (Hd : (radix t | value (radix t) x)).
  { rewrite E. replace (Z.of_nat k) with (8 * s + (Z.of_nat k - 8 * s)) by lia.
    rewrite Z.pow_add_r by lia. apply Z.divide_mul_l. exists (5 ^ (8 * s)).
    rewrite radix_256. change 256 with (2 ^ 8). rewrite <- Z.pow_mul_r by lia.
    rewrite <- Z.pow_mul_l. reflexivity. }
  assert (H0 : hd 0 x = 0).
  { destruct x as [|d x]; [reflexivity|]. cbn [value hd] in *.
    apply Forall_inv in Vx. destruct Hd as [q Hq].
    assert (Hdiv : (radix t | d)) by (exists (q - value (radix t) x); rewrite Z.mul_sub_distr_r; lia).
    destruct Hdiv as [c Hc]. assert (c = 0) by nia. lia. }
  split; [exact H0|]. split.
  - intros L. destruct x as [|d [|]]; try discriminate L. cbn [value hd] in *. subst d.
    assert (0 < 10 ^ Z.of_nat k) by (apply Z.pow_pos_nonneg; lia). lia.
  - destruct (Nat.eq_dec (length x) 0) as [->|Hl]; [lia|].
    assert (Hlo : pw (radix t) (length x - 1) <= value (radix t) x).
    { destruct (Z.le_gt_cases (pw (radix t) (length x - 1)) (value (radix t) x)) as [|Hlt]; [assumption|].
      assert (length x <= length x - 1)%nat; [|lia].
      apply (normal_short _ _ (impl_ok dbg t)); [exact Vx|exact Nx|exact Hlt]. }
    rewrite E in Hlo. unfold pw in Hlo. rewrite radix_pow in Hlo.
    set (a := s * Z.of_nat (length x - 1)) in *.
    assert (Ha : a = s * Z.of_nat (length x) - s) by (unfold a; rewrite Nat2Z.inj_sub by lia; ring).
    assert (Ha0 : 0 <= a) by (unfold a; apply Z.mul_nonneg_nonneg; lia). clearbody a.
    assert (H12 : 12 * a <= 5 * Z.of_nat k).
    { destruct (Z.le_gt_cases (12 * a) (5 * Z.of_nat k)) as [|Hgt]; [assumption|exfalso].
      assert (H1 : (256 ^ a) ^ 5 <= (10 ^ Z.of_nat k) ^ 5) by (apply Z.pow_le_mono_l; split; [apply Z.pow_nonneg; lia|exact Hlo]).
      rewrite <- !Z.pow_mul_r in H1 by lia.
      assert (H2 : 10 ^ (Z.of_nat k * 5) <= 10 ^ (12 * a)) by (apply Z.pow_le_mono_r; lia).
      assert (H3 : (10 ^ 12) ^ a < (256 ^ 5) ^ a).
      { apply Z.pow_lt_mono_l; [lia|]. split; [apply Z.pow_nonneg; lia|vm_compute; reflexivity]. }
      rewrite <- !Z.pow_mul_r in H3 by lia. rewrite (Z.mul_comm a 5) in H1. lia. }
    lia.
Qed.

Lemma build_scales_gives f tot nr x : exact nr x \/ rough nr x ->
  gives (build_scales dbg t f tot nr x) (fun l =>
    forall i y, nth_error l i = Some y -> exact (nr * 2 ^ i) y \/ rough (nr * 2 ^ i) y).
Proof.
  revert nr x. induction f as [|f IH]; intros nr x Hx; cbn [build_scales]; [intros j E; discriminate E|].
  assert (H0 : forall y, Some x = Some y -> exact (nr * 2 ^ 0) y \/ rough (nr * 2 ^ 0) y).
  { intros y E. injection E as <-. rewrite Nat.pow_0_r, Nat.mul_1_r. exact Hx. }
  destruct (Nat.ltb_spec (3 * nr) tot) as [Hlt|].
  - apply gives_bind with (R := fun sq => exact (2 * nr) sq \/ rough (2 * nr) sq).
    { assert (Hr : rough nr x -> gives (square (impl dbg t) x) (rough (2 * nr))).
      { intros (Hh & L1 & Hlen). destruct x as [|d x].
        - intros sq E. injection E as <-. split; [reflexivity|]. unfold ubig_zero. cbn [length]. change (Z.of_nat 0) with 0. split; lia.
        - cbn [hd] in Hh. subst d. eapply gives_post; [apply square_low; eexists; reflexivity|].
          intros sq (Hs & Ls & Lle). split; [exact Hs|]. split; [exact Ls|].
          pose proof size_pos.
          assert (s * Z.of_nat (length sq) <= s * (2 * Z.of_nat (length (0 :: x))))
            by (apply Z.mul_le_mono_nonneg_l; lia).
          lia. }
      destruct Hx as [Hx|Hx]; [|eapply gives_post; [apply Hr, Hx|auto]].
      destruct (Z.lt_ge_cases (Z.of_nat nr) (8 * s)) as [Hk|Hk].
      - intros sq E. left. destruct Hx as [Wx Vx].
        destruct (square_value_claim dbg t x sq (proj1 Wx) (exact_short nr x Hk (conj Wx Vx)) E) as [Wq Vq].
        split; [exact Wq|]. rewrite Vq, Vx, <- Z.pow_add_r by lia. f_equal. lia.
      - eapply gives_post; [apply Hr, exact_rough; [lia|exact Hx]|auto]. }
    intros sq Hq. eapply gives_bind; [apply IH; exact Hq|].
    intros rest Hr. apply gives_ret. intros [|i] y E; cbn [nth_error] in E; [apply H0; exact E|].
    replace (nr * 2 ^ S i)%nat with (2 * nr * 2 ^ i)%nat by (cbn [Nat.pow]; lia). apply Hr. exact E.
  - apply gives_ret. intros [|i] y E; cbn [nth_error] in E; [apply H0; exact E|].
    destruct i; discriminate E.
Qed.

(** the divisor chosen for a number of [m] digits has between 2 and [m - 1] digits *)
Lemma scale_length m i x : (16 <= m)%nat -> well_formed t x ->
  num t x = 10 ^ Z.of_nat (NR_DECIMAL_PLACES t * 2 ^ i) ->
  (nr_decimal_places t m <= 3 * (NR_DECIMAL_PLACES t * 2 ^ i))%nat ->
  (i = 0 \/ 3 * (NR_DECIMAL_PLACES t * 2 ^ i) < 2 * nr_decimal_places t m)%nat ->
  (2 <= length x < m)%nat.
Proof.
  intros Hm [Vx Nx] E H1 H2. set (k := (NR_DECIMAL_PLACES t * 2 ^ i)%nat) in *.
  pose proof (places_bound m). pose proof (places_lower m Hm). pose proof size_pos. destruct first_places as [F1 F2].
  assert (Hi : (3 * k < 2 * nr_decimal_places t m)%nat).
  { destruct H2 as [->|]; [|assumption]. unfold k in H1. rewrite Nat.pow_0_r, Nat.mul_1_r in H1. lia. }
  unfold num in E. split.
  - destruct (Nat.le_gt_cases 2 (length x)) as [|Hl]; [assumption|exfalso].
    pose proof (value_bound _ (radix_gt t) x Vx) as [_ Hu].
    assert (pw (radix t) (length x) <= pw (radix t) 1) by (apply pw_le; [apply radix_gt|lia]).
    rewrite pw_1 in *. rewrite radix_256 in Hu at 1.
    assert (256 ^ s <= 10 ^ Z.of_nat k); [|rewrite radix_256 in *; lia].
    replace (Z.of_nat k) with (3 * s + (Z.of_nat k - 3 * s)) by lia.
    rewrite Z.pow_add_r by lia.
    assert (256 ^ s <= (10 ^ 3) ^ s) by (apply Z.pow_le_mono_l; lia).
    rewrite <- Z.pow_mul_r in * by lia.
    assert (0 < 10 ^ (Z.of_nat k - 3 * s)) by (apply Z.pow_pos_nonneg; lia).
    assert (10 ^ (3 * s) * 1 <= 10 ^ (3 * s) * 10 ^ (Z.of_nat k - 3 * s))
      by (apply Z.mul_le_mono_nonneg_l; [apply Z.pow_nonneg|]; lia).
    lia.
  - assert (length x <= m - 1)%nat; [|lia].
    apply (normal_short _ _ (impl_ok dbg t)); [exact Vx|exact Nx|].
    rewrite E. unfold pw. rewrite radix_pow.
    assert (Es : s * Z.of_nat (m - 1) = s * Z.of_nat m - s) by (rewrite Nat2Z.inj_sub by lia; ring).
    assert (s * 16 <= s * Z.of_nat m) by (apply Z.mul_le_mono_nonneg_l; lia).
    rewrite Es. apply ten_256; lia.
Qed.

Lemma rough_length m i x : (16 <= m)%nat -> rough (NR_DECIMAL_PLACES t * 2 ^ i) x ->
  (nr_decimal_places t m <= 3 * (NR_DECIMAL_PLACES t * 2 ^ i))%nat ->
  (i = 0 \/ 3 * (NR_DECIMAL_PLACES t * 2 ^ i) < 2 * nr_decimal_places t m)%nat ->
  x = [] \/ (2 <= length x < m)%nat.
Proof.
  intros Hm (_ & L1 & Hlen) H1 H2. set (k := (NR_DECIMAL_PLACES t * 2 ^ i)%nat) in *.
  pose proof (places_bound m). pose proof (places_lower m Hm). pose proof size_pos. destruct first_places as [F1 F2].
  assert (Hi : (3 * k < 2 * nr_decimal_places t m)%nat).
  { destruct H2 as [->|]; [|assumption]. unfold k in H1. rewrite Nat.pow_0_r, Nat.mul_1_r in H1. lia. }
  destruct x as [|d x]; [left; reflexivity|right]. set (n := length (d :: x)) in *.
  assert (n <> 0%nat) by discriminate. split; [lia|].
  assert (Hs : s * Z.of_nat n < s * Z.of_nat m) by lia.
  apply Z.mul_lt_mono_pos_l in Hs; lia.
Qed.

Lemma build_small_ends ds top : ends (build_small dbg t ds top).
Proof.
  induction ds as [|d ds IH]; cbn [build_small]; [apply ends_ret|].
  apply ends_bind; [exact IH|]. intros r _. apply ends_bind; [apply ends_shl|]. intros r2 _.
  apply ends_bind; [apply ends_shl|]. intros r3 _. apply ends_add_T.
Qed.

Lemma build_decimal_ends f x scales : scales_good scales -> (length x < f)%nat ->
  ends (build_decimal dbg t f x scales).
Proof.
  intros Hs. revert x. induction f as [|f IH]; intros x Hf; [lia|]. cbn [build_decimal]. cbv zeta.
  destruct (length x =? 0)%nat; [apply ends_ret|].
  destruct (Nat.ltb_spec (length x) TO_DEC_DIV_CUTOFF) as [|Hc].
  { apply ends_bind; [apply ends_get|]. intros top _. apply ends_bind; [apply ends_prefix|]. intros ds _.
    apply build_small_ends. }
  unfold TO_DEC_DIV_CUTOFF in Hc.
  apply ends_bind; [apply scale_index_ends; [pose proof first_places; lia|lia|lia]|].
  intros idx Ei. apply scale_index_gives in Ei. destruct Ei as (i & -> & H1 & H2). cbn [Nat.add].
  apply ends_bind; [destruct (nth_error scales i); discriminate|]. intros scale Es.
  destruct (nth_error scales i) as [sc|] eqn:En; [|discriminate Es]. injection Es as ->.
  assert (HL0 : scale = [] \/ (2 <= length scale < length x)%nat).
  { destruct (Hs i scale En) as [[Ws Vs]|Hr];
      [right; exact (scale_length (length x) i scale Hc Ws Vs H1 H2)|exact (rough_length (length x) i scale Hc Hr H1 H2)]. }
  destruct HL0 as [->|HL].
  { rewrite div_by_nothing. cbn [bind unwrap]. discriminate. }
  apply ends_bind; [apply ends_div_assign_big, impl_ends|]. intros [q r] Ed.
  apply (div_assign_big_shrinks _ _ _ HL) in Ed.
  destruct r as [low|e]; cbn [unwrap bind]; [|discriminate].
  destruct (Ed low eq_refl) as [L1 L2].
  apply ends_bind; [apply IH; lia|]. intros a _. apply ends_bind; [apply IH; lia|]. intros b _. apply ends_ret.
Qed.

Lemma to_decimal_ends x : ends (to_decimal dbg t x).
Proof.
  unfold to_decimal. cbv zeta. destruct (length x <? _)%nat.
  { apply build_decimal_ends; [|lia]. intros [|i] y E; discriminate E. }
  pose proof first_places.
  apply ends_bind; [apply build_scales_ends; lia|]. intros scales Es.
  apply build_decimal_ends; [|lia].
  assert (Hst : storage t (decimal_radix t)) by (destruct t; vm_compute; split; congruence).
  destruct (from_claim t _ Hst) as [W V].
  apply build_scales_gives in Es; [exact Es|]. left. split; [exact W|].
  rewrite V. destruct t; try discriminate Hb; reflexivity.
Qed.
Lemma display_ends f x : ends (fmt_display_bin dbg t f x).
Proof. unfold fmt_display_bin. apply ends_bind; [apply to_decimal_ends|]. intros r _. apply ends_ret. Qed.
End ToDecimal.
