(** * DivWide: digit operations on the quotient estimates of the division code.

    The estimate of a quotient digit may exceed the largest digit.  The decimal
    digit operations tolerate that by up to two ([slack] = 1), the binary ones
    do not ([slack] = 0). *)
From Coq Require Import ZArith List Bool Lia.
From Verif Require Import Base Digit Slice Mul Div UBig Spec Hoare DigitOK ListLemmas SliceProof
  MulProof.
Import ListNotations.
Open Scope Z_scope.
Open Scope m_scope.

Record digit_div (B : Z) (D : digit) (slack : Z) : Prop := {
  dv_slack : slack = 0 \/ slack = 1;
  dv_div : forall d f c, 0 <= d < B -> 0 < f < B -> B <= 2 * f -> 0 <= c < f + slack ->
    total (d_div_carry D d f c)
      (fun '(q, r) => 0 <= q <= B - 1 + 2 * slack /\ 0 <= r < f /\ d + B * c = q * f + r);
  dv_mul : forall d f c, 0 <= d < B -> 0 <= f <= B - 1 + 2 * slack ->
    0 <= c <= B - 1 + 2 * slack ->
    total (d_mul_carry D d f c)
      (fun '(r, c') => 0 <= r < B /\ 0 <= c' <= B - 1 + 2 * slack /\ r + B * c' = d * f + c);
  dv_dec : forall d, 0 < d <= B - 1 + 2 * slack ->
    total (d_dec D d) (fun '(r, c) => r = d - 1 /\ c = false)
}.

(** Every digit type satisfies the contract with [slack] = 0. *)
Lemma digit_div_0 B D : digit_ok B D -> digit_div B D 0.
Proof.
  intros OK. pose proof (SliceProof.HB B D OK) as HB. constructor; auto.
  - intros d f c Hd Hf _ Hc. eapply total_post; [apply (ok_div _ _ OK); lia|].
    intros [q r] (? & ? & ?). lia.
  - intros d f c Hd Hf Hc. eapply total_post; [apply (ok_mul _ _ OK); lia|].
    intros [q r] (? & ? & ?). lia.
  - intros d Hd. eapply total_post; [apply (ok_dec _ _ OK); lia|].
    intros [r c] (? & E). destruct c; cbn [of_bool] in E; [lia|]. split; [lia|reflexivity].
Qed.

Section Decimal.
Variables (dbg : bool) (w R : Z) (is64 : bool).
Hypothesis Hw : 8 <= w <= 64.
Hypothesis HR : 100 <= R.
Hypothesis HRw : R + 2 <= 2 ^ w.
Hypothesis Hsmall : is64 = false -> 2 * R <= 2 ^ w.
Hypothesis H64 : is64 = true -> w = 64 /\ R = 10000000000000000000.

Lemma dec_div_1 : digit_div R (dec_digit dbg w R is64) 1.
Proof.
  pose proof (W_big w R Hw HR HRw) as HWb. constructor; projs.
  - auto.
  - intros d f c Hd Hf Hf2 Hc. unfold dec_div_carry.
    assert (0 <= c * R <= f * R) by nia. assert (f * R <= R * R) by nia.
    rewrite w_mul_ok by lia. cbn [bind].
    rewrite w_add_ok by lia. cbn [bind].
    rewrite w_div_ok, w_rem_ok by lia. cb.
    assert (Hm := div_mod_eq (c * R + d) f ltac:(lia)).
    assert (0 <= (c * R + d) / f) by (apply Z.div_pos; lia).
    assert ((c * R + d) / f < R + 2) by (apply Z.div_lt_upper_bound; nia).
    rewrite !wrap_id by lia. conj; lia.
  - intros d f c Hd Hf Hc.
    change (if is64 then div_rem_base dbg R else dec_split_wide w R) with (split_of dbg w R is64).
    assert (0 <= d * f <= (R - 1) * (R + 1)) by nia.
    eapply total_post; [apply (dec_mul_wide dbg w R is64 Hw HR HRw Hsmall H64); lia|].
    intros [r c'] (? & ? & ?). conj; lia.
  - intros d Hd. unfold dec_dec. destruct (Z.eqb_spec d 0); [lia|].
    rewrite w_sub_ok by lia. cb. auto.
Qed.
End Decimal.

Definition slack (t : dty) : Z := if is_binary t then 0 else 1.

Lemma impl_div dbg t : digit_div (radix t) (impl dbg t) (slack t).
Proof.
  destruct t; try (apply digit_div_0, impl_ok);
    unfold slack, impl, is_binary, bits, is64, decimal_radix, radix;
    apply dec_div_1; try lia; try discriminate; try (intros _; split; reflexivity).
Qed.

(** ** The estimate of a quotient digit, on integers.

    [W] is the window being divided, [D] the divisor, [m] its leading digit and
    [P] the weight of that digit. *)
Lemma estimate B P m dl X wl q r W D :
  1 < B -> 0 < P -> B <= 2 * m -> 0 <= dl < P -> 0 <= wl < P ->
  X = q * m + r -> 0 <= r < m -> 0 <= q <= B + 1 ->
  W = X * P + wl -> D = m * P + dl ->
  W < (q + 1) * D /\ (q - 2) * D <= W.
Proof.
  intros HB HP Hm Hdl Hwl HX Hr Hq HW HD. split.
  - assert (X + 1 <= (q + 1) * m) by lia.
    assert ((X + 1) * P <= (q + 1) * m * P) by (apply Z.mul_le_mono_nonneg_r; lia).
    assert (0 <= (q + 1) * dl) by (apply Z.mul_nonneg_nonneg; lia).
    subst W D. lia.
  - assert (q * m * P <= X * P) by (apply Z.mul_le_mono_nonneg_r; lia).
    assert (B * P <= 2 * m * P) by (apply Z.mul_le_mono_nonneg_r; lia).
    assert ((q - 2) * dl <= (B - 1) * P).
    { destruct (Z.le_gt_cases q 2).
      - assert ((q - 2) * dl <= 0) by nia. nia.
      - apply Z.mul_le_mono_nonneg; lia. }
    subst W D. lia.
Qed.

(** What is left to do after the estimate: at most two corrections. *)
Lemma corrected q W D : 0 < D -> 0 <= W -> W < (q + 1) * D -> (q - 2) * D <= W ->
  W / D = if q * D <=? W then q else if (q - 1) * D <=? W then q - 1 else q - 2.
Proof.
  intros HD HW H1 H2.
  destruct (Z.leb_spec (q * D) W); [|destruct (Z.leb_spec ((q - 1) * D) W)]; symmetry.
  - apply Z.div_unique with (W - q * D); [left|]; lia.
  - apply Z.div_unique with (W - (q - 1) * D); [left|]; lia.
  - apply Z.div_unique with (W - (q - 2) * D); [left|]; lia.
Qed.

Lemma split_last l n : length l = S n -> l = firstn n l ++ [nth n l 0].
Proof.
  revert n. induction l as [|d l IH]; intros n H; [discriminate|].
  destruct n as [|n]; cbn in *.
  - destruct l; [reflexivity|discriminate].
  - f_equal. apply IH. lia.
Qed.

Lemma exact_shift P x y c : 0 <= c < P -> x * P + c = y * P -> x = y.
Proof. intros Hc E. nia. Qed.

(** ** Lists whose top digit may be too large *)
Section Wide.
Variables (B : Z).
Hypothesis HB : 1 < B.
Notation val := (value B).
Notation digs := (below B).
Notation p n := (pw B n).

Lemma lex_cmp_wide a b x y : length a = length b -> digs a -> digs b ->
  lex_cmp (x :: rev a) (y :: rev b) = (val (a ++ [x]) ?= val (b ++ [y])).
Proof.
  intros HL Ha Hb. cbn [lex_cmp]. rewrite (lex_cmp_value B HB a b HL Ha Hb).
  rewrite !value_app, HL. cbn [value].
  pose proof (value_bound B HB a Ha) as Va. pose proof (value_bound B HB b Hb) as Vb.
  rewrite HL in Va. rewrite !Z.mul_0_r, !Z.add_0_r.
  destruct (Z.compare_spec x y) as [E|L|G].
  - rewrite E. destruct (Z.compare_spec (val a) (val b));
      destruct (Z.compare_spec (val a + p (length b) * y) (val b + p (length b) * y));
      try reflexivity; lia.
  - symmetry. apply Z.compare_lt_iff. nia.
  - symmetry. apply Z.compare_gt_iff. nia.
Qed.

Lemma num_lt_wide a b x y : length a = length b -> digs a -> digs b ->
  num_lt (a ++ [x]) (b ++ [y]) = (val (a ++ [x]) <? val (b ++ [y])).
Proof.
  intros HL Ha Hb. unfold num_lt, num_cmp. rewrite !app_length, HL, Nat.compare_refl.
  rewrite !rev_app_distr. cbn [rev app]. rewrite lex_cmp_wide by assumption.
  unfold Z.ltb. destruct (_ ?= _); reflexivity.
Qed.

Lemma array_gt_value d1 d2 d3 e1 e2 e3 :
  0 <= d1 < B -> 0 <= d2 < B -> 0 <= e1 < B -> 0 <= e2 < B ->
  array_gt [d3; d2; d1] [e3; e2; e1] = (e1 + B * (e2 + B * e3) <? d1 + B * (d2 + B * d3)).
Proof.
  intros. unfold array_gt.
  pose proof (lex_cmp_wide [d1; d2] [e1; e2] d3 e3 eq_refl) as E. cbn [rev app value] in E.
  rewrite !Z.mul_0_r, !Z.add_0_r in E.
  rewrite E by (repeat (apply below_cons; split; [lia|]); apply below_nil).
  rewrite Z.ltb_compare, (Z.compare_antisym (e1 + B * (e2 + B * e3))).
  destruct (e1 + B * (e2 + B * e3) ?= d1 + B * (d2 + B * d3)); reflexivity.
Qed.
End Wide.

(** ** When the division code is right *)

(** No partial remainder of the schoolbook division of [N] by [d] has the
    leading digit of [d] (which has [n] digits) as its own. *)
Definition tie_free (B N d : Z) (n m : nat) : Prop :=
  forall i, (1 <= i <= m)%nat -> ((N / pw B i) mod d) / pw B (n - 1) < d / pw B (n - 1).

(** [s] is the number of places by which a divisor with leading digit [top] is
    shifted *)
Definition is_shift (B top s : Z) : Prop := 0 <= s /\ top * 2 ^ s < B <= top * 2 ^ (s + 1).

(** The conditions for dividing [x] by [d], of [n] digits with [top] leading;
    the quotient has at most [m + 1] digits. *)
Definition divides_well (B sl x d top : Z) (n m : nat) : Prop :=
  forall s, is_shift B top s ->
    d * 2 ^ s < pw B n /\ (sl = 1 \/ tie_free B (x * 2 ^ s) (d * 2 ^ s) n m).

Section Scaling.
Variables (B : Z).
Hypothesis HB : 1 < B.
Notation val := (value B).
Notation digs := (below B).
Notation p n := (pw B n).

Lemma shift_bound top s : 0 < top -> is_shift B top s -> 0 < 2 ^ s < B /\ 2 ^ s <= top * 2 ^ s.
Proof.
  intros Ht (H0 & H1 & H2). assert (0 < 2 ^ s) by (apply Z.pow_pos_nonneg; lia).
  assert (1 * 2 ^ s <= top * 2 ^ s) by (apply Z.mul_le_mono_nonneg_r; lia). lia.
Qed.

(** with a power of two as base the first condition always holds *)
Lemma binary_scales w d top n s : 0 <= w -> B = 2 ^ w -> (1 <= n)%nat -> 0 <= top ->
  d < (top + 1) * p (n - 1) -> is_shift B top s -> 0 < top -> d * 2 ^ s < p n.
Proof.
  intros Hw EB Hn Ht Hd Hs Htop. destruct (shift_bound _ _ Htop Hs) as [H1 H2].
  destruct Hs as (Hs0 & Hs1 & Hs2).
  assert (Hsw : s < w) by (apply (Z.pow_lt_mono_r_iff 2); lia).
  assert (EB2 : B = 2 ^ (w - s) * 2 ^ s) by (rewrite <- Z.pow_add_r, EB by lia; f_equal; lia).
  assert (top + 1 <= 2 ^ (w - s)).
  { assert (top < 2 ^ (w - s)); [|lia]. apply Z.mul_lt_mono_pos_r with (2 ^ s); lia. }
  replace n with (S (n - 1)) by lia. rewrite pw_S.
  pose proof (pw_pos B (n - 1) HB) as Hp.
  assert (d * 2 ^ s < (top + 1) * p (n - 1) * 2 ^ s) by (apply Z.mul_lt_mono_pos_r; lia).
  assert ((top + 1) * (p (n - 1) * 2 ^ s) <= 2 ^ (w - s) * (p (n - 1) * 2 ^ s))
    by (apply Z.mul_le_mono_nonneg_r; [apply Z.mul_nonneg_nonneg|]; lia).
  replace (S (n - 1) - 1)%nat with (n - 1)%nat by lia. rewrite EB2 at 1. lia.
Qed.

(** a remainder below the divisor has a leading digit at most the divisor's *)
Lemma guard_slack sl N d n m i : (sl = 0 \/ sl = 1) -> (sl = 1 \/ tie_free B N d n m) -> 0 < d ->
  (1 <= i <= m)%nat -> ((N / p i) mod d) / p (n - 1) < d / p (n - 1) + sl.
Proof.
  intros Hsl [E|H] Hd Hi; subst.
  - assert (Hm := Z.mod_pos_bound (N / p i) d Hd).
    pose proof (pw_pos B (n - 1) HB) as Hp.
    assert ((N / p i) mod d / p (n - 1) <= d / p (n - 1)); [|lia].
    apply Z.div_le_mono; lia.
  - specialize (H i Hi). lia.
Qed.

(** quotient and remainder of the shifted numbers *)
Lemma unshift x d s : 0 <= s -> 0 < d ->
  (x * 2 ^ s) / (d * 2 ^ s) = x / d /\ (x * 2 ^ s) mod (d * 2 ^ s) = (x mod d) * 2 ^ s.
Proof.
  intros Hs Hd. assert (0 < 2 ^ s) by (apply Z.pow_pos_nonneg; lia).
  split; [apply Z.div_mul_cancel_r|apply Z.mul_mod_distr_r]; lia.
Qed.
End Scaling.
