(** * DigitOK: the contract of the digit operations, and its proof for the eight
    digit types in both build profiles. *)
From Coq Require Import ZArith List Bool Lia.
From Verif Require Import Base Digit Spec Hoare.
Import ListNotations.
Open Scope Z_scope.
Open Scope m_scope.

Record digit_ok (B : Z) (D : digit) : Prop := {
  ok_base : 100 <= B;
  ok_MAX : d_MAX D = B - 1;
  ok_max_shift : forall d, 0 < d < B ->
    total (d_max_shift D d) (fun s => 0 <= s /\ d * 2 ^ s < B <= d * 2 ^ (s + 1));
  ok_inc : forall d, 0 <= d < B ->
    total (d_inc D d) (fun '(r, c) => 0 <= r < B /\ r + B * of_bool c = d + 1);
  ok_dec : forall d, 0 <= d < B ->
    total (d_dec D d) (fun '(r, c) => 0 <= r < B /\ r - B * of_bool c = d - 1);
  ok_add : forall d o c, 0 <= d < B -> 0 <= o < B ->
    total (d_add_carry D d o c)
      (fun '(r, c') => 0 <= r < B /\ r + B * of_bool c' = d + o + of_bool c);
  ok_sub : forall d o c, 0 <= d < B -> 0 <= o < B ->
    total (d_sub_carry D d o c)
      (fun '(r, c') => 0 <= r < B /\ r - B * of_bool c' = d - o - of_bool c);
  ok_shl : forall d s c, 0 <= d < B -> 1 <= s -> 2 ^ s < B -> 0 <= c < 2 ^ s ->
    total (d_shl_carry D d s c)
      (fun '(r, c') => 0 <= r < B /\ 0 <= c' < 2 ^ s /\ r + B * c' = d * 2 ^ s + c);
  ok_shr : forall d s c, 0 <= d < B -> 1 <= s -> 2 ^ s < B -> 0 <= c < 2 ^ s ->
    total (d_shr_carry D d s c)
      (fun '(r, c') => 0 <= r < B /\ 0 <= c' < 2 ^ s /\ r * 2 ^ s + c' = d + B * c);
  ok_double : forall d c, 0 <= d < B ->
    total (d_double_carry D d c)
      (fun '(r, c') => 0 <= r < B /\ r + B * of_bool c' = 2 * d + of_bool c);
  ok_mul : forall d f c, 0 <= d < B -> 0 <= f < B -> 0 <= c < B ->
    total (d_mul_carry D d f c)
      (fun '(r, c') => 0 <= r < B /\ 0 <= c' < B /\ r + B * c' = d * f + c);
  ok_rem : forall d f c, 0 <= d < B -> 0 < f < B -> 0 <= c < f ->
    total (d_rem_carry D d f c) (fun r => r = (d + B * c) mod f);
  ok_div : forall d f c, 0 <= d < B -> 0 < f < B -> 0 <= c < f ->
    total (d_div_carry D d f c)
      (fun '(q, r) => 0 <= q < B /\ 0 <= r < f /\ d + B * c = q * f + r);
  ok_div3 : forall d c, 0 <= d < B -> 0 <= c < 3 ->
    total (d_div3_carry D d c)
      (fun '(q, r) => 0 <= q < B /\ 0 <= r < 3 /\ d + B * c = q * 3 + r);
  ok_addprod : forall d f g c, 0 <= d < B -> 0 <= f < B -> 0 <= g < B -> 0 <= c < B ->
    total (d_add_prod_carry D d f g c)
      (fun '(r, c') => 0 <= r < B /\ 0 <= c' < B /\ r + B * c' = d + f * g + c);
  ok_subprod : forall d f g c, 0 <= d < B -> 0 <= f < B -> 0 <= g < B -> 0 <= c < B ->
    total (d_sub_prod_carry D d f g c)
      (fun '(r, c') => 0 <= r < B /\ 0 <= c' < B /\ r - B * c' = d - f * g - c)
}.

(** ** Machine words *)
Lemma checked_ok dbg w x : 0 <= x < 2 ^ w -> checked dbg w x = Ret x.
Proof.
  intros H. unfold checked.
  destruct (Z.leb_spec 0 x), (Z.ltb_spec x (2 ^ w)); cbn; try reflexivity; lia.
Qed.

Lemma w_add_ok dbg w a b : 0 <= a + b < 2 ^ w -> w_add dbg w a b = Ret (a + b).
Proof. apply checked_ok. Qed.
Lemma w_sub_ok dbg w a b : 0 <= a - b < 2 ^ w -> w_sub dbg w a b = Ret (a - b).
Proof. apply checked_ok. Qed.
Lemma w_mul_ok dbg w a b : 0 <= a * b < 2 ^ w -> w_mul dbg w a b = Ret (a * b).
Proof. apply checked_ok. Qed.

Lemma wrap_id w x : 0 <= x < 2 ^ w -> wrap w x = x.
Proof. intros. apply Z.mod_small; assumption. Qed.

Lemma w_shl_ok dbg w a s : 0 <= s < w -> 0 <= a * 2 ^ s < 2 ^ w ->
  w_shl dbg w a s = Ret (a * 2 ^ s).
Proof.
  intros Hs Ha. unfold w_shl.
  destruct (Z.leb_spec 0 s), (Z.ltb_spec s w); cbn; try lia.
  rewrite Z.shiftl_mul_pow2, wrap_id by lia. reflexivity.
Qed.

Lemma w_shl_wrap dbg w a s : 0 <= s < w ->
  w_shl dbg w a s = Ret ((a * 2 ^ s) mod 2 ^ w).
Proof.
  intros Hs. unfold w_shl.
  destruct (Z.leb_spec 0 s), (Z.ltb_spec s w); cbn; try lia.
  rewrite Z.shiftl_mul_pow2 by lia. reflexivity.
Qed.

Lemma w_shr_ok dbg w a s : 0 <= s < w -> w_shr dbg w a s = Ret (a / 2 ^ s).
Proof.
  intros Hs. unfold w_shr.
  destruct (Z.leb_spec 0 s), (Z.ltb_spec s w); cbn; try lia.
  rewrite Z.shiftr_div_pow2 by lia. reflexivity.
Qed.

Lemma w_div_ok a b : b <> 0 -> w_div a b = Ret (a / b).
Proof. intros. unfold w_div. destruct (Z.eqb_spec b 0); [contradiction|reflexivity]. Qed.
Lemma w_rem_ok a b : b <> 0 -> w_rem a b = Ret (a mod b).
Proof. intros. unfold w_rem. destruct (Z.eqb_spec b 0); [contradiction|reflexivity]. Qed.

(** [a lor b] is [a + b] when [b] fits below the bits of [a]. *)
Lemma lor_add a s b : 0 <= s -> 0 <= b < 2 ^ s -> Z.lor (a * 2 ^ s) b = a * 2 ^ s + b.
Proof.
  intros Hs Hb.
  assert (Hl : Z.land (a * 2 ^ s) b = 0).
  { apply Z.bits_inj'. intros n Hn. rewrite Z.land_spec, Z.bits_0.
    destruct (Z.ltb_spec n s).
    - rewrite Z.mul_pow2_bits_low by lia. reflexivity.
    - destruct (Z.eq_dec b 0) as [->|]; [rewrite Z.bits_0; apply andb_false_r|].
      rewrite (Z.bits_above_log2 b n), andb_false_r; [reflexivity|lia|].
      apply Z.lt_le_trans with s; [|lia]. apply Z.log2_lt_pow2; lia. }
  rewrite <- Z.lxor_lor by assumption.
  symmetry. apply Z.add_nocarry_lxor. assumption.
Qed.

Lemma lor_add' a s b : 0 <= s -> 0 <= b < 2 ^ s -> Z.lor b (a * 2 ^ s) = a * 2 ^ s + b.
Proof. intros. rewrite Z.lor_comm. apply lor_add; assumption. Qed.

Lemma land_ones' a w : 0 <= w -> Z.land a (2 ^ w - 1) = a mod 2 ^ w.
Proof.
  intros. replace (2 ^ w - 1) with (Z.ones w) by (rewrite Z.ones_equiv; lia).
  apply Z.land_ones. assumption.
Qed.

(** the mask [(1 << (s-1)) | ((1 << (s-1)) - 1)] *)
Lemma mask_ones s : 1 <= s -> Z.lor (2 ^ (s - 1)) (2 ^ (s - 1) - 1) = 2 ^ s - 1.
Proof.
  intros. rewrite <- (Z.mul_1_l (2 ^ (s - 1))) at 1.
  rewrite lor_add; [|lia|assert (0 < 2 ^ (s - 1)) by (apply Z.pow_pos_nonneg; lia); lia].
  replace (2 ^ s) with (2 * 2 ^ (s - 1)); [lia|].
  rewrite <- Z.pow_succ_r by lia. f_equal. lia.
Qed.

Lemma b2z_of_bool b : b2z b = of_bool b.
Proof. reflexivity. Qed.
Lemma of_bool_range b : 0 <= of_bool b <= 1.
Proof. destruct b; cbn; lia. Qed.

Lemma testbit_top d w : 1 <= w -> 0 <= d < 2 ^ w ->
  negb (Z.land d (2 ^ (w - 1)) =? 0) = (2 ^ (w - 1) <=? d).
Proof.
  intros Hw Hd.
  assert (Hp : 0 < 2 ^ (w - 1)) by (apply Z.pow_pos_nonneg; lia).
  assert (H2 : 2 ^ w = 2 * 2 ^ (w - 1)).
  { rewrite <- Z.pow_succ_r by lia. f_equal. lia. }
  assert (Ht : Z.testbit d (w - 1) = (2 ^ (w - 1) <=? d)).
  { rewrite Z.testbit_eqb by lia.
    destruct (Z.leb_spec (2 ^ (w - 1)) d) as [Hle|Hlt].
    - replace (d / 2 ^ (w - 1)) with 1; [reflexivity|].
      apply Z.div_unique with (d - 2 ^ (w - 1)); lia.
    - rewrite Z.div_small by lia. reflexivity. }
  rewrite <- Ht.
  destruct (Z.eqb_spec (Z.land d (2 ^ (w - 1))) 0) as [He|Hne].
  - assert (Hb := Z.land_spec d (2 ^ (w - 1)) (w - 1)).
    rewrite He, Z.bits_0, Z.pow2_bits_true, andb_true_r in Hb by lia. cbn. congruence.
  - destruct (Z.testbit d (w - 1)) eqn:Hb; [reflexivity|]. exfalso. apply Hne.
    apply Z.bits_inj'. intros n Hn. rewrite Z.land_spec, Z.bits_0.
    destruct (Z.eq_dec n (w - 1)) as [->|Hnw]; [rewrite Hb; reflexivity|].
    rewrite Z.pow2_bits_false, andb_false_r by lia. reflexivity.
Qed.

(** Quotient and remainder determined by an equation. *)
Lemma div_mod_eq a b : 0 < b -> a = b * (a / b) + a mod b /\ 0 <= a mod b < b.
Proof. intros. split; [apply Z.div_mod; lia|apply Z.mod_pos_bound; lia]. Qed.

(** ** Binary digits *)
Ltac projs := cbn [bin_digit dec_digit d_dbg d_MAX d_max_shift d_inc d_dec d_add_carry
  d_sub_carry d_shl_carry d_shr_carry d_double_carry d_mul_carry d_rem_carry d_div_carry
  d_div3_carry d_add_prod_carry d_sub_prod_carry].
Ltac cb := cbn -[Z.pow of_bool Z.mul Z.add Z.sub Z.modulo Z.div].
Section Binary.
Variables (dbg : bool) (w : Z).
Hypothesis Hw : 8 <= w.
Notation B := (2 ^ w).

Lemma B_pos : 256 <= B.
Proof. change 256 with (2 ^ 8). apply Z.pow_le_mono_r; lia. Qed.
Lemma BB : 2 ^ (2 * w) = B * B.
Proof. rewrite <- Z.pow_add_r by lia. f_equal. lia. Qed.
Lemma B_half : B = 2 * 2 ^ (w - 1).
Proof. rewrite <- Z.pow_succ_r by lia. f_equal. lia. Qed.
Lemma shift_lt s : 1 <= s -> 2 ^ s < B -> s < w.
Proof. intros. apply (Z.pow_lt_mono_r_iff 2); lia. Qed.
Lemma B_split s : 0 <= s <= w -> B = 2 ^ s * 2 ^ (w - s).
Proof. intros. rewrite <- Z.pow_add_r by lia. f_equal. lia. Qed.

Lemma o_add_ok a b : 0 <= a < B -> 0 <= b < B ->
  let '(r, c) := o_add w a b in 0 <= r < B /\ r + B * of_bool c = a + b.
Proof.
  intros Ha Hb. unfold o_add, wrap.
  assert (Hm := div_mod_eq (a + b) B ltac:(lia)).
  destruct (Z.leb_spec B (a + b)) as [Hle|Hlt]; cbn [of_bool].
  - assert ((a + b) / B = 1) by (symmetry; apply Z.div_unique with (a + b - B); lia). lia.
  - rewrite Z.mod_small by lia. lia.
Qed.

Lemma o_sub_ok a b : 0 <= a < B -> 0 <= b < B ->
  let '(r, c) := o_sub w a b in 0 <= r < B /\ r - B * of_bool c = a - b.
Proof.
  intros Ha Hb. unfold o_sub, wrap.
  assert (Hm := div_mod_eq (a - b) B ltac:(lia)).
  destruct (Z.ltb_spec a b) as [Hlt|Hle]; cbn [of_bool].
  - assert ((a - b) / B = -1) by (symmetry; apply Z.div_unique with (a - b + B); lia). lia.
  - rewrite Z.mod_small by lia. lia.
Qed.

Lemma split_wide_bin x : 0 <= x < B * B ->
  wrap w (Z.land x (bin_MAX w)) = x mod B /\ wrap w (x / B) = x / B.
Proof.
  intros Hx. unfold bin_MAX. rewrite land_ones' by lia.
  pose proof B_pos. assert (Hm := div_mod_eq x B ltac:(lia)).
  split; apply wrap_id; [lia|].
  split; [apply Z.div_pos; lia|]. apply Z.div_lt_upper_bound; lia.
Qed.

Ltac pos := pose proof B_pos as HBpos; pose proof BB as HBB.

Lemma wide_join dbg' c d : 0 <= c < B -> 0 <= d < B ->
  w_shl dbg' (2 * w) c w = Ret (c * B) /\ Z.lor (c * B) d = d + B * c.
Proof.
  intros. pos. split; [apply w_shl_ok; nia|]. rewrite lor_add by lia. lia.
Qed.

Lemma bin_max_shift_ok d : 0 < d < B ->
  total (bin_max_shift w d) (fun s => 0 <= s /\ d * 2 ^ s < B <= d * 2 ^ (s + 1)).
Proof.
  intros Hd. cb. unfold leading_zeros.
  destruct (Z.eqb_spec d 0); [lia|].
  assert (Hl := Z.log2_spec d ltac:(lia)).
  assert (Z.log2 d < w) by (apply Z.log2_lt_pow2; lia).
  assert (H0 := Z.log2_nonneg d).
  split; [lia|].
  replace (w - 1 - Z.log2 d + 1) with (w - Z.log2 d) by lia.
  assert (Hs1 : B = 2 ^ Z.succ (Z.log2 d) * 2 ^ (w - 1 - Z.log2 d))
    by (rewrite <- Z.pow_add_r by lia; f_equal; lia).
  assert (Hs2 : B = 2 ^ Z.log2 d * 2 ^ (w - Z.log2 d))
    by (rewrite <- Z.pow_add_r by lia; f_equal; lia).
  assert (0 < 2 ^ (w - 1 - Z.log2 d)) by (apply Z.pow_pos_nonneg; lia).
  assert (0 < 2 ^ (w - Z.log2 d)) by (apply Z.pow_pos_nonneg; lia).
  split; [rewrite Hs1; apply Z.mul_lt_mono_pos_r; lia
         |rewrite Hs2 at 1; apply Z.mul_le_mono_pos_r; lia].
Qed.

Lemma bin_mul_ok d f c : 0 <= d < B -> 0 <= f < B -> 0 <= c < B ->
  total (bin_mul_carry dbg w d f c)
    (fun '(r, c') => 0 <= r < B /\ 0 <= c' < B /\ r + B * c' = d * f + c).
Proof.
  intros. pos. unfold bin_mul_carry.
  assert (Hp : 0 <= d * f <= (B - 1) * (B - 1)) by nia.
  rewrite w_mul_ok by nia. cbn [bind].
  rewrite w_add_ok by nia. cbn [bind].
  rewrite w_shr_ok by lia. cbn [bind].
  destruct (split_wide_bin (d * f + c)) as [-> ->]; [nia|].
  assert (Hm := div_mod_eq (d * f + c) B ltac:(lia)).
  assert (0 <= (d * f + c) / B) by (apply Z.div_pos; lia).
  assert ((d * f + c) / B < B) by (apply Z.div_lt_upper_bound; nia).
  cb. lia.
Qed.

Lemma bin_addprod_ok d f g c : 0 <= d < B -> 0 <= f < B -> 0 <= g < B -> 0 <= c < B ->
  total (bin_add_prod_carry dbg w d f g c)
    (fun '(r, c') => 0 <= r < B /\ 0 <= c' < B /\ r + B * c' = d + f * g + c).
Proof.
  intros. pos. unfold bin_add_prod_carry.
  assert (Hp : 0 <= f * g <= (B - 1) * (B - 1)) by nia.
  rewrite w_mul_ok by nia. cbn [bind].
  rewrite w_add_ok by nia. cbn [bind].
  rewrite w_add_ok by nia. cbn [bind].
  rewrite w_shr_ok by lia. cbn [bind].
  destruct (split_wide_bin (d + f * g + c)) as [-> ->]; [nia|].
  assert (Hm := div_mod_eq (d + f * g + c) B ltac:(lia)).
  assert (0 <= (d + f * g + c) / B) by (apply Z.div_pos; lia).
  assert ((d + f * g + c) / B < B) by (apply Z.div_lt_upper_bound; nia).
  cb. lia.
Qed.

Lemma bin_subprod_ok d f g c : 0 <= d < B -> 0 <= f < B -> 0 <= g < B -> 0 <= c < B ->
  total (bin_sub_prod_carry dbg w d f g c)
    (fun '(r, c') => 0 <= r < B /\ 0 <= c' < B /\ r - B * c' = d - f * g - c).
Proof.
  intros. pos. unfold bin_sub_prod_carry.
  assert (Hp : 0 <= f * g <= (B - 1) * (B - 1)) by nia.
  rewrite w_mul_ok by nia. cbn [bind].
  rewrite w_add_ok by nia. cbn [bind].
  destruct (split_wide_bin (f * g + c)) as [Hs1 Hs2]; [nia|]. rewrite Hs1.
  assert (Hm := div_mod_eq (f * g + c) B ltac:(lia)).
  assert (0 <= (f * g + c) / B) by (apply Z.div_pos; lia).
  assert ((f * g + c) / B < B) by (apply Z.div_lt_upper_bound; nia).
  assert (Ho := o_sub_ok d ((f * g + c) mod B) ltac:(lia) ltac:(lia)).
  unfold o_sub in *. cbn [of_bool] in *.
  rewrite w_shr_ok by lia. cbn [bind]. rewrite Hs2, b2z_of_bool.
  assert (Hc : (f * g + c) / B + of_bool (d <? (f * g + c) mod B) < B).
  { destruct (Z.ltb_spec d ((f * g + c) mod B)); cbn [of_bool]; [|lia].
    assert ((f * g + c) / B <> B - 1); [|lia]. nia. }
  pose proof (of_bool_range (d <? (f * g + c) mod B)).
  rewrite w_add_ok by lia. cb. nia.
Qed.

Lemma bin_ok is64 : (is64 = true -> w = 64) -> digit_ok B (bin_digit dbg w is64).
Proof.
  intros H64. pos. constructor; projs.
  - lia.
  - reflexivity.
  - apply bin_max_shift_ok.
  - intros d Hd. pose proof (o_add_ok d 1 ltac:(lia) ltac:(lia)). unfold bin_inc. destruct (o_add w d 1). cb. lia.
  - intros d Hd. pose proof (o_sub_ok d 1 ltac:(lia) ltac:(lia)). unfold bin_dec. destruct (o_sub w d 1). cb. lia.
  - intros d o c Hd Ho. unfold bin_add_carry.
    pose proof (o_add_ok d o ltac:(lia) ltac:(lia)) as H1.
    destruct (o_add w d o) as [r c1].
    pose proof (of_bool_range c) as Hc. rewrite b2z_of_bool.
    pose proof (o_add_ok r (of_bool c) ltac:(lia) ltac:(lia)) as H2.
    destruct (o_add w r (of_bool c)) as [r2 c2]. cb.
    destruct c1, c2; cbn [of_bool orb] in *; nia.
  - intros d o c Hd Ho. unfold bin_sub_carry.
    pose proof (o_sub_ok d o ltac:(lia) ltac:(lia)) as H1.
    destruct (o_sub w d o) as [r c1].
    pose proof (of_bool_range c) as Hc. rewrite b2z_of_bool.
    pose proof (o_sub_ok r (of_bool c) ltac:(lia) ltac:(lia)) as H2.
    destruct (o_sub w r (of_bool c)) as [r2 c2]. cb.
    destruct c1, c2; cbn [of_bool orb] in *; nia.
  - intros d s c Hd Hs H2s Hc. unfold bin_shl_carry.
    pose proof (shift_lt s ltac:(lia) ltac:(lia)) as Hsw.
    rewrite w_shr_ok by lia. cbn [bind]. rewrite w_shl_wrap by lia. cbn [bind].
    pose proof (B_split s ltac:(lia)) as HB.
    assert (Hp : 0 < 2 ^ (w - s)) by (apply Z.pow_pos_nonneg; lia).
    assert (Hm := div_mod_eq d (2 ^ (w - s)) ltac:(lia)).
    set (hi := d / 2 ^ (w - s)) in *. set (lo := d mod 2 ^ (w - s)) in *.
    assert (Hhi : 0 <= hi < 2 ^ s).
    { split; [apply Z.div_pos; lia|]. apply Z.div_lt_upper_bound; [lia|]. nia. }
    assert (Hmod : (d * 2 ^ s) mod B = lo * 2 ^ s).
    { symmetry. apply Z.mod_unique with hi; [left; nia|]. nia. }
    rewrite Hmod, lor_add by lia. cb. nia.
  - intros d s c Hd Hs H2s Hc. unfold bin_shr_carry.
    pose proof (shift_lt s ltac:(lia) ltac:(lia)) as Hsw.
    assert (Hp1 : 0 < 2 ^ (s - 1)) by (apply Z.pow_pos_nonneg; lia).
    assert (Hp2 : 2 ^ (s - 1) < 2 ^ w) by (apply Z.pow_lt_mono_r; lia).
    rewrite (w_shl_ok dbg w 1 (s - 1)) by lia. cbn [bind].
    rewrite w_sub_ok by lia. cbn [bind].
    pose proof (B_split s ltac:(lia)) as HB.
    assert (Hp : 0 < 2 ^ (w - s)) by (apply Z.pow_pos_nonneg; lia).
    rewrite w_shl_ok by nia. cbn [bind].
    rewrite w_shr_ok by lia. cbn [bind].
    rewrite Z.mul_1_l, mask_ones, land_ones' by lia.
    assert (Hm := div_mod_eq d (2 ^ s) ltac:(lia)).
    set (hi := d / 2 ^ s) in *. set (lo := d mod 2 ^ s) in *.
    assert (Hhi : 0 <= hi < 2 ^ (w - s)).
    { split; [apply Z.div_pos; lia|]. apply Z.div_lt_upper_bound; nia. }
    rewrite lor_add by lia. cb. nia.
  - intros d c Hd. unfold bin_double_carry.
    pose proof B_half as Hh.
    assert (0 < 2 ^ (w - 1)) by (apply Z.pow_pos_nonneg; lia).
    rewrite w_shl_ok by lia. cbn [bind]. rewrite Z.mul_1_l, testbit_top by lia.
    rewrite w_shl_wrap by lia. cbn [bind]. rewrite b2z_of_bool.
    assert (Hmod : (d * 2 ^ 1) mod B = (d - 2 ^ (w - 1) * of_bool (2 ^ (w - 1) <=? d)) * 2 ^ 1).
    { symmetry. apply Z.mod_unique with (of_bool (2 ^ (w - 1) <=? d)).
      - left. destruct (Z.leb_spec (2 ^ (w - 1)) d); cbn [of_bool]; lia.
      - lia. }
    rewrite Hmod, lor_add by (destruct c; cbn [of_bool]; lia). cb.
    destruct (Z.leb_spec (2 ^ (w - 1)) d), c; cbn [of_bool]; lia.
  - apply bin_mul_ok.
  - intros d f c Hd Hf Hc. unfold bin_rem_carry.
    destruct (wide_join dbg c d) as [-> Hj]; [lia|lia|]. cbn [bind]. rewrite Hj.
    rewrite w_rem_ok by lia. cb. apply wrap_id.
    pose proof (Z.mod_pos_bound (d + B * c) f). lia.
  - intros d f c Hd Hf Hc. unfold bin_div_carry.
    destruct (wide_join dbg c d) as [-> Hj]; [lia|lia|]. cbn [bind]. rewrite Hj.
    rewrite w_div_ok, w_rem_ok by lia. cb.
    assert (Hm := div_mod_eq (d + B * c) f ltac:(lia)).
    assert (0 <= (d + B * c) / f) by (apply Z.div_pos; lia).
    assert ((d + B * c) / f < B) by (apply Z.div_lt_upper_bound; nia).
    rewrite !wrap_id by lia. lia.
  - intros d c Hd Hc. destruct is64.
    + rewrite H64 in * by reflexivity. unfold bin64_div3_carry, bin_MAX.
      change (2 ^ 64) with 18446744073709551616 in *.
      change ((18446744073709551616 - 1) / 3) with 6148914691236517205.
      assert (Hm := div_mod_eq d 3 ltac:(lia)).
      assert (Hc2 := div_mod_eq (c + d mod 3) 3 ltac:(lia)).
      assert (0 <= (c + d mod 3) / 3 <= 1).
      { split; [apply Z.div_pos; lia|]. lia. }
      change 18446744073709551616 with (2 ^ 64) in *.
      rewrite w_mul_ok by lia. cbn [bind].
      rewrite w_add_ok by lia. cbn [bind].
      rewrite w_add_ok by lia. cbn [bind].
      rewrite w_add_ok by lia. cbn [bind].
      rewrite !wrap_id by lia.
      rewrite w_add_ok by lia. cb. lia.
    + unfold bin_div3_carry.
      destruct (wide_join dbg c d) as [-> Hj]; [lia|lia|]. cbn [bind]. rewrite Hj.
      assert (Hm := div_mod_eq (d + B * c) 3 ltac:(lia)).
      assert (0 <= (d + B * c) / 3) by (apply Z.div_pos; lia). assert (B * c <= 2 * B) by nia.
      rewrite (wrap_id w), (wrap_id 8) by (try change (2 ^ 8) with 256; lia). cb. lia.
  - apply bin_addprod_ok.
  - apply bin_subprod_ok.
Qed.
End Binary.

(** ** Decimal digits *)

(** The reciprocal multiplication of src/digit.rs:493-512. *)
Section DivRemBase.
Let R := 10000000000000000000.
Let m := 2 ^ 128 + SCALE_HIGH * 2 ^ 64 + SCALE_LOW.

Lemma reciprocal_error : 0 <= m * R - 2 ^ 192 < 2 ^ 64.
Proof. unfold m, R, SCALE_HIGH, SCALE_LOW. vm_compute. split; congruence. Qed.

Lemma reciprocal_exact n : 0 <= n < 2 ^ 128 -> n * m / 2 ^ 192 = n / R.
Proof.
  intros Hn. pose proof reciprocal_error as He.
  assert (Hd := div_mod_eq n R ltac:(reflexivity)).
  set (q := n / R) in *. set (r := n mod R) in *.
  assert (HR : R = 10000000000000000000) by reflexivity.
  set (e := m * R - 2 ^ 192) in *.
  assert (Hm : m * R = 2 ^ 192 + e) by lia.
  assert (Hne : 0 <= n * e < 2 ^ 192).
  { split; [apply Z.mul_nonneg_nonneg; lia|].
    change (2 ^ 192) with (2 ^ 128 * 2 ^ 64). apply Z.mul_lt_mono_nonneg; lia. }
  assert (Hnm : n * m * R = n * 2 ^ 192 + n * e) by (rewrite <- Z.mul_assoc, Hm; ring).
  symmetry. apply Z.div_unique with (n * m - 2 ^ 192 * q); [left|ring].
  clearbody m e q r. split.
  - apply Z.mul_le_mono_pos_r with R; [lia|].
    replace ((n * m - 2 ^ 192 * q) * R) with (n * m * R - 2 ^ 192 * (R * q)) by ring.
    lia.
  - apply Z.mul_lt_mono_pos_r with R; [lia|].
    replace ((n * m - 2 ^ 192 * q) * R) with (n * m * R - 2 ^ 192 * (R * q)) by ring.
    lia.
Qed.

Lemma div_rem_base_ok dbg n : 0 <= n < R * (R + 2) ->
  div_rem_base dbg R n = Ret (n / R, n mod R).
Proof.
  intros Hn. unfold div_rem_base.
  assert (HR : R = 10000000000000000000) by reflexivity.
  rewrite land_ones' by lia.
  assert (Hd := div_mod_eq n (2 ^ 64) ltac:(reflexivity)).
  rewrite w_shr_ok by lia. cbn [bind].
  pose proof (reciprocal_exact n ltac:(lia)) as Hrec.
  set (nl := n mod 2 ^ 64) in *. set (nh := n / 2 ^ 64) in *.
  assert (Hnh : 0 <= nh < 5421010862427522173) by lia.
  assert (HSL : SCALE_LOW = 6225051964306646475) by reflexivity.
  assert (HSH : SCALE_HIGH = 15581492618384294730) by reflexivity.
  rewrite w_mul_ok by lia. cbn [bind].
  rewrite w_shr_ok by lia. cbn [bind].
  rewrite w_mul_ok by lia. cbn [bind].
  rewrite w_mul_ok by lia. cbn [bind].
  rewrite w_add_ok by lia. cbn [bind].
  assert (H1 := div_mod_eq (SCALE_LOW * nl) (2 ^ 64) ltac:(reflexivity)).
  set (c1 := SCALE_LOW * nl / 2 ^ 64) in *.
  rewrite w_add_ok by lia. cbn [bind].
  rewrite w_shr_ok by lia. cbn [bind].
  assert (H2 := div_mod_eq (SCALE_LOW * nh + SCALE_HIGH * nl + c1) (2 ^ 64) ltac:(reflexivity)).
  set (c2 := (SCALE_LOW * nh + SCALE_HIGH * nl + c1) / 2 ^ 64) in *.
  rewrite w_mul_ok by lia. cbn [bind].
  rewrite w_add_ok by lia. cbn [bind].
  rewrite w_add_ok by lia. cbn [bind].
  rewrite w_shr_ok by lia. cbn [bind].
  assert (H3 := div_mod_eq (SCALE_HIGH * nh + c2 + nl) (2 ^ 64) ltac:(reflexivity)).
  set (c3 := (SCALE_HIGH * nh + c2 + nl) / 2 ^ 64) in *.
  rewrite w_add_ok by lia. cbn [bind].
  assert (Hq : c3 + nh = n / R).
  { rewrite <- Hrec. unfold m.
    apply Z.div_unique with
      ((SCALE_LOW * nl) mod 2 ^ 64
       + 2 ^ 64 * ((SCALE_LOW * nh + SCALE_HIGH * nl + c1) mod 2 ^ 64)
       + 2 ^ 128 * ((SCALE_HIGH * nh + c2 + nl) mod 2 ^ 64)); [left|]; lia. }
  rewrite Hq. assert (Hr := div_mod_eq n R ltac:(reflexivity)).
  clear H1 H2 H3 Hq Hrec.
  rewrite w_mul_ok by lia. cbn [bind].
  rewrite w_sub_ok by lia. cbn [bind].
  rewrite !wrap_id by lia. do 2 f_equal. lia.
Qed.
End DivRemBase.

Section Decimal.
Variables (dbg : bool) (w R : Z) (is64 : bool).
Hypothesis Hw : 8 <= w <= 64.
Hypothesis HR : 100 <= R.
Hypothesis HRw : R + 2 <= 2 ^ w.
Hypothesis Hsmall : is64 = false -> 2 * R <= 2 ^ w.
Hypothesis H64 : is64 = true -> w = 64 /\ R = 10000000000000000000.

Definition split_of : Z -> M (Z * Z) :=
  if is64 then div_rem_base dbg R else dec_split_wide w R.

Lemma split_ok n : 0 <= n < R * (R + 2) -> split_of n = Ret (n / R, n mod R).
Proof.
  intros Hn. unfold split_of. destruct is64.
  - destruct (H64 eq_refl) as [-> HR']. subst R. apply div_rem_base_ok. assumption.
  - unfold dec_split_wide.
    assert (Hr := div_mod_eq n R ltac:(lia)).
    assert (0 <= n / R) by (apply Z.div_pos; lia).
    assert (n / R < R + 2) by (apply Z.div_lt_upper_bound; lia).
    rewrite !wrap_id by lia. reflexivity.
Qed.

Lemma WW : 2 ^ (2 * w) = 2 ^ w * 2 ^ w.
Proof. rewrite <- Z.pow_add_r by lia. f_equal. lia. Qed.

Lemma W_big : R * (R + 2) < 2 ^ (2 * w).
Proof. rewrite WW. nia. Qed.

Lemma dec_shift_lt s : 1 <= s -> 2 ^ s < R -> s < w.
Proof. intros. apply (Z.pow_lt_mono_r_iff 2); lia. Qed.

Lemma split_bounds n : 0 <= n < R * (R + 2) ->
  0 <= n mod R < R /\ 0 <= n / R < R + 2 /\ n mod R + R * (n / R) = n.
Proof.
  intros Hn. assert (Hr := div_mod_eq n R ltac:(lia)).
  assert (0 <= n / R) by (apply Z.div_pos; lia).
  assert (n / R < R + 2) by (apply Z.div_lt_upper_bound; lia). lia.
Qed.

(** multiplication, also for factors up to [R + 1] (the quotient estimates of
    the division code reach this) *)
Lemma dec_mul_wide d f c : 0 <= d < R -> 0 <= f <= R + 1 -> 0 <= c < R + 2 -> d * f + c < R * (R + 2) ->
  total (dec_mul_carry dbg w split_of d f c)
    (fun '(r, c') => 0 <= r < R /\ 0 <= c' < R + 2 /\ r + R * c' = d * f + c).
Proof.
  intros Hd Hf Hc Hb. unfold dec_mul_carry. pose proof W_big.
  rewrite w_mul_ok by nia. cbn [bind].
  rewrite w_add_ok by nia. cbn [bind].
  rewrite split_ok by nia. cb.
  apply split_bounds. nia.
Qed.

Lemma dec_sub_ok d o c : 0 <= d < R -> 0 <= o < R ->
  total (dec_sub_carry dbg w R d o c)
    (fun '(r, c') => 0 <= r < R /\ r - R * of_bool c' = d - o - of_bool c).
Proof.
  intros. pose proof (of_bool_range c). unfold dec_sub_carry. rewrite b2z_of_bool.
  rewrite w_add_ok by lia. cbn [bind].
  destruct (Z.ltb_spec d (o + of_bool c)).
  - rewrite w_sub_ok by lia. cbn [bind]. rewrite w_add_ok by lia. cb.
    cbn [of_bool]. lia.
  - rewrite w_sub_ok by lia. cb. change (of_bool false) with 0. lia.
Qed.

Lemma dec_max_shift_ok d : 0 < d < R ->
  total (dec_max_shift dbg w R d) (fun s => 0 <= s /\ d * 2 ^ s < R <= d * 2 ^ (s + 1)).
Proof.
  intros Hd. unfold dec_max_shift, leading_zeros, dec_MAX.
  destruct (Z.eqb_spec d 0); [lia|]. destruct (Z.eqb_spec (R - 1) 0); [lia|].
  assert (Hl := Z.log2_spec d ltac:(lia)).
  assert (Hl' := Z.log2_spec (R - 1) ltac:(lia)).
  assert (H0 := Z.log2_nonneg d).
  assert (Hle : Z.log2 d <= Z.log2 (R - 1)) by (apply Z.log2_le_mono; lia).
  assert (Hlw : Z.log2 (R - 1) < w) by (apply Z.log2_lt_pow2; lia).
  assert (Hlw' : 2 ^ Z.succ (Z.log2 (R - 1)) <= 2 ^ w) by (apply Z.pow_le_mono_r; lia).
  assert (2 ^ 6 < 2 ^ 32) by reflexivity. change (2 ^ 6) with 64 in *.
  rewrite w_sub_ok by lia. cbn [bind].
  replace (w - 1 - Z.log2 d - (w - 1 - Z.log2 (R - 1)))
    with (Z.log2 (R - 1) - Z.log2 d) by lia.
  set (s := Z.log2 (R - 1) - Z.log2 d).
  assert (Hs : 0 <= s < w) by (unfold s; lia).
  assert (Hps : 0 < 2 ^ s) by (apply Z.pow_pos_nonneg; lia).
  assert (E1 : 2 ^ Z.succ (Z.log2 (R - 1)) = 2 ^ Z.succ (Z.log2 d) * 2 ^ s)
    by (rewrite <- Z.pow_add_r by lia; f_equal; lia).
  assert (E2 : 2 ^ Z.log2 (R - 1) = 2 ^ Z.log2 d * 2 ^ s)
    by (rewrite <- Z.pow_add_r by lia; f_equal; lia).
  assert (E3 : 2 ^ (s + 1) = 2 * 2 ^ s) by (rewrite Z.pow_add_r by lia; lia).
  rewrite !Z.pow_succ_r in * by lia.
  assert (A1 : d * 2 ^ s < 2 * 2 ^ Z.log2 (R - 1)) by nia.
  assert (A2 : 2 ^ Z.log2 (R - 1) <= d * 2 ^ s) by nia.
  rewrite w_shl_ok by nia. cbn [bind].
  destruct (Z.leb_spec (d * 2 ^ s) (R - 1)) as [Hle2|Hgt].
  - ret. nia.
  - assert (Hs1 : 1 <= s).
    { destruct (Z.eq_dec s 0) as [E|]; [|lia]. rewrite E in Hgt.
      change (2 ^ 0) with 1 in Hgt. lia. }
    rewrite w_sub_ok by lia. cb.
    assert (E4 : 2 ^ s = 2 * 2 ^ (s - 1))
      by (rewrite <- Z.pow_succ_r by lia; f_equal; lia).
    replace (s - 1 + 1) with s by lia. nia.
Qed.

Lemma dec_ok : digit_ok R (dec_digit dbg w R is64).
Proof.
  pose proof W_big as HWb. pose proof WW as HWW. constructor; projs.
  - lia.
  - reflexivity.
  - apply dec_max_shift_ok.
  - intros d Hd. unfold dec_inc. destruct (Z.eqb_spec d (R - 1)).
    + cb. cbn [of_bool]. lia.
    + rewrite w_add_ok by lia. cb. cbn [of_bool]. lia.
  - intros d Hd. unfold dec_dec. destruct (Z.eqb_spec d 0).
    + cb. cbn [of_bool]. lia.
    + rewrite w_sub_ok by lia. cb. cbn [of_bool]. lia.
  - intros d o c Hd Ho. pose proof (of_bool_range c). destruct is64 eqn:E64.
    + unfold dec64_add_carry. rewrite b2z_of_bool. rewrite w_add_ok by lia. cbn [bind].
      unfold o_add, wrap.
      destruct (Z.leb_spec (2 ^ w) (d + (o + of_bool c))) as [Hge|Hlt]; cbn [orb].
      * cb. cbn [of_bool].
        assert (Hm1 : (d + (o + of_bool c)) mod 2 ^ w = d + (o + of_bool c) - 2 ^ w).
        { symmetry. apply Z.mod_unique with 1; lia. }
        rewrite Hm1.
        assert (Hm2 : (d + (o + of_bool c) - 2 ^ w - R) mod 2 ^ w = d + (o + of_bool c) - R).
        { symmetry. apply Z.mod_unique with (-1); lia. }
        rewrite Hm2. lia.
      * rewrite (Z.mod_small (d + (o + of_bool c))) by lia.
        destruct (Z.leb_spec R (d + (o + of_bool c))); cb; cbn [of_bool].
        -- rewrite Z.mod_small by lia. lia.
        -- lia.
    + specialize (Hsmall eq_refl). unfold dec_add_carry. rewrite b2z_of_bool.
      rewrite w_add_ok by lia. cbn [bind]. rewrite w_add_ok by lia. cbn [bind].
      destruct (Z.leb_spec R (d + (o + of_bool c))).
      * rewrite w_sub_ok by lia. cb. cbn [of_bool]. lia.
      * cb. cbn [of_bool]. lia.
  - apply dec_sub_ok.
  - intros d s c Hd Hs H2s Hc. unfold dec_shl_carry. fold split_of.
    pose proof (dec_shift_lt s Hs H2s).
    rewrite w_shl_ok by nia. cbn [bind]. rewrite w_add_ok by nia. cbn [bind].
    rewrite split_ok by nia. cb.
    pose proof (split_bounds (d * 2 ^ s + c) ltac:(nia)) as (? & ? & ?).
    repeat split; try lia. apply Z.div_lt_upper_bound; nia.
  - intros d s c Hd Hs H2s Hc. unfold dec_shr_carry.
    pose proof (dec_shift_lt s Hs H2s).
    assert (Hp1 : 0 < 2 ^ (s - 1)) by (apply Z.pow_pos_nonneg; lia).
    assert (Hp2 : 2 ^ (s - 1) < 2 ^ (2 * w)) by (apply Z.pow_lt_mono_r; lia).
    rewrite (w_shl_ok dbg (2 * w) 1 (s - 1)) by lia. cbn [bind].
    rewrite w_sub_ok by lia. cbn [bind].
    rewrite w_mul_ok by nia. cbn [bind].
    rewrite w_add_ok by nia. cbn [bind].
    rewrite w_shr_ok by lia. cbn [bind].
    rewrite Z.mul_1_l, mask_ones, land_ones' by lia.
    assert (Hm := div_mod_eq (c * R + d) (2 ^ s) ltac:(lia)).
    assert (0 <= (c * R + d) / 2 ^ s) by (apply Z.div_pos; nia).
    assert ((c * R + d) / 2 ^ s < R) by (apply Z.div_lt_upper_bound; nia).
    rewrite !wrap_id by lia. cb. lia.
  - intros d c Hd. pose proof (of_bool_range c). destruct is64 eqn:E64.
    + destruct (H64 eq_refl) as [Ew ER].
      unfold dec64_double_carry. rewrite b2z_of_bool.
      rewrite w_shl_ok by (rewrite Ew; split; [lia|reflexivity] || lia). cbn [bind].
      rewrite Z.mul_1_l. replace 63 with (w - 1) by lia. rewrite testbit_top by lia.
      assert (Hh : 2 ^ w = 2 * 2 ^ (w - 1)) by (rewrite <- Z.pow_succ_r by lia; f_equal; lia).
      rewrite w_shl_wrap by lia. cbn [bind].
      assert (Hmod : (d * 2 ^ 1) mod 2 ^ w = (d - 2 ^ (w - 1) * of_bool (2 ^ (w - 1) <=? d)) * 2 ^ 1).
      { symmetry. apply Z.mod_unique with (of_bool (2 ^ (w - 1) <=? d)).
        - left. destruct (Z.leb_spec (2 ^ (w - 1)) d); cbn [of_bool]; lia.
        - lia. }
      rewrite Hmod, lor_add by lia.
      destruct (Z.leb_spec (2 ^ (w - 1)) d); cbn [of_bool orb].
      * cb. unfold wrap.
        rewrite <- (Z.mod_unique ((d - 2 ^ (w - 1) * 1) * 2 ^ 1 + of_bool c - R) (2 ^ w) (-1) (2 * d + of_bool c - R));
          cbn [of_bool]; lia.
      * destruct (Z.leb_spec R ((d - 2 ^ (w - 1) * 0) * 2 ^ 1 + of_bool c)); cb.
        -- rewrite wrap_id by lia. cbn [of_bool]. lia.
        -- cbn [of_bool]. lia.
    + specialize (Hsmall eq_refl). unfold dec_double_carry. rewrite b2z_of_bool.
      rewrite w_shl_ok by lia. cbn [bind]. rewrite lor_add by lia.
      destruct (Z.leb_spec R (d * 2 ^ 1 + of_bool c)).
      * rewrite w_sub_ok by lia. cb. cbn [of_bool]. lia.
      * cb. cbn [of_bool]. lia.
  - intros d f c Hd Hf Hc. fold split_of.
    assert (0 <= d * f <= (R - 1) * (R - 1)) by nia.
    eapply total_post; [apply dec_mul_wide; nia|].
    intros [r c'] (? & ? & ?). repeat split; try lia. nia.
  - intros d f c Hd Hf Hc. unfold dec_rem_carry.
    rewrite w_mul_ok by nia. cbn [bind].
    rewrite w_add_ok by nia. cbn [bind].
    rewrite w_rem_ok by lia. cb. replace (c * R + d) with (d + R * c) by lia.
    apply wrap_id. pose proof (Z.mod_pos_bound (d + R * c) f). lia.
  - intros d f c Hd Hf Hc. unfold dec_div_carry.
    rewrite w_mul_ok by nia. cbn [bind].
    rewrite w_add_ok by nia. cbn [bind].
    rewrite w_div_ok, w_rem_ok by lia. cb.
    assert (Hm := div_mod_eq (c * R + d) f ltac:(lia)).
    assert (0 <= (c * R + d) / f) by (apply Z.div_pos; nia).
    assert ((c * R + d) / f < R) by (apply Z.div_lt_upper_bound; nia).
    rewrite !wrap_id by lia. lia.
  - intros d c Hd Hc. destruct is64 eqn:E64.
    + destruct (H64 eq_refl) as [Ew ER]. unfold dec64_div3_carry, dec_MAX.
      rewrite w_add_ok by lia. cbn [bind].
      assert (HB3 : R = 3 * ((R - 1) / 3) + 1) by (subst R; reflexivity).
      set (b3 := (R - 1) / 3) in *.
      assert (Hm := div_mod_eq (d + c) 3 ltac:(lia)).
      rewrite w_mul_ok by nia. cbn [bind].
      rewrite w_add_ok by nia. cb.
      rewrite wrap_id by (change (2 ^ 8) with 256; lia). nia.
    + unfold dec_div3_carry.
      rewrite w_mul_ok by nia. cbn [bind].
      rewrite w_add_ok by nia. cb.
      assert (Hm := div_mod_eq (c * R + d) 3 ltac:(lia)).
      assert (0 <= (c * R + d) / 3) by (apply Z.div_pos; nia).
      assert (c * R <= 2 * R) by nia.
      rewrite (wrap_id w), (wrap_id 8) by (try change (2 ^ 8) with 256; lia). lia.
  - intros d f g c Hd Hf Hg Hc. unfold dec_add_prod_carry. fold split_of.
    assert (0 <= f * g <= (R - 1) * (R - 1)) by nia.
    rewrite w_mul_ok by nia. cbn [bind].
    rewrite w_add_ok by nia. cbn [bind].
    rewrite w_add_ok by nia. cbn [bind].
    rewrite split_ok by nia. cb.
    pose proof (split_bounds (d + f * g + c) ltac:(nia)) as (? & ? & ?).
    repeat split; try lia. apply Z.div_lt_upper_bound; nia.
  - intros d f g c Hd Hf Hg Hc. unfold dec_sub_prod_carry. fold split_of.
    assert (0 <= f * g <= (R - 1) * (R - 1)) by nia.
    rewrite w_mul_ok by nia. cbn [bind].
    rewrite w_add_ok by nia. cbn [bind].
    rewrite split_ok by nia. cbn [bind].
    pose proof (split_bounds (f * g + c) ltac:(nia)) as (? & ? & ?).
    assert (Hq : (f * g + c) / R < R) by (apply Z.div_lt_upper_bound; nia).
    tstep dec_sub_ok; [lia|lia|]. intros [r u] [Hr He].
    rewrite b2z_of_bool. pose proof (of_bool_range u).
    change (of_bool false) with 0 in *.
    rewrite w_add_ok by lia. cb.
    assert ((f * g + c) / R + of_bool u < R); [|lia].
    destruct u; cbn [of_bool] in *; [|lia].
    assert ((f * g + c) / R <> R - 1); [|lia]. nia.
Qed.
End Decimal.

(** ** The eight types *)
Theorem impl_ok dbg t : digit_ok (radix t) (impl dbg t).
Proof.
  destruct t; unfold impl, is_binary, bits, is64, decimal_radix, radix.
  - change 256 with (2 ^ 8). apply bin_ok; [lia|discriminate].
  - change 65536 with (2 ^ 16). apply bin_ok; [lia|discriminate].
  - change 4294967296 with (2 ^ 32). apply bin_ok; [lia|discriminate].
  - change 18446744073709551616 with (2 ^ 64). apply bin_ok; [lia|reflexivity].
  - apply dec_ok; try lia; try discriminate.
  - apply dec_ok; try lia; try discriminate.
  - apply dec_ok; try lia; try discriminate.
  - apply dec_ok; try lia; try discriminate.
Qed.
