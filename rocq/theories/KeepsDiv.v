(** * KeepsDiv: the divisions of the binary digit types keep digits below the base.

    A binary digit fills its storage type, so this holds whether or not the
    quotient is right.  (Decimal digits do not: see Witness.v.) *)
From Coq Require Import ZArith List Bool Lia.
From Verif Require Import Base Digit Slice Mul Div UBig Spec Hoare DigitOK ListLemmas Gives TypedProof Keeps.
Import ListNotations.
Open Scope Z_scope.
Open Scope m_scope.

(** ** Binary digit operations on arbitrary arguments *)
Section Word.
Variable dbg : bool.
Variable w : Z.
Hypothesis Hw : 1 <= w.
Notation B := (2 ^ w).

Let HB : 1 < B.
Proof. change 1 with (2 ^ 0). apply Z.pow_lt_mono_r; lia. Qed.
Lemma wrap_in x : 0 <= wrap w x < B.
Proof. apply Z.mod_pos_bound. lia. Qed.
Lemma lor_in a b : 0 <= a < B -> 0 <= b < B -> 0 <= Z.lor a b < B.
Proof.
  intros Ha Hb. assert (H0 : 0 <= Z.lor a b) by (apply Z.lor_nonneg; lia).
  split; [exact H0|]. destruct (Z.eq_dec (Z.lor a b) 0) as [->|Hn]; [lia|].
  apply Z.log2_lt_pow2; [lia|]. rewrite Z.log2_lor by lia.
  destruct (Z.eq_dec a 0) as [->|]; destruct (Z.eq_dec b 0) as [->|];
    repeat (rewrite Z.max_lub_lt_iff); try split; try (change (Z.log2 0) with 0; lia);
    apply Z.log2_lt_pow2; lia.
Qed.
Lemma land_in a b : 0 <= a < B -> 0 <= Z.land a b < B.
Proof.
  intros Ha. assert (H0 : 0 <= Z.land a b) by (apply Z.land_nonneg; lia).
  split; [exact H0|]. apply Z.le_lt_trans with a; [|lia].
  rewrite <- (Z.land_diag a) at 2.
  assert (E : a = Z.lor (Z.land a b) (Z.ldiff a b)).
  { apply Z.bits_inj'. intros n _. rewrite Z.lor_spec, Z.land_spec, Z.ldiff_spec.
    destruct (Z.testbit a n), (Z.testbit b n); reflexivity. }
  rewrite Z.land_diag. rewrite E at 2.
  assert (Hd : Z.land (Z.land a b) (Z.ldiff a b) = 0).
  { apply Z.bits_inj'. intros n _. rewrite !Z.land_spec, Z.ldiff_spec, Z.bits_0.
    destruct (Z.testbit a n), (Z.testbit b n); reflexivity. }
  rewrite <- Z.add_nocarry_lxor in * || idtac.
  rewrite <- Z.lxor_lor by exact Hd. rewrite <- Z.add_nocarry_lxor by exact Hd.
  assert (0 <= Z.ldiff a b) by (apply Z.ldiff_nonneg; lia). lia.
Qed.
Lemma shr_in a s : 0 <= a < B -> 0 <= s -> 0 <= Z.shiftr a s < B.
Proof.
  intros Ha Hs. rewrite Z.shiftr_div_pow2 by exact Hs.
  assert (1 <= 2 ^ s) by (change 1 with (2 ^ 0); apply Z.pow_le_mono_r; lia).
  split; [apply Z.div_pos; lia|]. apply Z.le_lt_trans with a; [|lia].
  apply Z.div_le_upper_bound; nia.
Qed.
Lemma k_w_shl a s : keeps B (w_shl dbg w a s).
Proof.
  unfold w_shl. destruct (_ && _); [|destruct dbg]; try apply keeps_panic;
    apply keeps_ret; apply wrap_in.
Qed.
Lemma k_w_shr a s : 0 <= a < B -> keeps B (w_shr dbg w a s).
Proof.
  intros H. unfold w_shr. destruct ((0 <=? s) && _) eqn:E; [|destruct dbg]; try apply keeps_panic;
    apply keeps_ret; apply shr_in; auto.
  - apply andb_prop in E. lia.
  - apply Z.mod_pos_bound. lia.
Qed.
Lemma k_checked x : keeps B (checked dbg w x).
Proof.
  unfold checked. destruct (_ && _) eqn:E; [|destruct dbg]; try apply keeps_panic; apply keeps_ret.
  - apply andb_prop in E. cbv [fine fine_Z]. lia.
  - apply wrap_in.
Qed.
Lemma k_bin_shl d s c : 0 <= d < B -> 0 <= c < B -> keeps B (bin_shl_carry dbg w d s c).
Proof.
  intros Hd Hc. unfold bin_shl_carry. refine (keeps_bind _ _ _ _ _); [apply k_w_shr, Hd|].
  intros n Hn. refine (keeps_bind _ _ _ _ _); [apply k_w_shl|]. intros h Hh.
  apply keeps_ret. split; [apply lor_in; assumption|exact Hn].
Qed.
Lemma k_bin_shr d s c : 0 <= d < B -> 0 <= c < B -> keeps B (bin_shr_carry dbg w d s c).
Proof.
  intros Hd Hc. unfold bin_shr_carry. refine (keeps_bind _ _ _ _ _); [apply k_w_shl|].
  intros b1 _. refine (keeps_bind _ _ _ _ _); [apply k_w_shl|]. intros b2 _.
  refine (keeps_bind _ _ _ _ _); [apply k_checked|]. intros b3 _.
  refine (keeps_bind _ _ _ _ _); [apply k_w_shl|]. intros h Hh.
  refine (keeps_bind _ _ _ _ _); [apply k_w_shr, Hd|]. intros l Hl.
  apply keeps_ret. split; [apply lor_in; assumption|apply land_in, Hd].
Qed.
Lemma k_bin_div d f c : keeps B (bin_div_carry dbg w d f c).
Proof.
  unfold bin_div_carry. apply gives_any. intros h. apply gives_any. intros q. apply gives_any. intros r.
  apply gives_ret. split; apply wrap_in.
Qed.
Lemma k_bin_max_shift d : 0 <= d < B -> keeps B (bin_max_shift w d).
Proof.
  intros H. apply keeps_ret. cbv [fine fine_Z]. unfold leading_zeros.
  assert (w < B) by (apply Z.pow_gt_lin_r; lia).
  destruct (Z.eqb_spec d 0); [lia|].
  pose proof (Z.log2_nonneg d). assert (Z.log2 d < w) by (apply Z.log2_lt_pow2; lia). lia.
Qed.
End Word.

(** ** Division *)
Section Division.
Variable B : Z.
Variable D : digit.
Hypothesis HD : digit_ok B D.
Hypothesis Hmax : forall d, 0 <= d < B -> keeps B (d_max_shift D d).
Hypothesis Hshl : forall d s c, 0 <= d < B -> 0 <= c < B -> keeps B (d_shl_carry D d s c).
Hypothesis Hshr : forall d s c, 0 <= d < B -> 0 <= c < B -> keeps B (d_shr_carry D d s c).
Hypothesis Hdiv : forall d f c, keeps B (d_div_carry D d f c).
Let HB1 : 1 < B.
Proof. generalize (ok_base B D HD). lia. Qed.
Let HB100 : 100 <= B := ok_base B D HD.
Notation digs := (below B).
Notation dig d := (0 <= d < B).
Let t_inc := k_inc B D HD.
Let t_dec := k_dec B D HD.
Let t_sub := k_sub B D HD.
Let t_mul := k_mul B D HD.
Let t_add_assign_big := k_add_assign_big B D HD.
Let t_sub_assign_big := k_sub_assign_big B D HD.
Let t_dec_assign := k_dec_assign B D HD.
Let t_mul_digit_into := k_mul_digit_into B D HD.
Let t_mul_fuel := k_mul_fuel B D HD.
Let t_new := k_new B.
Local Hint Resolve HB1 Hmax Hshl Hshr Hdiv t_inc t_dec t_sub t_mul t_add_assign_big
  t_sub_assign_big t_dec_assign t_mul_digit_into t_mul_fuel t_new : keeps.
Ltac lists := repeat match goal with
  | H : below B (_ :: _) |- _ => apply below_cons in H; destruct H as [? H] end.

Lemma a_shl_loop l s c : digs l -> dig c -> keeps B (shl_loop D l s c).
Proof. revert c. induction l as [|d l IH]; intros c ? ?; cbn [shl_loop]; lists; keep. Qed.
Lemma a_shr_loop l s c : digs l -> dig c -> keeps B (shr_loop D l s c).
Proof. induction l as [|d l IH]; intros ? ?; cbn [shr_loop]; lists; keep. Qed.
Local Hint Resolve a_shl_loop a_shr_loop : keeps.
Lemma a_shl l s c : digs l -> dig c -> keeps B (shl_carry_assign_within_digit D l s c).
Proof. intros. unfold shl_carry_assign_within_digit. keep. Qed.
Lemma a_shr l s c : digs l -> dig c -> keeps B (shr_carry_assign_within_digit D l s c).
Proof. intros. unfold shr_carry_assign_within_digit. keep. Qed.
Lemma a_div_loop l f c : digs l -> dig c -> keeps B (div_loop D l f c).
Proof. induction l as [|d l IH]; intros ? ?; cbn [div_loop]; lists; keep. Qed.
Local Hint Resolve a_shl a_shr a_div_loop : keeps.
Lemma a_div_digit l f : digs l -> keeps B (div_assign_digit D l f).
Proof. intros. unfold div_assign_digit. keep. Qed.
Lemma a_pair_step dl dh d rh rl : dig dl -> dig dh -> dig d -> dig rh -> dig rl ->
  keeps B (div_pair_step D dl dh d rh rl).
Proof. intros. unfold div_pair_step. keep. Qed.
Local Hint Resolve a_div_digit a_pair_step : keeps.
Lemma a_pair_loop l dl dh rh rl : digs l -> dig dl -> dig dh -> dig rh -> dig rl ->
  keeps B (div_pair_loop D l dl dh rh rl).
Proof. induction l as [|d l IH]; intros; cbn [div_pair_loop]; lists; keep. Qed.
Local Hint Resolve a_pair_loop : keeps.
Lemma a_pair l fl fh : digs l -> dig fl -> dig fh -> keeps B (div_assign_digit_pair D l fl fh).
Proof.
  intros. unfold div_assign_digit_pair. destruct (fh =? 0); [keep|].
  destruct l as [|d [|d' l]]; [keep|lists; keep|].
  set (x := d :: d' :: l) in *. keep.
Qed.
Local Hint Resolve a_pair : keeps.
Lemma a_sub_ignore l m : digs l -> digs m -> keeps B (sub_ignore D l m).
Proof. intros. unfold sub_ignore. keep. Qed.
Lemma a_first_too_big a b c d : digs a -> digs b -> digs c -> keeps B (first_too_big a b c d).
Proof. intros. unfold first_too_big. keep. Qed.
Local Hint Resolve a_sub_ignore a_first_too_big : keeps.
Lemma a_long_first n m d q w : digs n -> dig m -> digs d -> digs q -> digs w ->
  keeps B (div_long_first D n m d q w).
Proof. intros. unfold div_long_first. keep. Qed.
Lemma a_long_step i n d q w : digs n -> digs d -> digs q -> digs w ->
  keeps B (div_long_step D i n d q w).
Proof. intros. unfold div_long_step. keep. Qed.
Local Hint Resolve a_long_first a_long_step : keeps.
Lemma a_long_loop i : forall n d q w, digs n -> digs d -> digs q -> digs w ->
  keeps B (div_long_loop D i n d q w).
Proof. induction i as [|i IH]; intros; cbn [div_long_loop]; keep. Qed.
Local Hint Resolve a_long_loop : keeps.
Lemma a_long_scaled n m d q w : digs n -> dig m -> digs d -> digs q -> digs w ->
  keeps B (div_big_long_scaled D n m d q w).
Proof. intros. unfold div_big_long_scaled. keep. Qed.
Local Hint Resolve a_long_scaled : keeps.
Lemma a_long n d q w : digs n -> digs d -> digs q -> digs w -> keeps B (div_big_long D n d q w).
Proof. intros. unfold div_big_long. keep. Qed.
Lemma a_copy_prefix l m n : digs l -> digs m -> keeps B (copy_prefix l m n).
Proof. intros. unfold copy_prefix. keep. Qed.
Local Hint Resolve a_long a_copy_prefix : keeps.
Definition div_keeps (rec : div_fn) : Prop := forall n d q w,
  digs n -> digs d -> digs q -> digs w -> keeps B (rec n d q w).
Lemma a_work_gen bz : div_keeps bz -> forall n d q w, digs n -> digs d -> digs q -> digs w ->
  keeps B (div_big_with_work_gen D bz n d q w).
Proof. intros Hbz. intros. unfold div_big_with_work_gen. keep. Qed.
Lemma a_no_bz : div_keeps no_bz.
Proof. intros n d q w _ _ _ _. apply keeps_nofuel. Qed.
Lemma a_dec_prefix q n : digs q -> keeps B (dec_prefix D q n).
Proof. intros. unfold dec_prefix. keep. Qed.
Lemma a_debug_max d : dig d -> keeps B (debug_max_shift_zero D d).
Proof. intros. unfold debug_max_shift_zero. keep. Qed.
Lemma a_mul_work x y p w : digs x -> digs y -> digs p -> digs w ->
  keeps B (mul_big_into_with_work D x y p w).
Proof. intros. apply t_mul_fuel; assumption. Qed.
Lemma a_repeat_max n : digs (repeat (d_MAX D) n).
Proof.
  rewrite (ok_MAX B D HD). induction n; cbn; [apply below_nil|apply below_cons]. split; [lia|assumption].
Qed.
Local Hint Resolve a_no_bz a_dec_prefix a_debug_max a_mul_work a_repeat_max : keeps.
Lemma a_bz_3n_2n rec : div_keeps rec -> div_keeps (div_big_bz_3n_2n D rec).
Proof.
  intros Hr n d q w ? ? ? ?. unfold div_big_bz_3n_2n. keep.
  all: try (apply Hr; auto 8 with keeps).
Qed.
Lemma a_bz_2n_n rec : div_keeps rec -> div_keeps (div_big_bz_2n_n_step D rec).
Proof.
  intros Hr n d q w ? ? ? ?. unfold div_big_bz_2n_n_step. keep.
  all: try (apply (a_bz_3n_2n rec Hr); auto 8 with keeps).
  all: try (apply (a_work_gen no_bz a_no_bz); auto 8 with keeps).
Qed.
Lemma a_bz_fuel f : div_keeps (bz_fuel D f).
Proof.
  induction f as [|f IH]; cbn [bz_fuel]; [intros ? ? ? ? _ _ _ _; apply keeps_nofuel|].
  apply a_bz_2n_n, IH.
Qed.
Lemma a_bz_blocks i n : forall sn sd q w, digs sn -> digs sd -> digs q -> digs w ->
  keeps B (bz_blocks D i n sn sd q w).
Proof.
  induction i as [|i IH]; intros; cbn [bz_blocks]; keep.
  all: try (apply (a_bz_fuel _); assumption).
  all: apply IH; auto 8 with keeps.
Qed.
Local Hint Resolve a_bz_blocks : keeps.
Lemma a_bz : div_keeps (div_big_bz D).
Proof. intros n d q w ? ? ? ?. unfold div_big_bz. keep. Qed.
Lemma a_div_with_work n d q w : digs n -> digs d -> digs q -> digs w ->
  keeps B (div_big_with_work D n d q w).
Proof.
  intros. apply a_work_gen; auto. intros n' d' q' w' ? ? ? ?. keep. apply a_bz; assumption.
Qed.
Lemma a_div_big n d q : digs n -> digs d -> digs q -> keeps B (div_big D n d q).
Proof.
  intros. unfold div_big. keep. apply a_div_with_work; auto. fine_cases; auto with keeps.
Qed.
Local Hint Resolve a_div_big : keeps.
Lemma a_div_assign_big x y : digs x -> digs y -> keeps B (div_assign_big D x y).
Proof. intros. unfold div_assign_big. keep. Qed.
Lemma a_rem_assign_big x y : digs x -> digs y -> keeps B (rem_assign_big D x y).
Proof. intros. unfold rem_assign_big. keep. Qed.
Local Hint Resolve a_div_assign_big a_rem_assign_big : keeps.
Lemma a_div_assign x y : digs x -> digs y -> keeps B (div_assign D x y).
Proof. intros. unfold div_assign. keep. Qed.
Lemma a_rem_assign x y : digs x -> digs y -> keeps B (rem_assign D x y).
Proof. intros. unfold rem_assign. keep. Qed.
End Division.

(** ** The binary types *)
Section Binary.
Variable dbg : bool.
Variable t : dty.
Hypothesis Hb : is_binary t = true.
Notation B := (radix t).
Notation D := (impl dbg t).
Let Hw : 1 <= bits t.
Proof. destruct t; cbn; lia. Qed.
Lemma bin_max d : 0 <= d < B -> keeps B (d_max_shift D d).
Proof. unfold impl. rewrite Hb, (radix_bin t Hb). apply k_bin_max_shift, Hw. Qed.
Lemma bin_shl d s c : 0 <= d < B -> 0 <= c < B -> keeps B (d_shl_carry D d s c).
Proof. unfold impl. rewrite Hb, (radix_bin t Hb). apply k_bin_shl, Hw. Qed.
Lemma bin_shr d s c : 0 <= d < B -> 0 <= c < B -> keeps B (d_shr_carry D d s c).
Proof. unfold impl. rewrite Hb, (radix_bin t Hb). apply k_bin_shr, Hw. Qed.
Lemma bin_div d f c : keeps B (d_div_carry D d f c).
Proof. unfold impl. rewrite Hb, (radix_bin t Hb). apply k_bin_div, Hw. Qed.
Lemma k_div_bin x y : below B x -> below B y -> keeps B (div_assign D x y).
Proof. apply (a_div_assign B D (impl_ok dbg t) bin_max bin_shl bin_shr bin_div). Qed.
Lemma k_rem_bin x y : below B x -> below B y -> keeps B (rem_assign D x y).
Proof. apply (a_rem_assign B D (impl_ok dbg t) bin_max bin_shl bin_shr bin_div). Qed.
Lemma k_div_big_bin x y : below B x -> below B y -> keeps B (div_assign_big D x y).
Proof. apply (a_div_assign_big B D (impl_ok dbg t) bin_max bin_shl bin_shr bin_div). Qed.
End Binary.
