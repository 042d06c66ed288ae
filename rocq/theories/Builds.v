(** * Builds: whatever a debug build returns, a release build returns. *)
From Coq Require Import ZArith List Bool Lia.
From Verif Require Import Base Digit Slice Mul Div UBig Text.
Import ListNotations.
Open Scope Z_scope.
Open Scope m_scope.

Definition same {A} (e1 e2 : M A) : Prop := forall r, e1 = Ret r -> e2 = Ret r.

Lemma same_refl {A} (e : M A) : same e e.
Proof. intros r E. exact E. Qed.
Lemma same_panic {A} w (e : M A) : same (Panic w) e.
Proof. intros r E. discriminate E. Qed.
Lemma same_bind {A C} (e1 e2 : M A) (k1 k2 : A -> M C) :
  same e1 e2 -> (forall a, same (k1 a) (k2 a)) -> same (bind e1 k1) (bind e2 k2).
Proof.
  intros H1 H2 r E. destruct e1 as [a| |]; try discriminate E. rewrite (H1 a eq_refl). exact (H2 a r E).
Qed.
(** a step of the debug build only *)
Lemma same_skip {A C} (e1 : M A) (k1 : A -> M C) (e2 : M C) :
  (forall a, same (k1 a) e2) -> same (bind e1 k1) e2.
Proof. intros H r E. destruct e1 as [a| |]; try discriminate E. exact (H a r E). Qed.
(** a step whose result is fixed in the release build *)
Lemma same_drop {A C} (e1 e2 : M A) a2 (k1 k2 : A -> M C) :
  e2 = Ret a2 -> (forall a, same (k1 a) (k2 a2)) -> same (bind e1 k1) (bind e2 k2).
Proof. intros -> H. apply same_skip. exact H. Qed.
Lemma same_with_slice {A} l i j (f g : digits -> M (digits * A)) :
  (forall s, same (f s) (g s)) -> same (with_slice l i j f) (with_slice l i j g).
Proof.
  intros H. unfold with_slice. apply same_bind; [apply same_refl|]. intros s.
  apply same_bind; [apply H|]. intros [s' a]. apply same_refl.
Qed.
Lemma same_unwrap_with {A} (e1 e2 : M (digits * result A)) :
  same e1 e2 -> same (unwrap_with e1) (unwrap_with e2).
Proof. intros H. unfold unwrap_with. apply same_bind; [exact H|]. intros [l r]. apply same_refl. Qed.
Lemma same_assert d b : same (debug_assert d b) (debug_assert false b).
Proof. intros [] _. reflexivity. Qed.
Lemma same_work d b : same (debug_work d b) (debug_work false b).
Proof. intros [] _. reflexivity. Qed.

Create HintDb same.
#[global] Hint Resolve same_panic same_assert same_work : same.
#[global] Hint Extern 0 (same ?a ?b) => constr_eq a b; exact (same_refl a) : same.

Ltac same1 :=
  match goal with
  | |- same (bind _ _) (bind _ _) => apply same_bind; [|let a := fresh "a" in intros a]
  | |- same (with_slice _ _ _ _) (with_slice _ _ _ _) => apply same_with_slice; intros ?
  | |- same (with_prefix _ _ _) (with_prefix _ _ _) => apply same_with_slice; intros ?
  | |- same (with_suffix _ _ _) (with_suffix _ _ _) => apply same_with_slice; intros ?
  | |- same (unwrap_with _) (unwrap_with _) => apply same_unwrap_with
  | |- same (if ?b then _ else _) (if ?b then _ else _) => destruct b
  | |- same (match ?x with _ => _ end) (match ?x with _ => _ end) => destruct x
  | |- same _ _ => solve [auto with same]
  end.
Ltac same := repeat (cbv zeta; same1).

(** ** Digit operations *)
Lemma same_checked w x : same (checked true w x) (checked false w x).
Proof. unfold checked. destruct (_ && _); [apply same_refl|apply same_panic]. Qed.
Lemma same_w_add w a b : same (w_add true w a b) (w_add false w a b).
Proof. apply same_checked. Qed.
Lemma same_w_sub w a b : same (w_sub true w a b) (w_sub false w a b).
Proof. apply same_checked. Qed.
Lemma same_w_mul w a b : same (w_mul true w a b) (w_mul false w a b).
Proof. apply same_checked. Qed.
Lemma same_w_shl w a b : same (w_shl true w a b) (w_shl false w a b).
Proof. unfold w_shl. destruct (_ && _); [apply same_refl|apply same_panic]. Qed.
Lemma same_w_shr w a b : same (w_shr true w a b) (w_shr false w a b).
Proof. unfold w_shr. destruct (_ && _); [apply same_refl|apply same_panic]. Qed.
#[global] Hint Resolve same_checked same_w_add same_w_sub same_w_mul same_w_shl same_w_shr : same.

Record digit_same (D1 D2 : digit) : Prop := {
  sm_dbg : d_dbg D2 = false;
  sm_MAX : d_MAX D1 = d_MAX D2;
  sm_str : forall s b, d_from_base_str D1 s b = d_from_base_str D2 s b;
  sm_max_shift : forall d, same (d_max_shift D1 d) (d_max_shift D2 d);
  sm_inc : forall d, same (d_inc D1 d) (d_inc D2 d);
  sm_dec : forall d, same (d_dec D1 d) (d_dec D2 d);
  sm_add : forall d o c, same (d_add_carry D1 d o c) (d_add_carry D2 d o c);
  sm_sub : forall d o c, same (d_sub_carry D1 d o c) (d_sub_carry D2 d o c);
  sm_shl : forall d s c, same (d_shl_carry D1 d s c) (d_shl_carry D2 d s c);
  sm_shr : forall d s c, same (d_shr_carry D1 d s c) (d_shr_carry D2 d s c);
  sm_double : forall d c, same (d_double_carry D1 d c) (d_double_carry D2 d c);
  sm_mul : forall d f c, same (d_mul_carry D1 d f c) (d_mul_carry D2 d f c);
  sm_rem : forall d f c, same (d_rem_carry D1 d f c) (d_rem_carry D2 d f c);
  sm_div : forall d f c, same (d_div_carry D1 d f c) (d_div_carry D2 d f c);
  sm_div3 : forall d c, same (d_div3_carry D1 d c) (d_div3_carry D2 d c);
  sm_add_prod : forall d f g c, same (d_add_prod_carry D1 d f g c) (d_add_prod_carry D2 d f g c);
  sm_sub_prod : forall d f g c, same (d_sub_prod_carry D1 d f g c) (d_sub_prod_carry D2 d f g c)
}.

Lemma same_div_rem_base R n : same (div_rem_base true R n) (div_rem_base false R n).
Proof. unfold div_rem_base. same. Qed.
Lemma same_dec_sub w R d o c : same (dec_sub_carry true w R d o c) (dec_sub_carry false w R d o c).
Proof. unfold dec_sub_carry. same. Qed.
#[global] Hint Resolve same_div_rem_base same_dec_sub : same.

Lemma bin_same w b : digit_same (bin_digit true w b) (bin_digit false w b).
Proof.
  constructor; intros; try reflexivity; cbn; try destruct b;
    unfold bin_max_shift, bin_inc, bin_dec, bin_add_carry, bin_sub_carry, bin_shl_carry,
      bin_shr_carry, bin_double_carry, bin_mul_carry, bin_rem_carry, bin_div_carry,
      bin_div3_carry, bin64_div3_carry, bin_add_prod_carry, bin_sub_prod_carry, o_add, o_sub; same.
Qed.
Lemma dec_same w R b : digit_same (dec_digit true w R b) (dec_digit false w R b).
Proof.
  constructor; intros; try reflexivity; cbn; try destruct b;
    unfold dec_max_shift, dec_inc, dec_dec, dec_add_carry, dec64_add_carry, dec_shl_carry,
      dec_shr_carry, dec_double_carry, dec64_double_carry, dec_mul_carry,
      dec_rem_carry, dec_div_carry, dec_div3_carry, dec64_div3_carry, dec_add_prod_carry,
      dec_sub_prod_carry, o_add, o_sub; same.
Qed.
Lemma impl_same t : digit_same (impl true t) (impl false t).
Proof. unfold impl. destruct (is_binary t); [apply bin_same|apply dec_same]. Qed.

Section Functions.
Variables D1 D2 : digit.
Hypothesis HD : digit_same D1 D2.

Lemma same_dbg b : same (debug_assert (d_dbg D1) b) (debug_assert (d_dbg D2) b).
Proof. rewrite (sm_dbg D1 D2 HD). apply same_assert. Qed.
Lemma same_dbg_work b : same (debug_work (d_dbg D1) b) (debug_work (d_dbg D2) b).
Proof. rewrite (sm_dbg D1 D2 HD). apply same_work. Qed.
Ltac dsame := first [apply same_dbg | apply same_dbg_work
  | apply (sm_max_shift D1 D2 HD) | apply (sm_inc D1 D2 HD) | apply (sm_dec D1 D2 HD)
  | apply (sm_add D1 D2 HD) | apply (sm_sub D1 D2 HD) | apply (sm_shl D1 D2 HD) | apply (sm_shr D1 D2 HD)
  | apply (sm_double D1 D2 HD) | apply (sm_mul D1 D2 HD) | apply (sm_rem D1 D2 HD)
  | apply (sm_div D1 D2 HD) | apply (sm_div3 D1 D2 HD) | apply (sm_add_prod D1 D2 HD)].
Local Hint Extern 1 (same _ _) => dsame : same.

(** *** add.rs, sub.rs, rsub.rs, shl.rs, shr.rs *)
Lemma same_inc_assign l : same (inc_assign D1 l) (inc_assign D2 l).
Proof. induction l; cbn [inc_assign]; same. Qed.
Local Hint Resolve same_inc_assign : same.
Lemma same_add_assign_digit l d : same (add_assign_digit D1 l d) (add_assign_digit D2 l d).
Proof. unfold add_assign_digit. same. Qed.
Lemma same_add_zip l m c : same (add_zip D1 l m c) (add_zip D2 l m c).
Proof. revert m c. induction l as [|d l IH]; intros [|e m] c; cbn [add_zip]; same. Qed.
Local Hint Resolve same_add_zip same_add_assign_digit : same.
Lemma same_add_assign_big l m : same (add_assign_big D1 l m) (add_assign_big D2 l m).
Proof. unfold add_assign_big. same. Qed.
Lemma same_add_zip_into l m s c : same (add_zip_into D1 l m s c) (add_zip_into D2 l m s c).
Proof. revert m s c. induction l as [|d l IH]; intros [|e m] [|x s] c; cbn [add_zip_into]; same. Qed.
Local Hint Resolve same_add_assign_big same_add_zip_into : same.
Lemma same_add_big_into l m s : same (add_big_into D1 l m s) (add_big_into D2 l m s).
Proof. unfold add_big_into. same. Qed.
Lemma same_dec_assign l : same (dec_assign D1 l) (dec_assign D2 l).
Proof.
  induction l as [|d l IH]; [apply same_refl|]. destruct l as [|e l].
  - cbn [dec_assign]. same.
  - assert (E : forall D, dec_assign D (d :: e :: l) =
      ('(d, u) <- d_dec D d ;;
       if u then '(t, r) <- dec_assign D (e :: l) ;;
                 Ret (d :: t, match r with ROk n => ROk (S n) | RErr x => RErr x end)
       else Ret (d :: e :: l, ROk (length (d :: e :: l))))) by reflexivity.
    rewrite !E. same.
Qed.
Local Hint Resolve same_add_big_into same_dec_assign : same.
Lemma same_sub_assign_digit l d : same (sub_assign_digit D1 l d) (sub_assign_digit D2 l d).
Proof. unfold sub_assign_digit. same. Qed.
Lemma same_sub_zip l m c : same (sub_zip D1 l m c) (sub_zip D2 l m c).
Proof. revert m c. induction l as [|d l IH]; intros [|e m] c; cbn [sub_zip]; same. Qed.
Local Hint Resolve same_sub_assign_digit same_sub_zip : same.
Lemma same_sub_assign_big l m : same (sub_assign_big D1 l m) (sub_assign_big D2 l m).
Proof. unfold sub_assign_big. same. Qed.
Lemma same_sub_zip_into l m s c : same (sub_zip_into D1 l m s c) (sub_zip_into D2 l m s c).
Proof. revert m s c. induction l as [|d l IH]; intros [|e m] [|x s] c; cbn [sub_zip_into]; same. Qed.
Local Hint Resolve same_sub_assign_big same_sub_zip_into : same.
Lemma same_sub_big_into l m s : same (sub_big_into D1 l m s) (sub_big_into D2 l m s).
Proof. unfold sub_big_into. same. Qed.
Lemma same_rsub_zip l m c : same (rsub_zip D1 l m c) (rsub_zip D2 l m c).
Proof. revert m c. induction l as [|d l IH]; intros [|e m] c; cbn [rsub_zip]; same. Qed.
Local Hint Resolve same_sub_big_into same_rsub_zip : same.
Lemma same_rsub_assign_big l m : same (rsub_assign_big D1 l m) (rsub_assign_big D2 l m).
Proof. unfold rsub_assign_big. same. Qed.
Local Hint Resolve same_rsub_assign_big : same.
Lemma same_sub_abs_sign l n m : same (sub_assign_big_abs_sign D1 l n m) (sub_assign_big_abs_sign D2 l n m).
Proof. unfold sub_assign_big_abs_sign. same. Qed.
Lemma same_sub_into_abs_sign l m s : same (sub_big_into_abs_sign D1 l m s) (sub_big_into_abs_sign D2 l m s).
Proof. unfold sub_big_into_abs_sign. same. Qed.
Lemma same_shl_loop l s c : same (shl_loop D1 l s c) (shl_loop D2 l s c).
Proof. revert c. induction l as [|d l IH]; intros c; cbn [shl_loop]; same. Qed.
Lemma same_shr_loop l s c : same (shr_loop D1 l s c) (shr_loop D2 l s c).
Proof. revert c. induction l as [|d l IH]; intros c; cbn [shr_loop]; same. Qed.
Lemma same_div3_loop l c : same (div3_loop D1 l c) (div3_loop D2 l c).
Proof. revert c. induction l as [|d l IH]; intros c; cbn [div3_loop]; same. Qed.
Local Hint Resolve same_sub_abs_sign same_sub_into_abs_sign same_shl_loop same_shr_loop same_div3_loop : same.
Lemma same_shl_within l s c : same (shl_carry_assign_within_digit D1 l s c) (shl_carry_assign_within_digit D2 l s c).
Proof. unfold shl_carry_assign_within_digit. same. Qed.
Lemma same_shr_within l s c : same (shr_carry_assign_within_digit D1 l s c) (shr_carry_assign_within_digit D2 l s c).
Proof. unfold shr_carry_assign_within_digit. same. Qed.
Lemma same_div3_carry l c : same (div3_carry_assign D1 l c) (div3_carry_assign D2 l c).
Proof. unfold div3_carry_assign. same. Qed.
Local Hint Resolve same_shl_within same_shr_within same_div3_carry : same.

(** *** mul.rs and mul/ *)
Lemma same_double_loop l c : same (double_carry_assign D1 l c) (double_carry_assign D2 l c).
Proof. revert c. induction l as [|d l IH]; intros c; cbn [double_carry_assign]; same. Qed.
Lemma same_mul_add l f o : same (mul_add_assign_digit D1 l f o) (mul_add_assign_digit D2 l f o).
Proof. revert o. induction l as [|d l IH]; intros o; cbn [mul_add_assign_digit]; same. Qed.
Lemma same_mul_zip_into l f s c : same (mul_zip_into D1 l f s c) (mul_zip_into D2 l f s c).
Proof. revert s c. induction l as [|d l IH]; intros [|x s] c; cbn [mul_zip_into]; same. Qed.
Local Hint Resolve same_double_loop same_mul_add same_mul_zip_into : same.
Lemma same_mul_digit_into l f s : same (mul_digit_into D1 l f s) (mul_digit_into D2 l f s).
Proof. unfold mul_digit_into. same. Qed.
Lemma same_mul_pair_loop l x y p c o : same (mul_pair_loop D1 l x y p c o) (mul_pair_loop D2 l x y p c o).
Proof. revert p c o. induction l as [|d l IH]; intros p c o; cbn [mul_pair_loop]; same. Qed.
Local Hint Resolve same_mul_digit_into same_mul_pair_loop : same.
Lemma same_mul_pair l x y o : same (mul_pair_add_assign_digit D1 l x y o) (mul_pair_add_assign_digit D2 l x y o).
Proof. unfold mul_pair_add_assign_digit. same. Qed.
Lemma same_add_prod_zip l r d c : same (add_prod_zip D1 l r d c) (add_prod_zip D2 l r d c).
Proof. revert r c. induction l as [|x l IH]; intros [|y r] c; cbn [add_prod_zip]; same. Qed.
Local Hint Resolve same_mul_pair same_add_prod_zip : same.
Lemma same_mul_long_loop l m o s : same (mul_long_loop D1 l m o s) (mul_long_loop D2 l m o s).
Proof. revert o s. induction m as [|x m IH]; intros o s; cbn [mul_long_loop]; same. Qed.
Local Hint Resolve same_mul_long_loop : same.
Lemma same_mul_long l m s : same (mul_big_long_into D1 l m s) (mul_big_long_into D2 l m s).
Proof. unfold mul_big_long_into. same. Qed.
Lemma same_square_long_loop l m o s : same (square_long_loop D1 l m o s) (square_long_loop D2 l m o s).
Proof. revert o s. induction m as [|x m IH]; intros o s; cbn [square_long_loop]; same. Qed.
Lemma same_square_diag l s c : same (square_diag D1 l s c) (square_diag D2 l s c).
Proof. revert s c. induction l as [|x l IH]; intros [|y [|z s]] c; cbn [square_diag]; same. Qed.
Local Hint Resolve same_mul_long same_square_long_loop same_square_diag : same.
Lemma same_square_long l s : same (square_long_into D1 l s) (square_long_into D2 l s).
Proof. unfold square_long_into. same. Qed.
Lemma same_combine neg sp n r z1 x y z :
  same (karatsuba_combine D1 neg sp n r z1 x y z) (karatsuba_combine D2 neg sp n r z1 x y z).
Proof. unfold karatsuba_combine. same. Qed.
Lemma same_eval a b c d e f : same (toom3_eval D1 a b c d e f) (toom3_eval D2 a b c d e f).
Proof. unfold toom3_eval. same. Qed.
Lemma same_interpolate b n r r1 r2 r3 n1 n2 n3 n0 n4 s1 s2 :
  same (toom3_interpolate D1 b n r r1 r2 r3 n1 n2 n3 n0 n4 s1 s2)
       (toom3_interpolate D2 b n r r1 r2 r3 n1 n2 n3 n0 n4 s1 s2).
Proof. unfold toom3_interpolate. same. Qed.
Local Hint Resolve same_square_long same_combine same_eval same_interpolate : same.

Definition same_mul_fn (f g : mul_fn) : Prop := forall a b c d, same (f a b c d) (g a b c d).
Definition same_square_fn (f g : square_fn) : Prop := forall a b c, same (f a b c) (g a b c).
Lemma same_mul_dispatch f g : same_mul_fn f g -> same_mul_fn (mul_dispatch D1 f) (mul_dispatch D2 g).
Proof.
  intros H a b c d. unfold same_mul_fn in H.
  unfold mul_dispatch, mul_big_toom3_into, mul_big_karatsuba_into. same.
Qed.
Lemma same_mul_fuel n : same_mul_fn (mul_fuel D1 n) (mul_fuel D2 n).
Proof.
  induction n as [|n IH]; [intros a b c d; apply same_refl|]. cbn [mul_fuel]. apply same_mul_dispatch, IH.
Qed.
Lemma same_mul_with_work a b c d : same (mul_big_into_with_work D1 a b c d) (mul_big_into_with_work D2 a b c d).
Proof. apply same_mul_fuel. Qed.
Lemma same_mul_into a b c : same (mul_big_into D1 a b c) (mul_big_into D2 a b c).
Proof.
  pose proof (same_mul_fuel (Nat.max (length a) (length b))) as H. unfold same_mul_fn in H.
  unfold mul_big_into, mul_big_toom3_into, mul_big_karatsuba_into. same.
Qed.
Lemma same_square_dispatch f g : same_square_fn f g -> same_square_fn (square_dispatch D1 f) (square_dispatch D2 g).
Proof.
  intros H a b c. unfold same_square_fn in H.
  unfold square_dispatch, square_toom3_into, square_karatsuba_into. same.
Qed.
Lemma same_square_fuel n : same_square_fn (square_fuel D1 n) (square_fuel D2 n).
Proof.
  induction n as [|n IH]; [intros a b c; apply same_refl|]. cbn [square_fuel]. apply same_square_dispatch, IH.
Qed.
Lemma same_square_into a b : same (square_into D1 a b) (square_into D2 a b).
Proof.
  pose proof (same_square_fuel (length a)) as H. unfold same_square_fn in H.
  unfold square_into, square_toom3_into, square_karatsuba_into. same.
Qed.
Local Hint Resolve same_mul_with_work same_mul_into same_square_into : same.

(** *** div.rs and div/ *)
Lemma same_rem_loop l f c : same (rem_loop D1 l f c) (rem_loop D2 l f c).
Proof. induction l as [|d l IH]; cbn [rem_loop]; same. Qed.
Lemma same_div_loop l f c : same (div_loop D1 l f c) (div_loop D2 l f c).
Proof. induction l as [|d l IH]; cbn [div_loop]; same. Qed.
Local Hint Resolve same_rem_loop same_div_loop : same.
Lemma same_rem_digit l f : same (rem_digit D1 l f) (rem_digit D2 l f).
Proof. unfold rem_digit. same. Qed.
Lemma same_div_digit l f : same (div_assign_digit D1 l f) (div_assign_digit D2 l f).
Proof. unfold div_assign_digit. same. Qed.
Lemma same_pair_step a b c d e : same (div_pair_step D1 a b c d e) (div_pair_step D2 a b c d e).
Proof. unfold div_pair_step. same. Qed.
Local Hint Resolve same_rem_digit same_div_digit same_pair_step : same.
Lemma same_pair_loop l a b c d : same (div_pair_loop D1 l a b c d) (div_pair_loop D2 l a b c d).
Proof. induction l as [|x l IH]; cbn [div_pair_loop]; same. Qed.
Local Hint Resolve same_pair_loop : same.
Lemma same_div_pair l a b : same (div_assign_digit_pair D1 l a b) (div_assign_digit_pair D2 l a b).
Proof. unfold div_assign_digit_pair. same. Qed.
Lemma same_sub_ignore l m : same (sub_ignore D1 l m) (sub_ignore D2 l m).
Proof. unfold sub_ignore. same. Qed.
Local Hint Resolve same_div_pair same_sub_ignore : same.
Lemma same_long_first a b c d e : same (div_long_first D1 a b c d e) (div_long_first D2 a b c d e).
Proof. unfold div_long_first. same. Qed.
Lemma same_long_step i a b c d : same (div_long_step D1 i a b c d) (div_long_step D2 i a b c d).
Proof. unfold div_long_step. same. Qed.
Local Hint Resolve same_long_first same_long_step : same.
Lemma same_long_loop i a b c d : same (div_long_loop D1 i a b c d) (div_long_loop D2 i a b c d).
Proof. revert a c d. induction i as [|i IH]; intros a c d; cbn [div_long_loop]; same. Qed.
Local Hint Resolve same_long_loop : same.
Lemma same_long_scaled a b c d e : same (div_big_long_scaled D1 a b c d e) (div_big_long_scaled D2 a b c d e).
Proof.
  unfold div_big_long_scaled. cbv zeta. apply same_bind; [same|]. intros msd.
  apply same_drop with 0; [rewrite (sm_dbg D1 D2 HD); reflexivity|]. intros s.
  apply same_drop with tt; [rewrite (sm_dbg D1 D2 HD); reflexivity|]. intros u. same.
Qed.
Local Hint Resolve same_long_scaled : same.
Lemma same_long a b c d : same (div_big_long D1 a b c d) (div_big_long D2 a b c d).
Proof. unfold div_big_long. same. Qed.
Local Hint Resolve same_long : same.
Definition same_div_fn (f g : div_fn) : Prop := forall a b c d, same (f a b c d) (g a b c d).
Lemma same_div_gen f g : same_div_fn f g ->
  forall a b c d, same (div_big_with_work_gen D1 f a b c d) (div_big_with_work_gen D2 g a b c d).
Proof. intros H a b c d. unfold same_div_fn in H. unfold div_big_with_work_gen. same. Qed.
Lemma same_dec_prefix q n : same (dec_prefix D1 q n) (dec_prefix D2 q n).
Proof. unfold dec_prefix. same. Qed.
Local Hint Resolve same_dec_prefix : same.
Lemma same_3n_2n f g : same_div_fn f g -> same_div_fn (div_big_bz_3n_2n D1 f) (div_big_bz_3n_2n D2 g).
Proof.
  intros H a b c d. unfold same_div_fn in H. unfold div_big_bz_3n_2n, debug_max_shift_zero. cbv zeta.
  rewrite (sm_MAX D1 D2 HD).
  apply same_bind; [same|]. intros u1. apply same_bind; [same|]. intros u2.
  apply same_bind; [same|]. intros u3.
  apply same_drop with 1; [rewrite (sm_dbg D1 D2 HD); reflexivity|]. intros top.
  apply same_drop with tt; [rewrite (sm_dbg D1 D2 HD); reflexivity|]. intros u4. same.
Qed.
Lemma same_2n_n_step f g : same_div_fn f g -> same_div_fn (div_big_bz_2n_n_step D1 f) (div_big_bz_2n_n_step D2 g).
Proof.
  intros H a b c d. pose proof (same_3n_2n f g H) as H3. unfold same_div_fn in H3.
  pose proof (same_div_gen no_bz no_bz (fun a b c d => same_refl _)) as H4.
  unfold div_big_bz_2n_n_step, debug_max_shift_zero. cbv zeta.
  apply same_bind; [same|]. intros u1. apply same_bind; [same|]. intros u2.
  apply same_bind; [same|]. intros u3.
  apply same_drop with 1; [rewrite (sm_dbg D1 D2 HD); reflexivity|]. intros top.
  apply same_drop with tt; [rewrite (sm_dbg D1 D2 HD); reflexivity|]. intros u4. same.
Qed.
Lemma same_bz_fuel n : same_div_fn (bz_fuel D1 n) (bz_fuel D2 n).
Proof.
  induction n as [|n IH]; [intros a b c d; apply same_refl|]. cbn [bz_fuel]. apply same_2n_n_step, IH.
Qed.
Lemma same_2n_n a b c d : same (div_big_bz_2n_n D1 a b c d) (div_big_bz_2n_n D2 a b c d).
Proof. apply same_bz_fuel. Qed.
Local Hint Resolve same_2n_n : same.
Lemma same_blocks i n a b c d : same (bz_blocks D1 i n a b c d) (bz_blocks D2 i n a b c d).
Proof. revert a c d. induction i as [|i IH]; intros a c d; cbn [bz_blocks]; same. Qed.
Local Hint Resolve same_blocks : same.
Lemma same_bz a b c d : same (div_big_bz D1 a b c d) (div_big_bz D2 a b c d).
Proof. unfold div_big_bz. same. Qed.
Lemma same_div_with_work a b c d : same (div_big_with_work D1 a b c d) (div_big_with_work D2 a b c d).
Proof.
  unfold div_big_with_work. apply same_div_gen. intros x y z w. apply same_bind; [same|].
  intros u. apply same_bz.
Qed.
Local Hint Resolve same_div_with_work : same.
Lemma same_div_big a b c : same (div_big D1 a b c) (div_big D2 a b c).
Proof. unfold div_big. same. Qed.
Local Hint Resolve same_div_big : same.

(** *** ubig.rs, ops.rs *)
Lemma same_add_offset l m n : same (add_assign_big_at_offset D1 l m n) (add_assign_big_at_offset D2 l m n).
Proof. unfold add_assign_big_at_offset. same. Qed.
Lemma same_sub_offset l m n : same (sub_assign_big_at_offset D1 l m n) (sub_assign_big_at_offset D2 l m n).
Proof. unfold sub_assign_big_at_offset. same. Qed.
Lemma same_ubig_mul_add l f o : same (ubig_mul_add_assign_digit D1 l f o) (ubig_mul_add_assign_digit D2 l f o).
Proof. unfold ubig_mul_add_assign_digit. same. Qed.
Lemma same_ubig_mul_pair l x y o :
  same (ubig_mul_pair_add_assign_digit D1 l x y o) (ubig_mul_pair_add_assign_digit D2 l x y o).
Proof. unfold ubig_mul_pair_add_assign_digit. same. Qed.
Lemma same_mul_big x y : same (mul_big D1 x y) (mul_big D2 x y).
Proof. unfold mul_big. same. Qed.
Lemma same_square x : same (square D1 x) (square D2 x).
Proof. unfold square. same. Qed.
Lemma same_ubig_div_digit l f : same (ubig_div_assign_digit D1 l f) (ubig_div_assign_digit D2 l f).
Proof. unfold ubig_div_assign_digit. same. Qed.
Lemma same_ubig_div_pair l x y : same (ubig_div_assign_digit_pair D1 l x y) (ubig_div_assign_digit_pair D2 l x y).
Proof. unfold ubig_div_assign_digit_pair. same. Qed.
Lemma same_div_assign_big x y : same (div_assign_big D1 x y) (div_assign_big D2 x y).
Proof. unfold div_assign_big. same. Qed.
Lemma same_rem_assign_big x y : same (rem_assign_big D1 x y) (rem_assign_big D2 x y).
Proof. unfold rem_assign_big. same. Qed.
Local Hint Resolve same_add_offset same_sub_offset same_ubig_mul_add same_ubig_mul_pair same_mul_big same_square
  same_ubig_div_digit same_ubig_div_pair same_div_assign_big same_rem_assign_big : same.
Lemma same_add_d x d : same (add_assign_d D1 x d) (add_assign_d D2 x d).
Proof. unfold add_assign_d. same. Qed.
Lemma same_div_d x d : same (div_assign_d D1 x d) (div_assign_d D2 x d).
Proof. unfold div_assign_d. same. Qed.
Lemma same_mul_d x d : same (mul_assign_d D1 x d) (mul_assign_d D2 x d).
Proof. unfold mul_assign_d. same. Qed.
Lemma same_rem_d x d : same (rem_assign_d D1 x d) (rem_assign_d D2 x d).
Proof. unfold rem_assign_d. same. Qed.
Lemma same_rem_ref_d x d : same (rem_ref_d D1 x d) (rem_ref_d D2 x d).
Proof. unfold rem_ref_d. same. Qed.
Lemma same_sub_d x d : same (sub_assign_d D1 x d) (sub_assign_d D2 x d).
Proof. unfold sub_assign_d. same. Qed.
Lemma same_add x y : same (add_assign D1 x y) (add_assign D2 x y).
Proof. unfold add_assign. same. Qed.
Lemma same_sub x y : same (sub_assign D1 x y) (sub_assign D2 x y).
Proof. unfold sub_assign. same. Qed.
Lemma same_mul x y : same (mul_assign D1 x y) (mul_assign D2 x y).
Proof. unfold mul_assign. same. Qed.
Lemma same_div x y : same (div_assign D1 x y) (div_assign D2 x y).
Proof. unfold div_assign. same. Qed.
Lemma same_rem x y : same (rem_assign D1 x y) (rem_assign D2 x y).
Proof. unfold rem_assign. same. Qed.
Local Hint Resolve same_mul : same.
Lemma same_pow_loop n r p : same (pow_loop D1 n r p) (pow_loop D2 n r p).
Proof. revert r p. induction n as [n IH|n IH|]; intros r p; cbn [pow_loop]; same. Qed.
Local Hint Resolve same_pow_loop : same.
Lemma same_pow x e : same (pow D1 x e) (pow D2 x e).
Proof. unfold pow. destruct e as [|[p|p|]]; same. Qed.
End Functions.

(** *** typed operations, parsing, decimal conversion *)
Section Typed.
Variable t : dty.
Let HD : digit_same (impl true t) (impl false t) := impl_same t.

Ltac dsame := lazymatch goal with
  | |- same (add_assign_digit _ _ _) _ => apply (same_add_assign_digit _ _ HD)
  | |- same (sub_assign_digit _ _ _) _ => apply (same_sub_assign_digit _ _ HD)
  | |- same (add_assign_d _ _ _) _ => apply (same_add_d _ _ HD)
  | |- same (sub_assign_d _ _ _) _ => apply (same_sub_d _ _ HD)
  | |- same (mul_assign_d _ _ _) _ => apply (same_mul_d _ _ HD)
  | |- same (div_assign_d _ _ _) _ => apply (same_div_d _ _ HD)
  | |- same (rem_assign_d _ _ _) _ => apply (same_rem_d _ _ HD)
  | |- same (ubig_mul_pair_add_assign_digit _ _ _ _ _) _ => apply (same_ubig_mul_pair _ _ HD)
  | |- same (ubig_div_assign_digit_pair _ _ _ _) _ => apply (same_ubig_div_pair _ _ HD)
  | |- same (add_assign _ _ _) _ => apply (same_add _ _ HD)
  | |- same (mul_assign _ _ _) _ => apply (same_mul _ _ HD)
  | |- same (pow _ _ _) _ => apply (same_pow _ _ HD)
  | |- same (square _ _) _ => apply (same_square _ _ HD)
  | |- same (shl_carry_assign_within_digit _ _ _ _) _ => apply (same_shl_within _ _ HD)
  | |- same (shr_carry_assign_within_digit _ _ _ _) _ => apply (same_shr_within _ _ HD)
  | |- same (ubig_mul_add_assign_digit _ _ _ _) _ => apply (same_ubig_mul_add _ _ HD)
  | |- same (div_assign_big _ _ _) _ => apply (same_div_assign_big _ _ HD)
  end.
Local Hint Extern 1 (same _ _) => dsame : same.

Lemma same_add_T x n : same (add_assign_T true t x n) (add_assign_T false t x n).
Proof. unfold add_assign_T. same. Qed.
Lemma same_sub_T x n : same (sub_assign_T true t x n) (sub_assign_T false t x n).
Proof. unfold sub_assign_T. same. Qed.
Lemma same_mul_T x n : same (mul_assign_T true t x n) (mul_assign_T false t x n).
Proof. unfold mul_assign_T. same. Qed.
Lemma same_div_T x n : same (div_assign_T true t x n) (div_assign_T false t x n).
Proof. unfold div_assign_T. same. Qed.
Lemma same_rem_T x n : same (rem_assign_T true t x n) (rem_assign_T false t x n).
Proof. unfold rem_assign_T. same. Qed.
Lemma same_shl x n : same (shl_assign true t x n) (shl_assign false t x n).
Proof. unfold shl_assign. same. Qed.
Lemma same_shr x n : same (shr_assign true t x n) (shr_assign false t x n).
Proof. unfold shr_assign. same. Qed.
Lemma same_push b l : push_digits true t b l = push_digits false t b l.
Proof. induction l as [|p l IH]; cbn [push_digits]; [reflexivity|]. rewrite IH, (sm_str _ _ HD). reflexivity. Qed.
Lemma same_mul_parts b s l r : same (mul_add_parts true t b s l r) (mul_add_parts false t b s l r).
Proof.
  revert r. induction l as [|p l IH]; intros r; cbn [mul_add_parts]; [same|].
  rewrite (sm_str _ _ HD). same.
Qed.
Local Hint Resolve same_mul_parts : same.
Lemma same_from_str s : same (from_str true t s) (from_str false t s).
Proof. unfold from_str, from_str_bin, from_str_dec. same; rewrite same_push; same. Qed.
End Typed.

Section ToDecimal.
Variable t : dty.
Lemma same_build_small ds top : same (build_small true t ds top) (build_small false t ds top).
Proof.
  induction ds as [|d ds IH]; cbn [build_small]; [same|]. apply same_bind; [exact IH|]. intros r.
  apply same_bind; [apply same_shl|]. intros r2. apply same_bind; [apply same_shl|]. intros r3. apply same_add_T.
Qed.
Lemma same_build_decimal f x scales : same (build_decimal true t f x scales) (build_decimal false t f x scales).
Proof.
  revert x. induction f as [|f IH]; intros x; cbn [build_decimal]; [same|].
  pose proof same_build_small as H. pose proof (same_div_assign_big _ _ (impl_same t)) as H2. same.
Qed.
Lemma same_build_scales f tot nr x : same (build_scales true t f tot nr x) (build_scales false t f tot nr x).
Proof.
  revert nr x. induction f as [|f IH]; intros nr x; cbn [build_scales]; [same|].
  pose proof (same_square _ _ (impl_same t)) as H. same.
Qed.
Lemma same_to_decimal x : same (to_decimal true t x) (to_decimal false t x).
Proof.
  pose proof same_build_decimal as H. pose proof same_build_scales as H2. unfold to_decimal. same.
Qed.
Lemma same_display f x : same (fmt_display_bin true t f x) (fmt_display_bin false t f x).
Proof. pose proof same_to_decimal as H. unfold fmt_display_bin. same. Qed.
End ToDecimal.
