(** * BenchProof: the candidates of benches/divbase.rs all divide by 10^19. *)
From Coq Require Import ZArith List Bool Lia.
From Verif Require Import Base Digit Bench Spec Hoare DigitOK.
Import ListNotations.
Open Scope Z_scope.
Open Scope m_scope.

Notation R := 10000000000000000000.

Lemma mul_inv_base_ok dbg n : 0 <= n < R * R -> mul_inv_base dbg n = Ret (n / R, n mod R).
Proof. intros H. change (mul_inv_base dbg n) with (div_rem_base dbg R n). apply div_rem_base_ok. lia. Qed.

Lemma div_op_base_ok n : 0 <= n < R * 2 ^ 64 -> div_op_base n = Ret (n / R, n mod R).
Proof.
  intros H. unfold div_op_base. change BENCH_RADIX with R.
  rewrite w_div_ok, w_rem_ok by lia. cbn [bind].
  assert (Hd := div_mod_eq n R ltac:(reflexivity)).
  rewrite !wrap_id by lia. reflexivity.
Qed.

(** ** The three-multiplication variant *)
Definition scale2 : Z := 2126764793255865396 * 2 ^ 64 + 11918280793837635165.

Lemma reciprocal2_exact n : 0 <= n < R * R -> n * scale2 / 2 ^ 188 = n / R.
Proof.
  intros Hn. assert (Hd := div_mod_eq n R ltac:(reflexivity)).
  set (q := n / R) in *. set (r := n mod R) in *.
  assert (Hs : scale2 * R = 2 ^ 188 + 3602784720997842944) by reflexivity.
  assert (Hnm : n * scale2 * R = n * 2 ^ 188 + n * 3602784720997842944)
    by (rewrite <- Z.mul_assoc, Hs; ring).
  symmetry. apply Z.div_unique with (n * scale2 - 2 ^ 188 * q); [left|ring].
  split.
  - apply Z.mul_le_mono_pos_r with R; [lia|].
    replace ((n * scale2 - 2 ^ 188 * q) * R) with (n * scale2 * R - 2 ^ 188 * (R * q)) by ring. lia.
  - apply Z.mul_lt_mono_pos_r with R; [lia|].
    replace ((n * scale2 - 2 ^ 188 * q) * R) with (n * scale2 * R - 2 ^ 188 * (R * q)) by ring. lia.
Qed.

Lemma mul_inv_base_2_ok dbg n : 0 <= n < R * R -> mul_inv_base_2 dbg n = Ret (n / R, n mod R).
Proof.
  intros Hn. unfold mul_inv_base_2. change BENCH_RADIX with R.
  rewrite land_ones' by lia.
  assert (Hd := div_mod_eq n (2 ^ 64) ltac:(reflexivity)).
  rewrite w_shr_ok by lia. cbn [bind].
  pose proof (reciprocal2_exact n Hn) as Hrec.
  set (nl := n mod 2 ^ 64) in *. set (nh := n / 2 ^ 64) in *.
  assert (Hnh : 0 <= nh <= 5421010862427522170) by lia.
  rewrite w_add_ok by lia. cbn [bind].
  rewrite w_mul_ok by lia. cbn [bind].
  rewrite w_mul_ok by lia. cbn [bind].
  rewrite w_mul_ok by lia. cbn [bind].
  rewrite w_sub_ok by lia. cbn [bind].
  rewrite w_sub_ok by lia. cbn [bind].
  rewrite w_shr_ok by lia. cbn [bind].
  assert (H1 := div_mod_eq (11918280793837635165 * nl) (2 ^ 64) ltac:(reflexivity)).
  set (c1 := 11918280793837635165 * nl / 2 ^ 64) in *.
  rewrite w_add_ok by lia. cbn [bind].
  rewrite w_shr_ok by lia. cbn [bind].
  set (a := 14045045587093500561 * (nl + nh) - 11918280793837635165 * nl - 2126764793255865396 * nh + c1) in *.
  assert (H2 := div_mod_eq a (2 ^ 64) ltac:(reflexivity)).
  set (c2 := a / 2 ^ 64) in *.
  rewrite w_add_ok by lia. cbn [bind].
  rewrite w_shr_ok by lia. cbn [bind].
  assert (H3 := div_mod_eq (2126764793255865396 * nh + c2) (2 ^ 60) ltac:(reflexivity)).
  set (c3 := (2126764793255865396 * nh + c2) / 2 ^ 60) in *.
  assert (Hq : c3 = n / R).
  { rewrite <- Hrec. unfold scale2.
    apply Z.div_unique with
      ((11918280793837635165 * nl) mod 2 ^ 64 + 2 ^ 64 * (a mod 2 ^ 64)
       + 2 ^ 128 * ((2126764793255865396 * nh + c2) mod 2 ^ 60)); [left|]; lia. }
  rewrite Hq. assert (Hr := div_mod_eq n R ltac:(reflexivity)).
  clear H1 H2 H3 Hq Hrec. clearbody c1 a c2 c3.
  rewrite w_mul_ok by lia. cbn [bind].
  rewrite w_sub_ok by lia. cbn [bind].
  rewrite !wrap_id by lia. do 2 f_equal. lia.
Qed.

(** ** Long division in base 2^32 *)
Lemma w_shl_wrap dbg w a s : 0 <= s < w -> w_shl dbg w a s = Ret (wrap w (a * 2 ^ s)).
Proof.
  intros Hs. unfold w_shl. destruct (Z.leb_spec 0 s), (Z.ltb_spec s w); cbn; try lia.
  rewrite Z.shiftl_mul_pow2 by lia. reflexivity.
Qed.
Lemma fix_quot_ok dbg n q : 0 <= n < 2 ^ 96 -> n / R <= q <= n / R + 2 -> q < 2 ^ 33 ->
  fix_quot dbg n q (q * R) = Ret (n / R, n / R * R).
Proof.
  intros Hn Hq Hb. assert (Hd := div_mod_eq n R ltac:(reflexivity)).
  assert (H0 : 0 <= n / R) by (apply Z.div_pos; lia).
  unfold fix_quot. change BENCH_RADIX with R.
  destruct (Z.ltb_spec n (q * R)) as [H1|H1].
  - rewrite w_sub_ok by lia. cbn [bind]. rewrite w_sub_ok by lia. cbn [bind].
    destruct (Z.ltb_spec n (q * R - R)) as [H2|H2].
    + rewrite w_sub_ok by lia. cbn [bind]. rewrite w_sub_ok by lia. cbn [bind].
      assert (q = n / R + 2) by lia. do 2 f_equal; lia.
    + assert (q = n / R + 1) by lia. do 2 f_equal; lia.
  - assert (q = n / R) by lia. do 2 f_equal; lia.
Qed.

Lemma quot_estimate n : 0 <= n < 2 ^ 96 ->
  n / R <= n / 2 ^ 32 / 2328306436 <= n / R + 2 /\ n / 2 ^ 32 / 2328306436 < 2 ^ 33.
Proof.
  intros Hn. assert (Hd := div_mod_eq n R ltac:(reflexivity)).
  assert (H1 := div_mod_eq n (2 ^ 32) ltac:(reflexivity)).
  assert (H2 := div_mod_eq (n / 2 ^ 32) 2328306436 ltac:(reflexivity)).
  lia.
Qed.

Lemma div_long_base_all dbg n : 0 <= n < 2 ^ 128 -> div_long_base dbg n = Ret ((n / R) mod 2 ^ 64, n mod R).
Proof.
  intros Hn. unfold div_long_base. change BENCH_RADIX with R.
  rewrite w_shr_ok by lia. cbn [bind]. change (R / 2 ^ 32) with 2328306436.
  rewrite w_shr_ok by lia. cbn [bind]. set (n0 := n / 2 ^ 32).
  assert (Hd := div_mod_eq n (2 ^ 32) ltac:(reflexivity)). fold n0 in Hd.
  assert (Hn0 : 0 <= n0 < 2 ^ 96) by lia.
  rewrite w_shr_ok by lia. cbn [bind].
  assert (Hd0 := div_mod_eq n0 (2 ^ 32) ltac:(reflexivity)).
  rewrite wrap_id by lia. rewrite w_div_ok by lia. cbn [bind].
  destruct (quot_estimate n0 Hn0) as [E1 E2].
  assert (E0 : 0 <= n0 / R) by (apply Z.div_pos; lia).
  rewrite w_mul_ok by lia. cbn [bind].
  rewrite (fix_quot_ok dbg n0) by lia. cbn [bind].
  assert (Hr0 := div_mod_eq n0 R ltac:(reflexivity)).
  rewrite w_sub_ok by lia. cbn [bind].
  replace (n0 - n0 / R * R) with (n0 mod R) by lia.
  rewrite w_shl_ok by lia. cbn [bind].
  rewrite land_ones' by lia.
  rewrite lor_add by lia.
  set (n1 := n0 mod R * 2 ^ 32 + n mod 2 ^ 32).
  assert (Hn1 : 0 <= n1 < R * 2 ^ 32) by lia.
  assert (Hd1 := div_mod_eq n1 (2 ^ 32) ltac:(reflexivity)).
  rewrite w_shr_ok by lia. cbn [bind].
  rewrite wrap_id by lia. rewrite w_div_ok by lia. cbn [bind].
  destruct (quot_estimate n1 ltac:(lia)) as [F1 F2].
  assert (F0 : 0 <= n1 / R) by (apply Z.div_pos; lia).
  rewrite w_mul_ok by lia. cbn [bind].
  rewrite (fix_quot_ok dbg n1) by lia. cbn [bind].
  assert (Hr1 := div_mod_eq n1 R ltac:(reflexivity)).
  rewrite w_sub_ok by lia. cbn [bind].
  assert (G1 : n1 / R < 2 ^ 32) by (apply Z.div_lt_upper_bound; lia).
  assert (EN : n = R * (n0 / R * 2 ^ 32 + n1 / R) + n1 mod R) by lia.
  assert (EQ : n / R = n0 / R * 2 ^ 32 + n1 / R) by (symmetry; apply Z.div_unique with (n1 mod R); [left|]; lia).
  rewrite w_shl_wrap by lia. cbn [bind].
  assert (Hm := div_mod_eq (n0 / R) (2 ^ 32) ltac:(reflexivity)).
  assert (W : (n0 / R * 2 ^ 32) mod 2 ^ 64 = (n0 / R) mod 2 ^ 32 * 2 ^ 32).
  { symmetry. apply Z.mod_unique with (n0 / R / 2 ^ 32); [left|]; lia. }
  unfold wrap at 1. rewrite W. rewrite lor_add by lia. rewrite wrap_id by lia.
  do 2 f_equal.
  - rewrite EQ. apply Z.mod_unique with (n0 / R / 2 ^ 32); [left|]; lia.
  - replace (n1 - n1 / R * R) with (n1 mod R) by lia.
    apply Z.mod_unique with (n0 / R * 2 ^ 32 + n1 / R); [left|]; lia.
Qed.
Lemma div_long_base_ok dbg n : 0 <= n < R * 2 ^ 64 -> div_long_base dbg n = Ret (n / R, n mod R).
Proof.
  intros Hn. rewrite div_long_base_all by lia. assert (Hd := div_mod_eq n R ltac:(reflexivity)).
  rewrite Z.mod_small by lia. reflexivity.
Qed.
Lemma div_op_base_all n : 0 <= n -> div_op_base n = Ret ((n / R) mod 2 ^ 64, n mod R).
Proof.
  intros H. unfold div_op_base. change BENCH_RADIX with R.
  rewrite w_div_ok, w_rem_ok by lia. cbn [bind].
  assert (Hd := div_mod_eq n R ltac:(reflexivity)).
  rewrite (wrap_id 64 (n mod R)) by lia. reflexivity.
Qed.

(** ** The division instruction *)
Lemma divq_base_ok dbg n : 0 <= n < 2 ^ 128 ->
  divq_base dbg n = if n <? R * 2 ^ 64 then Ret (n / R, n mod R) else Panic PDivZero.
Proof.
  intros Hn. unfold divq_base, divq. change BENCH_RADIX with R. rewrite w_shr_ok by lia. cbn [bind].
  assert (Hd := div_mod_eq n (2 ^ 64) ltac:(reflexivity)).
  rewrite (wrap_id 64 (n / 2 ^ 64)) by lia.
  replace (n / 2 ^ 64 * 2 ^ 64 + wrap 64 n) with n by (unfold wrap; lia).
  change (R =? 0) with false. cbv iota.
  assert (Hr := div_mod_eq n R ltac:(reflexivity)).
  destruct (Z.ltb_spec n (R * 2 ^ 64)) as [H|H]; destruct (Z.leb_spec (2 ^ 64) (n / R)) as [H1|H1]; try reflexivity; lia.
Qed.

(** ** All 128-bit numbers, debug builds: right or refused *)
Lemma checked_either w x : checked true w x = Panic POverflow \/ (0 <= x < 2 ^ w /\ checked true w x = Ret x).
Proof.
  unfold checked. destruct (Z.leb_spec 0 x); [|left; reflexivity].
  destruct (Z.ltb_spec x (2 ^ w)); [right|left; reflexivity]. split; [lia|reflexivity].
Qed.
Lemma checked_bind {A} w x (k : Z -> M A) (P : M A -> Prop) :
  P (Panic POverflow) -> (0 <= x < 2 ^ w -> P (k x)) -> P (bind (checked true w x) k).
Proof.
  intros HP Hk. destruct (checked_either w x) as [E|[H E]]; rewrite E; cbn [bind]; auto.
Qed.
Definition right_or_refused (n : Z) (m : M (Z * Z)) : Prop :=
  m = Ret ((n / R) mod 2 ^ 64, n mod R) \/ m = Panic POverflow.
Ltac w_step := apply (checked_bind 128 _ _ (right_or_refused _)); [right; reflexivity|intros ?].
Lemma mul_inv_base_debug n : 0 <= n < 2 ^ 128 ->
  right_or_refused n (mul_inv_base true n).
Proof.
  intros Hn. unfold mul_inv_base. change BENCH_RADIX with R.
  rewrite land_ones' by lia.
  assert (Hd := div_mod_eq n (2 ^ 64) ltac:(reflexivity)).
  rewrite w_shr_ok by lia. cbn [bind].
  set (nl := n mod 2 ^ 64) in *. set (nh := n / 2 ^ 64) in *.
  w_step. rewrite w_shr_ok by lia. cbn [bind].
  assert (H1' := div_mod_eq (6225051964306646475 * nl) (2 ^ 64) ltac:(reflexivity)).
  set (c1 := 6225051964306646475 * nl / 2 ^ 64) in *.
  do 4 w_step. rewrite w_shr_ok by lia. cbn [bind].
  set (a := 6225051964306646475 * nh + 15581492618384294730 * nl + c1) in *.
  assert (H2' := div_mod_eq a (2 ^ 64) ltac:(reflexivity)).
  set (c2 := a / 2 ^ 64) in *.
  do 3 w_step. rewrite w_shr_ok by lia. cbn [bind].
  set (b := 15581492618384294730 * nh + c2 + nl) in *.
  assert (H3' := div_mod_eq b (2 ^ 64) ltac:(reflexivity)).
  set (c3 := b / 2 ^ 64) in *.
  w_step. w_step. w_step.
  left. assert (Hr := div_mod_eq n R ltac:(reflexivity)).
  assert (Hq : c3 + nh = n / R) by lia.
  rewrite Hq. unfold wrap. rewrite (Z.mod_small (n - n / R * R)) by lia. do 2 f_equal. lia.
Qed.

Lemma mul_inv_base_2_debug n : 0 <= n < 2 ^ 128 -> right_or_refused n (mul_inv_base_2 true n).
Proof.
  intros Hn. unfold mul_inv_base_2. change BENCH_RADIX with R.
  rewrite land_ones' by lia.
  assert (Hd := div_mod_eq n (2 ^ 64) ltac:(reflexivity)).
  rewrite w_shr_ok by lia. cbn [bind].
  set (nl := n mod 2 ^ 64) in *. set (nh := n / 2 ^ 64) in *.
  do 6 w_step. rewrite w_shr_ok by lia. cbn [bind].
  assert (H1' := div_mod_eq (11918280793837635165 * nl) (2 ^ 64) ltac:(reflexivity)).
  set (c1 := 11918280793837635165 * nl / 2 ^ 64) in *.
  w_step. rewrite w_shr_ok by lia. cbn [bind].
  set (a := 14045045587093500561 * (nl + nh) - 11918280793837635165 * nl - 2126764793255865396 * nh + c1) in *.
  assert (H2' := div_mod_eq a (2 ^ 64) ltac:(reflexivity)).
  set (c2 := a / 2 ^ 64) in *.
  w_step. rewrite w_shr_ok by lia. cbn [bind].
  assert (H3' := div_mod_eq (2126764793255865396 * nh + c2) (2 ^ 60) ltac:(reflexivity)).
  set (c3 := (2126764793255865396 * nh + c2) / 2 ^ 60) in *.
  w_step. w_step.
  left. assert (Hr := div_mod_eq n R ltac:(reflexivity)).
  assert (Hq : c3 = n / R) by lia.
  rewrite Hq. unfold wrap. rewrite (Z.mod_small (n - n / R * R)) by lia. do 2 f_equal. lia.
Qed.

(** ** The fold over the inputs *)
Lemma test_div_ext op op' nums : Forall (fun n => op n = op' n) nums -> test_div_base op nums = test_div_base op' nums.
Proof.
  unfold test_div_base. generalize 0 at 1 3. generalize 0. induction nums as [|n l IH]; intros a b H; [reflexivity|].
  inversion H as [|? ? H1 H2]; subst. cbn [test_div_from]. rewrite H1. destruct (op' n) as [[q r]|w|]; cbn [bind]; auto.
Qed.
Lemma test_div_ok op nums : Forall (fun n => op n = Ret (n / R, n mod R)) nums ->
  test_div_base op nums = Ret (fold_left (fun a n => Z.lxor a (n / R)) nums 0, fold_left (fun a n => Z.lxor a (n mod R)) nums 0).
Proof.
  unfold test_div_base. generalize 0 at 2 4. generalize 0. induction nums as [|n l IH]; intros a b H; [reflexivity|].
  inversion H as [|? ? H1 H2]; subst. cbn [test_div_from fold_left]. rewrite H1. cbn [bind]. apply IH, H2.
Qed.
