(** * PowProof: products, squares and powers of whole numbers (src/ubig.rs, src/ubig/ops.rs). *)
From Coq Require Import ZArith List Bool Lia.
From Verif Require Import Base Digit Slice Mul Div UBig Spec Hoare DigitOK ListLemmas SliceProof
  MulProof BufProof WorkSize KaratsubaProof ToomProof ToomMain MulTopProof UBigProof.
Import ListNotations.
Open Scope Z_scope.
Open Scope m_scope.

Section PowProof.
Variables (B : Z) (D : digit).
Hypothesis OK : digit_ok B D.
Notation val := (value B).
Notation digs := (below B).
Notation "'p' n" := (pw B n) (at level 10, n at level 9).
Let HB : 1 < B := SliceProof.HB B D OK.
Hint Resolve HB : core.

Definition prodpost (v : Z) (r : digits) : Prop := digs r /\ normal r /\ val r = v.

Lemma is_zero_nil x : ubig_is_zero x = true -> x = [].
Proof. destruct x; [reflexivity|discriminate]. Qed.
Lemma not_zero_cons x : ubig_is_zero x = false -> x <> [].
Proof. destruct x; [discriminate|intros _ E; discriminate E]. Qed.

Lemma mul_big_ok tot x y : digs x -> digs y -> good tot x y ->
  spec (allowed tot) (mul_big D x y) (prodpost (val x * val y)).
Proof.
  intros D0 D1 Hg. unfold mul_big.
  destruct (ubig_is_zero x) eqn:E0; cbn [orb].
  { apply is_zero_nil in E0. subst. ret. unfold prodpost, ubig_zero. conj; auto using below_nil, normal_nil. }
  destruct (ubig_is_zero y) eqn:E1.
  { apply is_zero_nil in E1. subst. ret. unfold prodpost, ubig_zero.
    conj; auto using below_nil, normal_nil. cbn. lia. }
  eapply spec_bind.
  { apply (mul_into_ok B D OK tot); auto; [apply below_zeros; auto|].
    intros _ _. rewrite zeros_length. lia. }
  intros [r n] (L & Dr & H1 & H2 & V & N). ret. unfold prodpost, truncate. conj; auto.
  apply below_firstn, Dr.
Qed.

Lemma square_ok tot x : digs x -> good tot x x -> (length x <= 1131)%nat ->
  spec (allowed tot) (square D x) (prodpost (val x * val x)).
Proof.
  intros D0 Hg HL. unfold square.
  destruct (ubig_is_zero x) eqn:E0.
  { apply is_zero_nil in E0. subst. ret. unfold prodpost, ubig_zero. conj; auto using below_nil, normal_nil. }
  eapply spec_bind.
  { apply (square_into_ok B D OK tot); auto; [apply below_zeros; auto|rewrite zeros_length; lia|].
    right. split; [apply value_zeros|assumption]. }
  intros [r n] (L & Dr & H1 & H2 & V & N). ret. unfold prodpost, truncate. conj; auto.
  apply below_firstn, Dr.
Qed.

(** a normal number below [B^k] has at most [k] digits *)
Lemma normal_short l k : digs l -> normal l -> val l < p k -> (length l <= k)%nat.
Proof.
  intros Hd Hn Hv. destruct l as [|d t] eqn:E; [cbn; lia|]. rewrite <- E in *.
  pose proof (normal_lower B HB l Hd Hn ltac:(subst; discriminate)) as H.
  assert (p (length l - 1) < p k) by lia.
  assert ((length l - 1 < k)%nat) by (apply (pw_lt_inv B D OK); assumption). lia.
Qed.

Lemma pow_ge_base a n : 1 <= n -> 0 <= a -> a <= a ^ n.
Proof.
  intros Hn Ha. destruct (Z.eq_dec a 0) as [->|]; [rewrite Z.pow_0_l; lia|].
  replace n with (1 + (n - 1)) by lia. rewrite Z.pow_add_r by lia.
  pose proof (Z.pow_pos_nonneg a (n - 1) ltac:(lia) ltac:(lia)). nia.
Qed.

Lemma pow_sq a n : 0 <= n -> (a * a) ^ n = a ^ (2 * n).
Proof. intros Hn. rewrite Z.pow_mul_r by lia. f_equal. lia. Qed.

Definition powguard (tot : bool) (a q n : Z) : Prop :=
  tot = true -> (a = 0 -> q = 0) /\ a * q ^ (2 * n) < p 40.

Lemma guard_short tot a q n x : 1 <= n -> 0 <= a -> 0 <= q -> powguard tot a q n -> tot = true ->
  digs x -> normal x -> val x = q -> (length x <= 40)%nat.
Proof.
  intros Hn Ha Hq Hg Ht Hd Hx Hv. destruct (Hg Ht) as [H0 H1].
  apply normal_short; auto. rewrite Hv. clear Hg.
  destruct (Z.eq_dec a 0) as [E|NE]; [rewrite (H0 E); apply pw_pos; auto|].
  pose proof (pow_ge_base q (2 * n) ltac:(lia) Hq). nia.
Qed.

Lemma step_square tot a power n : 1 <= n -> 0 <= a -> digs power -> normal power ->
  val power ^ n < p 1131 -> powguard tot a (val power) n ->
  spec (allowed tot) (square D power) (prodpost (val power * val power)).
Proof.
  intros Hn Ha Hd Hx Hlim Hg. pose proof (value_nonneg B HB power Hd) as V1.
  pose proof (pow_ge_base (val power) n Hn V1). apply square_ok; auto.
  - intros Ht. right. right.
    assert (length power <= 40)%nat by (eapply guard_short; try exact Hg; eauto). tauto.
  - apply normal_short; auto. lia.
Qed.

Lemma step_mul tot result power sq n : 1 <= n -> digs result -> normal result -> digs power ->
  digs sq -> normal sq -> val sq = val power * val power ->
  powguard tot (val result) (val power) n ->
  spec (allowed tot) (mul_assign D result sq) (prodpost (val result * (val power * val power))).
Proof.
  intros Hn D0 N0 D1 D2 N2 V2 Hg. unfold mul_assign. rewrite <- V2. apply mul_big_ok; auto.
  intros Ht. destruct (Hg Ht) as [H0 H1]. clear Hg.
  pose proof (value_nonneg B HB result D0) as V0. pose proof (value_nonneg B HB power D1) as V1.
  destruct (Z.eq_dec (val power) 0) as [E|NE].
  { right. left. rewrite E in V2. assert (length sq <= 0)%nat; [|lia].
    apply normal_short; auto. rewrite pw_0. lia. }
  assert (val result <> 0) by (intros E; apply NE, H0, E).
  pose proof (pow_ge_base (val power * val power) n Hn ltac:(nia)) as Hp.
  rewrite pow_sq in Hp by lia.
  right. right. conj; auto; apply normal_short; auto.
  - nia.
  - rewrite V2. nia.
Qed.

Lemma guard_next tot a q n a' n' : 1 <= n' -> powguard tot a q n -> (a = 0 -> a' = 0) ->
  (a' = 0 -> a = 0 \/ q = 0) ->
  a' * (q * q) ^ (2 * n') = a * q ^ (2 * n) -> powguard tot a' (q * q) n'.
Proof.
  intros Hn Hg H1 H2 E Ht. destruct (Hg Ht) as [H0 H]. split; [|lia].
  intros Ea. destruct (H2 Ea) as [H3|H3]; [rewrite (H0 H3)|rewrite H3]; reflexivity.
Qed.

Lemma lim_next q n n' : 0 <= q -> 1 <= n' -> 2 * n' <= n -> q ^ n < p 1131 -> (q * q) ^ n' < p 1131.
Proof.
  intros Hq Hn Hle Hlim. rewrite pow_sq by lia.
  destruct (Z.eq_dec q 0) as [->|]; [rewrite Z.pow_0_l by lia; apply pw_pos; auto|].
  pose proof (Z.pow_le_mono_r q (2 * n') n ltac:(lia) Hle). lia.
Qed.

Lemma pow_loop_ok tot n : forall result power, digs result -> normal result -> digs power -> normal power ->
  val power ^ Z.pos n < p 1131 -> powguard tot (val result) (val power) (Z.pos n) ->
  spec (allowed tot) (pow_loop D n result power) (prodpost (val result * val power ^ (2 * Z.pos n))).
Proof.
  induction n as [n IH|n IH|]; intros result power D0 N0 D1 N1 Hlim Hg.
  all: pose proof (value_nonneg B HB result D0) as V0; pose proof (value_nonneg B HB power D1) as V1.
  all: cbn [pow_loop]; eapply spec_bind; [eapply step_square; [| |exact D1|exact N1|exact Hlim|exact Hg]; lia|].
  all: intros sq (D2 & N2 & V2).
  - eapply spec_bind; [eapply (step_mul tot result power sq (Z.pos n~1)); auto; lia|].
    intros r (D3 & N3 & V3).
    assert (E : val r * (val power * val power) ^ (2 * Z.pos n)
                = val result * val power ^ (2 * Z.pos n~1)).
    { rewrite V3, pow_sq by lia. replace (2 * Z.pos n~1) with (2 * (2 * Z.pos n) + 2) by lia.
      rewrite (Z.pow_add_r _ _ 2) by lia. rewrite Z.pow_2_r. ring. }
    eapply spec_post; [apply IH; auto|].
    + rewrite V2. eapply lim_next; [assumption| | |exact Hlim]; lia.
    + rewrite V2. eapply guard_next; [lia|exact Hg| | |exact E]; rewrite V3; [intros ->; lia|].
      intros E0. apply Z.mul_eq_0 in E0. destruct E0 as [E0|E0]; [auto|].
      apply Z.mul_eq_0 in E0. tauto.
    + rewrite V2, E. auto.
  - assert (E : val result * (val power * val power) ^ (2 * Z.pos n)
                = val result * val power ^ (2 * Z.pos n~0)).
    { rewrite pow_sq by lia. do 2 f_equal; lia. }
    eapply spec_post; [apply IH; auto|].
    + rewrite V2. eapply lim_next; [assumption| | |exact Hlim]; lia.
    + rewrite V2. eapply guard_next; [lia|exact Hg| | |exact E]; auto.
    + rewrite V2, E. auto.
  - replace (val power ^ (2 * 1)) with (val power * val power) by (rewrite Z.pow_2_r; reflexivity).
    eapply (step_mul tot result power sq 1); auto; lia.
Qed.

Lemma one_ok : prodpost 1 ubig_one.
Proof.
  unfold prodpost, ubig_one. conj; [|apply normal_single; discriminate|cbn [value]; lia].
  apply below_cons. split; [lia|apply below_nil].
Qed.

Lemma pow_ok tot x (e : N) : digs x -> normal x ->
  val x ^ Z.of_N (e / 2) < p 1131 -> (tot = true -> val x ^ Z.of_N e < p 40) ->
  spec (allowed tot) (pow D x e) (prodpost (val x ^ Z.of_N e)).
Proof.
  intros Hd Hn Hlim Htot. unfold pow.
  pose proof (value_nonneg B HB x Hd) as V0.
  assert (Hgen : (3 <= e)%N -> spec (allowed tot)
    (let result := if N.even e then ubig_one else x in
     match (e / 2)%N with N0 => Ret result | Npos n => pow_loop D n result x end)
    (prodpost (val x ^ Z.of_N e))).
  { intros He. cbv zeta. destruct (e / 2)%N as [|n] eqn:E.
    { apply N.div_small_iff in E; lia. }
    assert (Hr : forall r, prodpost (if N.even e then 1 else val x) r ->
      spec (allowed tot) (pow_loop D n r x) (prodpost (val x ^ Z.of_N e))).
    { intros r (D1 & N1 & V1).
      assert (Ev : val r * val x ^ (2 * Z.pos n) = val x ^ Z.of_N e).
      { rewrite V1. pose proof (N.div_mod e 2 ltac:(lia)) as Hdm. rewrite E in Hdm.
        destruct (N.even e) eqn:Ee.
        - apply N.even_spec in Ee. destruct Ee as [k Hk].
          assert (e mod 2 = 0)%N by (rewrite Hk, N.mul_comm; apply N.mod_mul; lia).
          rewrite Z.mul_1_l. f_equal. lia.
        - rewrite <- N.negb_odd in Ee. apply negb_false_iff, N.odd_spec in Ee. destruct Ee as [k Hk].
          assert (e mod 2 = 1)%N by (rewrite Hk, N.add_comm, N.mul_comm; apply N.mod_add; lia).
          replace (Z.of_N e) with (2 * Z.pos n + 1) by lia. rewrite Z.pow_add_r by lia.
          rewrite Z.pow_1_r. ring. }
      eapply spec_post; [apply (pow_loop_ok tot n r x); auto|].
      - intros Ht. rewrite Ev. split; [|apply Htot, Ht]. rewrite V1. destruct (N.even e); lia.
      - rewrite Ev. auto. }
    apply Hr. destruct (N.even e); [apply one_ok|]. unfold prodpost. auto. }
  assert (H1 : prodpost (val x ^ 1) x) by (rewrite Z.pow_1_r; unfold prodpost; auto).
  assert (H2 : e = 2%N -> spec (allowed tot) (square D x) (prodpost (val x ^ 2))).
  { intros ->. change (Z.of_N (2 / 2)) with 1 in Hlim. rewrite Z.pow_1_r in Hlim.
    change (Z.of_N 2) with 2 in Htot. rewrite Z.pow_2_r in *. apply square_ok; auto.
    - intros Ht. right; right. assert (length x <= 40)%nat; [|tauto].
      apply normal_short; auto. specialize (Htot Ht). nia.
    - apply normal_short; auto. }
  destruct e as [|[q|[q|q|]|]]; try (apply Hgen; lia).
  - ret. change (Z.of_N 0) with 0. rewrite Z.pow_0_r. apply one_ok.
  - apply H2. reflexivity.
  - ret. exact H1.
Qed.
End PowProof.
