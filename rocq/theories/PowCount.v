(** * PowCount: powers of numbers with leading zeros. *)
From Coq Require Import ZArith NArith List Bool Lia.
From Verif Require Import Base Digit Slice Mul Div UBig Spec SpecMul SpecToom Hoare DigitOK ListLemmas SliceProof
  MulProof UBigProof PowProof DivProof TypedProof KaraExact Cases ClaimsBasic ClaimsMul ClaimsKara ToomJam ClaimsToom
  PowExact SpecHist SpecCount.
Import ListNotations.
Open Scope Z_scope.
Open Scope m_scope.

Section Pow.
Variables (dbg : bool) (t : dty).
Notation B := (radix t).
Notation D := (impl dbg t).
Notation fits := (fits t).

(** the number whose digits are counted by [c] *)
Definition ends (P : Prop) (m : M digits) (c : cell) : Prop :=
  (P /\ m = Panic (PUnwrap Underflow)) \/ (~ P /\ exists s, m = Ret s /\ fits s c).
Lemma ends_iff P Q m c : (P <-> Q) -> ends P m c -> ends Q m c.
Proof. unfold ends. tauto. Qed.
Lemma ends_bind P J Q m c k d : ends J m c -> (P <-> J \/ Q) ->
  (forall s, fits s c -> ends Q (k s) d) -> ends P (bind m k) d.
Proof.
  intros [[S ->]|[S (s & -> & Fs)]] HP HK.
  - left. split; [tauto|reflexivity].
  - cbn [bind]. apply (ends_iff Q); [tauto|]. apply HK; assumption.
Qed.
Lemma wf_fits x v : well_formed t x -> num t x = v -> fits x (Cell (places B v) v).
Proof.
  intros [V N] <-. split; [exact V|]. cbn. split; [|reflexivity]. symmetry.
  apply (normal_places B D (impl_ok dbg t)); assumption.
Qed.

Lemma jam_cases x y : valid t x -> valid t y -> jam_product t x y \/ ~ jam_product t x y.
Proof.
  intros V V'. pose proof (jam_computed t x y V V') as C.
  destruct (jam_check t x y); [left; tauto|right]. intros H. apply C in H. discriminate H.
Qed.
Lemma mul_ends x y c d : fits x c -> fits y d ->
  ends (jam B (width c) (worth c) (width d) (worth d)) (mul_assign D x y)
    (Cell (places B (worth c * worth d)) (worth c * worth d)).
Proof.
  intros (V & L & E) (V' & L' & E'). destruct (mul_jam_claim dbg t x y V V') as [H1 H2].
  rewrite <- L, <- L', <- E, <- E'. change (ends (jam_product t x y) (mul_assign D x y)
    (Cell (places B (num t x * num t y)) (num t x * num t y))).
  destruct (jam_cases x y V V') as [J|J]; [left; auto|right]. split; [exact J|].
  destruct (H2 J) as (r & R1 & R2 & R3). exists r. split; [exact R1|]. apply wf_fits; assumption.
Qed.
Lemma square_ends x c : fits x c -> (width c <= 1131)%nat ->
  ends (jam B (width c) (worth c) (width c) (worth c)) (square D x)
    (Cell (places B (worth c * worth c)) (worth c * worth c)).
Proof.
  intros (V & L & E) HL. rewrite <- L in HL. destruct (square_jam_claim dbg t x V HL) as [H1 H2].
  rewrite <- L, <- E. change (ends (jam_product t x x) (square D x)
    (Cell (places B (num t x * num t x)) (num t x * num t x))).
  destruct (jam_cases x x V V) as [J|J]; [left; auto|right]. split; [exact J|].
  destruct (H2 J) as (r & R1 & R2 & R3). exists r. split; [exact R1|]. apply wf_fits; assumption.
Qed.

Variables (m : nat) (v e : Z).
Hypothesis Hv : 0 <= v.
Hypothesis He : 0 <= e.
Notation cnt := (raised B m v).
Hypothesis Hlim : forall i, 0 <= i -> 2 ^ (i + 1) <= e -> (cnt (2 ^ i) <= 1131)%nat.

Definition power k := Cell (cnt k) (v ^ k).
Definition sq_jam i := jam B (cnt (2 ^ i)) (v ^ 2 ^ i) (cnt (2 ^ i)) (v ^ 2 ^ i).
Definition mul_jam i := jam B (cnt (e mod 2 ^ i)) (v ^ (e mod 2 ^ i)) (cnt (2 ^ i)) (v ^ 2 ^ i).

(** what is left to do from the binary digit [j] on *)
Definition rest (j : Z) : Prop := exists i, j <= i /\
  (2 ^ (i + 1) <= e /\ sq_jam i \/ j < i /\ Z.testbit e i = true /\ mul_jam i).

Lemma rest_step j : 0 <= j -> rest j <->
  (2 ^ (j + 1) <= e /\ sq_jam j)
  \/ (Z.testbit e (j + 1) = true /\ mul_jam (j + 1))
  \/ rest (j + 1).
Proof.
  intros Hj. split.
  - intros (i & Hi & [[H1 H2]|(H0 & H1 & H2)]).
    + destruct (Z.eq_dec i j) as [->|]; [left; auto|]. right; right. exists i. split; [lia|]. left. auto.
    + destruct (Z.eq_dec i (j + 1)) as [->|]; [right; left; auto|]. right; right. exists i. split; [lia|].
      right. split; [lia|auto].
  - intros [[H1 H2]|[[H1 H2]|(i & Hi & H)]].
    + exists j. split; [lia|]. left. auto.
    + exists (j + 1). split; [lia|]. right. split; [lia|auto].
    + exists i. split; [lia|]. destruct H as [H|(H0 & H)]; [left; exact H|right; split; [lia|exact H]].
Qed.
Lemma rest_end j : 0 <= j -> e < 2 ^ (j + 1) -> ~ rest j.
Proof.
  intros Hj HL (i & Hi & [[H1 _]|(H0 & H1 & _)]).
  - pose proof (Z.pow_le_mono_r 2 (j + 1) (i + 1) ltac:(lia) ltac:(lia)). lia.
  - destruct (Z.eq_dec e 0) as [E|]; [rewrite E, Z.testbit_0_l in H1; discriminate H1|].
    rewrite Z.bits_above_log2 in H1; [discriminate H1|exact He|].
    apply Z.log2_lt_pow2; [lia|]. eapply Z.lt_le_trans; [exact HL|]. apply Z.pow_le_mono_r; lia.
Qed.

Lemma cnt_ge k : 2 <= k -> cnt k = places B (v ^ k).
Proof. intros H. unfold raised. destruct (Z.eqb_spec k 1); [lia|reflexivity]. Qed.
Lemma power_sum a b s : 0 <= a -> 0 <= b -> 2 <= a + b ->
  fits s (Cell (places B (v ^ a * v ^ b)) (v ^ a * v ^ b)) -> fits s (power (a + b)).
Proof. intros Ha Hb H. rewrite <- Z.pow_add_r by lia. unfold power. rewrite cnt_ge by lia. auto. Qed.

(** the state before the binary digit [j + 1] is looked at *)
Lemma loop_ends : forall n j result pwr, 0 <= j -> e / 2 ^ (j + 1) = Z.pos n ->
  fits result (power (e mod 2 ^ (j + 1))) -> fits pwr (power (2 ^ j)) ->
  ends (rest j) (pow_loop D n result pwr) (power e).
Proof.
  assert (Hcom : forall n j, 0 <= j -> e / 2 ^ (j + 1) = Z.pos n ->
    0 < 2 ^ j /\ 2 ^ (j + 1) = 2 * 2 ^ j /\ 2 ^ (j + 2) = 2 * 2 ^ (j + 1)
    /\ e = 2 ^ (j + 1) * Z.pos n + e mod 2 ^ (j + 1) /\ 2 ^ (j + 1) <= e
    /\ 0 <= e mod 2 ^ (j + 1) < 2 ^ (j + 1)).
  { intros n j Hj En.
    assert (P0 : 0 < 2 ^ j) by (apply Z.pow_pos_nonneg; lia).
    assert (P1 : 0 < 2 ^ (j + 1)) by (apply Z.pow_pos_nonneg; lia).
    assert (P2 : 2 ^ (j + 1) = 2 * 2 ^ j) by (rewrite Z.pow_add_r by lia; lia).
    assert (P3 : 2 ^ (j + 2) = 2 * 2 ^ (j + 1)).
    { replace (j + 2) with (1 + (j + 1)) by lia. rewrite Z.pow_add_r by lia. reflexivity. }
    pose proof (Z.div_mod e (2 ^ (j + 1)) ltac:(lia)) as E. rewrite En in E.
    pose proof (Z.mod_pos_bound e (2 ^ (j + 1)) P1) as M.
    assert (2 ^ (j + 1) * 1 <= 2 ^ (j + 1) * Z.pos n) by (apply Z.mul_le_mono_nonneg_l; lia).
    repeat split; lia. }
  induction n as [n IH|n IH|]; intros j result pwr Hj En Fr Fp;
    destruct (Hcom _ j Hj En) as (P0 & P2 & P3 & E & Hle & M); cbn [pow_loop].
  all: assert (HS : forall Q, (rest j <-> (2 ^ (j + 1) <= e /\ sq_jam j) \/ Q) -> (rest j <-> sq_jam j \/ Q))
    by (intros Q HQ; rewrite HQ; clear - Hle; tauto).
  all: assert (Hbit : Z.testbit e (j + 1) = Z.odd (e / 2 ^ (j + 1))) by (apply bit_div; lia).
  all: rewrite En in Hbit; cbn [Z.odd] in Hbit.
  all: pose proof (square_ends pwr (power (2 ^ j)) Fp (Hlim j Hj Hle)) as Hsq.
  all: cbn [power width worth] in Hsq; fold (sq_jam j) in Hsq.
  all: eapply ends_bind; [exact Hsq|apply HS, rest_step, Hj|].
  all: intros sq Fs; apply power_sum in Fs; [|lia|lia|lia]; replace (2 ^ j + 2 ^ j) with (2 ^ (j + 1)) in Fs by lia.
  - assert (EN : e / 2 ^ (j + 1 + 1) = Z.pos n /\ e mod 2 ^ (j + 1 + 1) = e mod 2 ^ (j + 1) + 2 ^ (j + 1)).
    { replace (j + 1 + 1) with (j + 2) by lia. rewrite P3.
      split; symmetry; [apply (Z.div_unique_pos _ _ _ (e mod 2 ^ (j + 1) + 2 ^ (j + 1)))|apply (Z.mod_unique_pos _ _ (Z.pos n))]; lia. }
    destruct EN as [EN EM].
    eapply (ends_bind _ (mul_jam (j + 1)) (rest (j + 1))); [apply (mul_ends _ _ _ _ Fr Fs)| |].
    { rewrite Hbit. clear. tauto. }
    intros r Fr'. apply IH; auto; [lia|]. rewrite EM. apply power_sum; try lia. exact Fr'.
  - assert (EN : e / 2 ^ (j + 1 + 1) = Z.pos n /\ e mod 2 ^ (j + 1 + 1) = e mod 2 ^ (j + 1)).
    { replace (j + 1 + 1) with (j + 2) by lia. rewrite P3.
      split; symmetry; [apply (Z.div_unique_pos _ _ _ (e mod 2 ^ (j + 1)))|apply (Z.mod_unique_pos _ _ (Z.pos n))]; lia. }
    destruct EN as [EN EM].
    apply (ends_iff (rest (j + 1))); [|apply IH; auto; [lia|rewrite EM; exact Fr]].
    rewrite Hbit. split; [auto|]. intros [[H _]|H]; [discriminate H|exact H].
  - apply (ends_iff (mul_jam (j + 1))).
    { rewrite Hbit. split; [tauto|]. intros [[_ H]|H]; [exact H|].
      exfalso. revert H. apply rest_end; [lia|]. replace (j + 1 + 1) with (j + 2) by lia. lia. }
    pose proof (mul_ends _ _ _ _ Fr Fs) as H. cbn [power width worth] in H.
    destruct H as [[J ->]|[J (s & -> & F)]]; [left; auto|right]. split; [exact J|]. exists s.
    split; [reflexivity|]. apply power_sum in F; [|lia|lia|lia].
    replace (e mod 2 ^ (j + 1) + 2 ^ (j + 1)) with e in F by lia. exact F.
Qed.

Lemma rest_raise : jam_raise B m v e <-> rest 0.
Proof.
  split; intros (i & H); exists i.
  - destruct H as [(H1 & H2)|(H1 & H2)]; (split; [lia|]); [left; auto|right; split; [lia|auto]].
  - destruct H as [H0 [H|(H1 & H2)]]; [left; auto|right; split; [lia|auto]].
Qed.
End Pow.

Section Top.
Variables (dbg : bool) (t : dty).
Notation B := (radix t).
Notation D := (impl dbg t).

Lemma fits_nonneg x c : fits t x c -> 0 <= worth c.
Proof. intros (V & _ & <-). apply (value_nonneg _ (radix_gt t)), V. Qed.

(** one of the factors is small *)
Lemma few_free m v n w : (m <= 19 \/ n <= 19)%nat -> ~ jam B m v n w.
Proof. intros H. rewrite jam_below by lia. intros S. apply stuck_inv in S. destruct S as [[H1 H2] _]. lia. Qed.

Lemma pow_ends x e m v : fits t x (Cell m v) ->
  (forall i, 0 <= i -> 2 ^ (i + 1) <= Z.of_N e -> (raised B m v (2 ^ i) <= 1131)%nat) ->
  ends t (jam_raise B m v (Z.of_N e)) (pow D x e) (power t m v (Z.of_N e)).
Proof.
  intros F HL. set (E := Z.of_N e) in *.
  assert (HE : 0 <= E) by apply N2Z.is_nonneg.
  assert (Hv : 0 <= v) by apply (fits_nonneg _ _ F).
  apply (ends_iff t (rest t m v E 0)); [symmetry; apply rest_raise, Hv|].
  assert (F1 : fits t ubig_one (power t m v 0)).
  { destruct (one_ok _ _ (impl_ok dbg t)) as (H1 & H2 & H3).
    apply (wf_fits dbg); [split; assumption|rewrite Z.pow_0_r; exact H3]. }
  assert (Fx : fits t x (power t m v 1)).
  { unfold power, raised. change (1 =? 1) with true. cbv iota. rewrite Z.pow_1_r. exact F. }
  assert (Hsmall : E < 2 -> ~ rest t m v E 0) by (intros HS; apply rest_end; try assumption; lia).
  destruct (N.eq_dec e 0) as [->|N0].
  { right. split; [apply Hsmall; unfold E; lia|]. exists ubig_one. split; [reflexivity|exact F1]. }
  destruct (N.eq_dec e 1) as [->|N1].
  { right. split; [apply Hsmall; unfold E; lia|]. exists x. split; [reflexivity|exact Fx]. }
  destruct (N.eq_dec e 2) as [->|N2].
  { change (pow D x 2) with (square D x). change E with 2 in *.
    apply (ends_iff t (jam B m v m v)).
    - rewrite rest_step by lia. unfold sq_jam at 1. change (2 ^ 0) with 1. unfold raised at 1 2.
      change (1 =? 1) with true. cbv iota. rewrite (Z.pow_1_r v).
      split; [intros H; left; split; [reflexivity|exact H]|]. intros [[_ H]|[[_ H]|H]]; [exact H| |].
      + exfalso. revert H. unfold mul_jam. change (2 mod 2 ^ (0 + 1)) with 0. apply few_free. left.
        unfold raised. change (0 =? 1) with false. cbv iota. rewrite Z.pow_0_r.
        apply (places_le B D (impl_ok dbg t)). unfold pw. destruct t; split; first [discriminate|reflexivity].
      + exfalso. revert H. apply rest_end; first [assumption|lia|reflexivity].
    - specialize (HL 0 ltac:(lia) ltac:(reflexivity)). unfold raised in HL. cbn in HL.
      pose proof (square_ends dbg t x _ F HL) as H. cbn [width worth] in H.
      unfold power, raised. change (2 =? 1) with false. cbv iota. replace (v ^ 2) with (v * v) by lia. exact H. }
  assert (Hpow : pow D x e = match (e / 2)%N with
      | N0 => Ret (if N.even e then ubig_one else x)
      | Npos n => pow_loop D n (if N.even e then ubig_one else x) x end).
  { destruct e as [|[q|[q|q|]|]]; try reflexivity; contradiction. }
  rewrite Hpow. destruct (e / 2)%N as [|n] eqn:Eh.
  { exfalso. apply N.div_small_iff in Eh; lia. }
  assert (Ed : E / 2 = Z.pos n) by (unfold E; change 2 with (Z.of_N 2); rewrite <- N2Z.inj_div, Eh; reflexivity).
  assert (Em : E mod 2 = if N.even e then 0 else 1).
  { rewrite Zmod_even. unfold E. destruct e as [|[q|q|]]; reflexivity. }
  apply loop_ends; try assumption; try lia.
  change (2 ^ (0 + 1)) with 2. rewrite Em. destruct (N.even e); assumption.
Qed.

(** without leading zeros this is the condition of SpecToom.v *)
Lemma raised_tight v k : raised B (places B v) v k = places B (v ^ k).
Proof. unfold raised. destruct (Z.eqb_spec k 1) as [->|]; [rewrite Z.pow_1_r|]; reflexivity. Qed.
Lemma raise_tight v e : jam_raise B (places B v) v e <-> jam_power B v e.
Proof.
  unfold jam_raise, jam_power, jam_at.
  split; intros (i & H); exists i; revert H; rewrite !raised_tight; auto.
Qed.

Lemma shl_large_ends x n m v : is_binary t = false -> fits t x (Cell m v) -> 0 <= n ->
  4 * Z.of_nat (MAX_HEX_PLACES t) < n ->
  (forall i, 0 <= i -> 2 ^ (i + 1) <= n -> 2 ^ 2 ^ i < B ^ 1131) ->
  ends t (jam_power B 2 n \/ jam B m v (places B (2 ^ n)) (2 ^ n)) (shl_assign dbg t x n)
    (Cell (places B (v * 2 ^ n)) (v * 2 ^ n)).
Proof.
  intros Hb F Hn Hs HL. unfold shl_assign. rewrite Hb.
  replace (n <=? 4 * Z.of_nat (MAX_HEX_PLACES t)) with false by (symmetry; apply Z.leb_gt; lia).
  destruct (total_inv _ _ (two_ok dbg t)) as (two & -> & D2 & N2 & V2). cbn [bind].
  pose proof (pow_outcome dbg t two (Z.to_N n) (conj D2 N2)) as HO.
  change (value B two = 2) with (num t two = 2) in V2.
  rewrite V2, Z2N.id in HO by lia. destruct (HO HL) as [[S ->]|[S (s & -> & Ws & Es)]].
  - left. split; [left; exact S|reflexivity].
  - cbn [bind]. apply (ends_iff t (jam B m v (places B (2 ^ n)) (2 ^ n))); [tauto|].
    apply (mul_ends dbg t x s _ _ F (wf_fits dbg t s _ Ws Es)).
Qed.
End Top.
