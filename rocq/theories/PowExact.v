(** * PowExact: exactly when powers, and left shifts of decimal numbers, stop. *)
From Coq Require Import ZArith NArith List Bool Lia.
From Verif Require Import Base Digit Slice Mul Div UBig Spec SpecMul SpecToom Hoare DigitOK ListLemmas SliceProof
  MulProof UBigProof PowProof DivProof TypedProof KaraExact Cases ClaimsBasic ClaimsMul ClaimsKara ToomJam ClaimsToom.
Import ListNotations.
Open Scope Z_scope.
Open Scope m_scope.

Section Pow.
Variables (dbg : bool) (t : dty).
Notation B := (radix t).
Notation D := (impl dbg t).

Lemma jam_wf x y : well_formed t x -> well_formed t y ->
  (jam_product t x y <-> jam_at B (num t x) (num t y)).
Proof.
  intros [Vx Nx] [Vy Ny]. unfold jam_product, jam_at, num.
  rewrite !(normal_places B D (impl_ok dbg t)) by assumption. reflexivity.
Qed.
Lemma wf_nonneg' x : well_formed t x -> 0 <= num t x.
Proof. intros W. apply (value_nonneg _ (radix_gt t)), W. Qed.
Lemma short_wf x n : well_formed t x -> num t x < B ^ Z.of_nat n -> (length x <= n)%nat.
Proof. intros [V N] H. apply (normal_short _ _ (impl_ok dbg t)); assumption. Qed.

Variables (v e : Z).
Hypothesis Hv : 0 <= v.

(** what is left to do from the binary digit [j] on *)
Definition left_from (j : Z) : Prop := exists i, j <= i /\
  (2 ^ (i + 1) <= e /\ jam_at B (v ^ 2 ^ i) (v ^ 2 ^ i)
   \/ j < i /\ Z.testbit e i = true /\ jam_at B (v ^ (e mod 2 ^ i)) (v ^ 2 ^ i)).

Definition outcome (P : Prop) (m : M digits) (r : Z) : Prop :=
  (P /\ m = Panic (PUnwrap Underflow))
  \/ (~ P /\ exists s, m = Ret s /\ well_formed t s /\ num t s = r).
Lemma outcome_split P m r : outcome P m r ->
  (P -> m = Panic (PUnwrap Underflow))
  /\ (~ P -> exists s, m = Ret s /\ well_formed t s /\ num t s = r).
Proof. unfold outcome. tauto. Qed.
Lemma outcome_join (P : Prop) m r : P \/ ~ P ->
  (P -> m = Panic (PUnwrap Underflow)) ->
  (~ P -> exists s, m = Ret s /\ well_formed t s /\ num t s = r) -> outcome P m r.
Proof. unfold outcome. tauto. Qed.

Lemma outcome_iff P Q m r : (P <-> Q) -> outcome P m r -> outcome Q m r.
Proof. unfold outcome. tauto. Qed.

Lemma jam_at_dec x y : well_formed t x -> well_formed t y ->
  jam_at B (num t x) (num t y) \/ ~ jam_at B (num t x) (num t y).
Proof.
  intros W W'. pose proof (jam_wf x y W W') as S. pose proof (jam_computed t x y (proj1 W) (proj1 W')) as C.
  destruct (jam_check t x y); [left; tauto|right]. intros H. apply S, C in H. discriminate H.
Qed.

Lemma square_outcome x : well_formed t x -> (length x <= 1131)%nat ->
  outcome (jam_at B (num t x) (num t x)) (square D x) (num t x * num t x).
Proof.
  intros W L. destruct (square_jam_claim dbg t x (proj1 W) L) as [H1 H2].
  pose proof (jam_wf x x W W) as [S1 S2]. apply outcome_join; [apply jam_at_dec; assumption|auto|].
  intros H. apply H2. auto.
Qed.
Lemma mul_outcome x y : well_formed t x -> well_formed t y ->
  outcome (jam_at B (num t x) (num t y)) (mul_assign D x y) (num t x * num t y).
Proof.
  intros W W'. destruct (mul_jam_claim dbg t x y (proj1 W) (proj1 W')) as [H1 H2].
  pose proof (jam_wf x y W W') as [S1 S2]. apply outcome_join; [apply jam_at_dec; assumption|auto|].
  intros H. apply H2. auto.
Qed.
(** one multiplication, and then the rest *)
Lemma outcome_bind P Q x y m r k w :
  outcome (jam_at B (num t x) (num t y)) m r ->
  (P <-> jam_at B (num t x) (num t y) \/ Q) ->
  (forall s, well_formed t s -> num t s = r -> ~ jam_at B (num t x) (num t y) -> outcome Q (k s) w) ->
  outcome P (bind m k) w.
Proof.
  intros [[S ->]|[S (s & -> & Ws & Es)]] HP HK.
  - left. split; [tauto|reflexivity].
  - cbn [bind]. apply (outcome_iff Q); [tauto|]. apply HK; assumption.
Qed.

Hypothesis He : 0 <= e.
(** no number of more than 1131 digits is squared *)
Hypothesis Hlim : forall i, 0 <= i -> 2 ^ (i + 1) <= e -> v ^ 2 ^ i < B ^ 1131.

Lemma small_length x i : 0 <= i -> 2 ^ (i + 1) <= e -> well_formed t x -> num t x = v ^ 2 ^ i ->
  (length x <= 1131)%nat.
Proof. intros Hi H W E. apply short_wf; [exact W|]. rewrite E. apply Hlim; assumption. Qed.

Lemma left_step j : 0 <= j -> left_from j <->
  (2 ^ (j + 1) <= e /\ jam_at B (v ^ 2 ^ j) (v ^ 2 ^ j))
  \/ (Z.testbit e (j + 1) = true /\ jam_at B (v ^ (e mod 2 ^ (j + 1))) (v ^ 2 ^ (j + 1)))
  \/ left_from (j + 1).
Proof.
  intros Hj. split.
  - intros (i & Hi & [[H1 H2]|(H0 & H1 & H2)]).
    + destruct (Z.eq_dec i j) as [->|]; [left; auto|]. right; right. exists i. split; [lia|]. left. auto.
    + destruct (Z.eq_dec i (j + 1)) as [->|]; [right; left; auto|]. right; right. exists i. split; [lia|].
      right. split; [lia|auto].
  - intros [[H1 H2]|[[H1 H2]|(i & Hi & H)]].
    + exists j. split; [lia|]. left. auto.
    + exists (j + 1). split; [lia|]. right. split; [lia|auto].
    + exists i. split; [lia|]. destruct H as [H|(H0 & H)]; [left; exact H|right; split; [lia|exact H]].
Qed.
Lemma left_end j : 0 <= j -> e < 2 ^ (j + 1) -> ~ left_from j.
Proof.
  intros Hj HL (i & Hi & [[H1 _]|(H0 & H1 & _)]).
  - pose proof (Z.pow_le_mono_r 2 (j + 1) (i + 1) ltac:(lia) ltac:(lia)). lia.
  - destruct (Z.eq_dec e 0) as [E|]; [rewrite E, Z.testbit_0_l in H1; discriminate H1|].
    rewrite Z.bits_above_log2 in H1; [discriminate H1|exact He|].
    apply Z.log2_lt_pow2; [lia|]. eapply Z.lt_le_trans; [exact HL|]. apply Z.pow_le_mono_r; lia.
Qed.

Lemma bit_div j : 0 <= j -> Z.testbit e j = Z.odd (e / 2 ^ j).
Proof.
  intros Hj. rewrite Z.testbit_odd, Z.shiftr_div_pow2 by lia. reflexivity.
Qed.

(** the state before the binary digit [j + 1] is looked at *)
Lemma pow_loop_exact : forall n j result power, 0 <= j -> e / 2 ^ (j + 1) = Z.pos n ->
  well_formed t result -> well_formed t power ->
  num t result = v ^ (e mod 2 ^ (j + 1)) -> num t power = v ^ 2 ^ j ->
  outcome (left_from j) (pow_loop D n result power) (v ^ e).
Proof.
  assert (Hcom : forall n j result power, 0 <= j -> e / 2 ^ (j + 1) = Z.pos n ->
    well_formed t result -> well_formed t power ->
    num t result = v ^ (e mod 2 ^ (j + 1)) -> num t power = v ^ 2 ^ j ->
    0 < 2 ^ (j + 1) /\ 2 ^ (j + 1) = 2 * 2 ^ j /\ 2 ^ (j + 2) = 2 * 2 ^ (j + 1)
    /\ e = 2 ^ (j + 1) * Z.pos n + e mod 2 ^ (j + 1)
    /\ 0 <= e mod 2 ^ (j + 1) < 2 ^ (j + 1) /\ (length power <= 1131)%nat).
  { intros n j result power Hj En Wr Wp Er Ep.
    assert (P1 : 0 < 2 ^ (j + 1)) by (apply Z.pow_pos_nonneg; lia).
    assert (P2 : 2 ^ (j + 1) = 2 * 2 ^ j) by (rewrite Z.pow_add_r by lia; lia).
    assert (P3 : 2 ^ (j + 2) = 2 * 2 ^ (j + 1)).
    { replace (j + 2) with (1 + (j + 1)) by lia. rewrite Z.pow_add_r by lia. reflexivity. }
    pose proof (Z.div_mod e (2 ^ (j + 1)) ltac:(lia)) as E. rewrite En in E.
    pose proof (Z.mod_pos_bound e (2 ^ (j + 1)) P1) as M.
    assert (2 ^ (j + 1) * 1 <= 2 ^ (j + 1) * Z.pos n) by (apply Z.mul_le_mono_nonneg_l; lia).
    repeat split; try lia. apply (small_length power j); auto. lia. }
  induction n as [n IH|n IH|]; intros j result power Hj En Wr Wp Er Ep;
    destruct (Hcom _ j result power Hj En Wr Wp Er Ep) as (P1 & P2 & P3 & E & M & Lp);
    cbn [pow_loop].
  all: assert (HS : forall Q, (left_from j <-> (2 ^ (j + 1) <= e /\ jam_at B (v ^ 2 ^ j) (v ^ 2 ^ j)) \/ Q) ->
         (left_from j <-> jam_at B (num t power) (num t power) \/ Q))
    by (intros Q HQ; rewrite Ep, HQ; assert (2 ^ (j + 1) <= e) by nia; tauto).
  all: assert (Hsq : forall s, num t s = num t power * num t power -> num t s = v ^ 2 ^ (j + 1))
    by (intros s Es; rewrite Es, Ep, P2, <- Z.pow_add_r by lia; f_equal; lia).
  all: assert (Hbit : Z.testbit e (j + 1) = Z.odd (e / 2 ^ (j + 1))) by (apply bit_div; lia).
  all: rewrite En in Hbit; cbn [Z.odd] in Hbit.
  - eapply (outcome_bind _ _ power power); [apply square_outcome; assumption|apply HS, left_step, Hj|].
    intros sq Ws Es _. apply Hsq in Es.
    assert (EN : e / 2 ^ (j + 1 + 1) = Z.pos n /\ e mod 2 ^ (j + 1 + 1) = 2 ^ (j + 1) + e mod 2 ^ (j + 1)).
    { replace (j + 1 + 1) with (j + 2) by lia. rewrite P3. 
      split; symmetry; [apply (Z.div_unique_pos _ _ _ (2 ^ (j + 1) + e mod 2 ^ (j + 1)))|apply (Z.mod_unique_pos _ _ (Z.pos n))]; lia. }
    destruct EN as [EN EM].
    eapply (outcome_bind _ (left_from (j + 1)) result sq); [apply mul_outcome; auto| |].
    { rewrite Er, Es. clear - Hbit. tauto. }
    intros r Wr' Er' _. apply IH; auto; [lia|]. rewrite EM, Er', Er, Es, <- Z.pow_add_r by lia. f_equal. lia.
  - eapply (outcome_bind _ _ power power); [apply square_outcome; assumption|apply HS, left_step, Hj|].
    intros sq Ws Es _. apply Hsq in Es.
    assert (EN : e / 2 ^ (j + 1 + 1) = Z.pos n /\ e mod 2 ^ (j + 1 + 1) = e mod 2 ^ (j + 1)).
    { replace (j + 1 + 1) with (j + 2) by lia. rewrite P3. 
      split; symmetry; [apply (Z.div_unique_pos _ _ _ (e mod 2 ^ (j + 1)))|apply (Z.mod_unique_pos _ _ (Z.pos n))]; lia. }
    destruct EN as [EN EM].
    apply (outcome_iff (left_from (j + 1))); [|apply IH; auto; [lia|rewrite EM; exact Er]].
    rewrite Hbit. split; [auto|]. intros [[H _]|H]; [discriminate H|exact H].
  - eapply (outcome_bind _ _ power power); [apply square_outcome; assumption|apply HS, left_step, Hj|].
    intros sq Ws Es _. apply Hsq in Es.
    replace (v ^ e) with (num t result * num t sq).
    2: { rewrite Er, Es, <- Z.pow_add_r by lia. f_equal. lia. }
    apply (outcome_iff (jam_at B (num t result) (num t sq))); [|apply mul_outcome; auto].
    rewrite Er, Es. rewrite Hbit. split; [tauto|]. intros [[_ H]|H]; [exact H|].
    exfalso. revert H. apply left_end; [lia|]. replace (j + 1 + 1) with (j + 2) by lia. lia.
Qed.
End Pow.

Section Top.
Variables (dbg : bool) (t : dty).
Notation B := (radix t).
Notation D := (impl dbg t).

Lemma free_at v w : 0 <= v -> 0 <= w -> v < B ^ 19 \/ w < B ^ 19 -> ~ jam_at B v w.
Proof.
  intros Hv Hw H.
  assert (P : forall u, 0 <= u -> u < B ^ 19 -> (places B u <= 19)%nat)
    by (intros u Hu HL; apply (places_le B D (impl_ok dbg t)); split; [exact Hu|exact HL]).
  assert (Q : (places B v <= 19 \/ places B w <= 19)%nat) by (destruct H; auto).
  unfold jam_at. rewrite jam_below by lia. intros S. apply stuck_inv in S. destruct S as [[H1 H2] _]. lia.
Qed.

Lemma left_power v e : jam_power B v e <-> left_from t v e 0.
Proof.
  split; intros (i & H); exists i.
  - destruct H as [(H1 & H2)|(H1 & H2)]; (split; [lia|]); [left; auto|right; split; [lia|auto]].
  - destruct H as [H0 [H|(H1 & H2)]]; [left; auto|right; split; [lia|auto]].
Qed.

Lemma pow_outcome x e : well_formed t x -> (forall i, 0 <= i -> 2 ^ (i + 1) <= Z.of_N e -> num t x ^ 2 ^ i < B ^ 1131) ->
  outcome t (jam_power B (num t x) (Z.of_N e)) (pow D x e) (num t x ^ Z.of_N e).
Proof.
  intros W HL. set (v := num t x) in *. set (E := Z.of_N e).
  assert (HE : 0 <= E) by apply N2Z.is_nonneg.
  assert (Hv : 0 <= v) by (apply wf_nonneg'; exact W).
  apply (outcome_iff t (left_from t v E 0)); [symmetry; apply left_power|].
  assert (W1 : well_formed t ubig_one /\ num t ubig_one = 1).
  { destruct (one_ok _ _ (impl_ok dbg t)) as (H1 & H2 & H3). split; [split; assumption|exact H3]. }
  destruct W1 as [W1 V1].
  assert (Hsmall : E < 2 -> ~ left_from t v E 0) by (intros HS; apply left_end; try assumption; lia).
  destruct (N.eq_dec e 0) as [->|N0].
  { right. split; [apply Hsmall; unfold E; lia|]. exists ubig_one. cbn [pow].
    split; [reflexivity|]. split; [exact W1|]. rewrite V1. symmetry. apply Z.pow_0_r. }
  destruct (N.eq_dec e 1) as [->|N1].
  { right. split; [apply Hsmall; unfold E; lia|]. exists x. cbn [pow].
    split; [reflexivity|]. split; [exact W|]. symmetry. apply Z.pow_1_r. }
  destruct (N.eq_dec e 2) as [->|N2].
  { change (pow D x 2) with (square D x). change E with 2 in *. replace (v ^ 2) with (v * v) by lia.
    apply (outcome_iff t (jam_at B v v)).
    - rewrite left_step by lia. rewrite !Z.pow_1_r. replace (v ^ 2 ^ 0) with v by (change (2 ^ 0) with 1; lia).
      split; [intros H; left; split; [reflexivity|exact H]|]. intros [[_ H]|[[_ H]|H]]; [exact H| |].
      + exfalso. revert H. change (2 mod 2 ^ (0 + 1)) with 0. rewrite Z.pow_0_r.
        apply free_at; [lia|apply Z.pow_nonneg, Hv|]. left. destruct t; reflexivity.
      + exfalso. revert H. apply left_end; first [assumption|lia|reflexivity].
    - apply square_outcome; [exact W|]. apply (short_wf dbg t); [exact W|].
      specialize (HL 0 ltac:(lia) ltac:(reflexivity)). change (2 ^ 0) with 1 in HL.
      rewrite Z.pow_1_r in HL. exact HL. }
  assert (Hpow : pow D x e = match (e / 2)%N with
      | N0 => Ret (if N.even e then ubig_one else x)
      | Npos n => pow_loop D n (if N.even e then ubig_one else x) x end).
  { destruct e as [|[q|[q|q|]|]]; try reflexivity; contradiction. }
  rewrite Hpow. destruct (e / 2)%N as [|n] eqn:Eh.
  { exfalso. apply N.div_small_iff in Eh; lia. }
  assert (Ed : E / 2 = Z.pos n) by (unfold E; change 2 with (Z.of_N 2); rewrite <- N2Z.inj_div, Eh; reflexivity).
  assert (Em : E mod 2 = if N.even e then 0 else 1).
  { rewrite Zmod_even. unfold E. destruct e as [|[q|q|]]; reflexivity. }
  apply pow_loop_exact; try assumption; try lia.
  - destruct (N.even e); assumption.
  - change (2 ^ (0 + 1)) with 2. rewrite Em. destruct (N.even e); [rewrite V1; symmetry; apply Z.pow_0_r|symmetry; apply Z.pow_1_r].
Qed.

(** no power of a small number stops *)
Lemma free_power v e : 0 <= v -> 0 <= e -> v ^ (e / 2) < B ^ 19 -> ~ jam_power B v e.
Proof.
  intros Hv He HL (i & H).
  assert (S : forall k, 0 <= k <= e / 2 -> v ^ k < B ^ 19).
  { assert (1 < B ^ 19) by (destruct t; reflexivity).
    intros k Hk. destruct (Z.eq_dec v 0) as [->|].
    - destruct (Z.eq_dec k 0) as [->|]; [assumption|]. rewrite Z.pow_0_l by lia. lia.
    - eapply Z.le_lt_trans; [|exact HL]. apply Z.pow_le_mono_r; lia. }
  assert (P : forall k, 0 <= v ^ k) by (intros; apply Z.pow_nonneg, Hv).
  destruct H as [(H0 & H1 & H)|(H0 & H1 & H)]; revert H; (apply free_at; [apply P|apply P|left; apply S]).
  - split; [apply Z.pow_nonneg; lia|]. apply Z.div_le_lower_bound; [lia|].
    rewrite Z.pow_add_r in H1 by lia. lia.
  - assert (0 < 2 ^ i) by (apply Z.pow_pos_nonneg; lia).
    pose proof (Z.mod_pos_bound e (2 ^ i) ltac:(lia)). split; [lia|].
    apply Z.div_le_lower_bound; [lia|]. rewrite Z.testbit_odd, Z.shiftr_div_pow2 in H1 by lia.
    pose proof (Z.div_mod e (2 ^ i) ltac:(lia)).
    assert (e / 2 ^ i <> 0) by (intros Z0; rewrite Z0 in H1; discriminate H1).
    pose proof (Z.div_pos e (2 ^ i) He ltac:(lia)). nia.
Qed.

Lemma shl_outcome x n : is_binary t = false -> well_formed t x -> 0 <= n ->
  (forall i, 0 <= i -> 2 ^ (i + 1) <= n -> 2 ^ 2 ^ i < B ^ 1131) ->
  outcome t (jam_power B 2 n \/ jam_at B (num t x) (2 ^ n)) (shl_assign dbg t x n) (num t x * 2 ^ n).
Proof.
  intros Hb W Hn HL. pose proof (wf_nonneg' t x W) as Hx.
  destruct (Z_le_gt_dec n (4 * Z.of_nat (MAX_HEX_PLACES t))) as [Hs|Hs].
  - assert (HS : 2 ^ n < B ^ 19).
    { eapply Z.le_lt_trans; [apply (Z.pow_le_mono_r 2 n _ ltac:(lia) Hs)|]. destruct t; reflexivity. }
    assert (P2 : 0 <= 2 ^ n) by (apply Z.pow_nonneg; lia).
    right. split.
    + intros [H|H]; revert H.
      * apply free_power; [lia|exact Hn|]. eapply Z.le_lt_trans; [|exact HS].
        apply Z.pow_le_mono_r; [lia|]. apply Z.div_le_upper_bound; lia.
      * apply free_at; auto.
    + destruct (total_inv _ _ (shl_assign_dec_ok dbg t x n Hb (proj1 W) (conj Hn Hs))) as (r & E & H1 & H2 & H3).
      exists r. split; [exact E|]. split; [split; [exact H1|apply H3, W]|exact H2].
  - unfold shl_assign. rewrite Hb.
    replace (n <=? 4 * Z.of_nat (MAX_HEX_PLACES t)) with false by (symmetry; apply Z.leb_gt; lia).
    destruct (total_inv _ _ (two_ok dbg t)) as (two & -> & D2 & N2 & V2). cbn [bind].
    assert (W2 : well_formed t two) by (split; assumption).
    assert (V2' : num t two = 2) by exact V2.
    pose proof (pow_outcome two (Z.to_N n) W2) as HO.
    rewrite V2', Z2N.id in HO by lia. destruct (HO HL) as [[S ->]|[S (s & -> & Ws & Es)]].
    + left. split; [left; exact S|reflexivity].
    + cbn [bind]. rewrite <- Es. apply (outcome_iff t (jam_at B (num t x) (num t s))); [tauto|].
      apply mul_outcome; [exact W|exact Ws].
Qed.
Lemma shl_exact_claim x n : is_binary t = false -> well_formed t x -> 0 <= n ->
  (forall i, 0 <= i -> 2 ^ (i + 1) <= n -> 2 ^ 2 ^ i < B ^ 1131) ->
  (jam_power B 2 n \/ jam_at B (num t x) (2 ^ n) -> shl_assign dbg t x n = Panic (PUnwrap Underflow))
  /\ (~ (jam_power B 2 n \/ jam_at B (num t x) (2 ^ n)) ->
      exists r, shl_assign dbg t x n = Ret r /\ well_formed t r /\ num t r = num t x * 2 ^ n).
Proof. intros Hb W Hn HL. apply outcome_split, shl_outcome; assumption. Qed.
Lemma pow_exact_claim x e : well_formed t x -> (forall i, 0 <= i -> 2 ^ (i + 1) <= Z.of_N e -> num t x ^ 2 ^ i < B ^ 1131) ->
  (jam_power B (num t x) (Z.of_N e) -> pow D x e = Panic (PUnwrap Underflow))
  /\ (~ jam_power B (num t x) (Z.of_N e) ->
      exists r, pow D x e = Ret r /\ well_formed t r /\ num t r = num t x ^ Z.of_N e).
Proof. intros W HL. apply outcome_split, pow_outcome; assumption. Qed.
End Top.
