(** * DecJam: exact outcome of the conversion to decimal, when no division meets a tie.
    [DecExact] repeated with the exact outcome of the divisions (ClaimsBz) and squares (ClaimsToom). *)
From Coq Require Import ZArith List Bool Lia.
From Verif Require Import Base Digit Slice Mul Div UBig Text Spec SpecDiv SpecDec SpecMul SpecToom SpecBz Hoare DigitOK
  ListLemmas SliceProof UBigProof PowProof TypedProof TextProof Cases ClaimsBasic ClaimsMul ClaimsText ClaimsDiv
  ClaimsDivBig Gives Ends EndsLow EndsTyped DecExact ToomLen.
From Verif Require ClaimsToom ClaimsBz PowExact.
From Verif Require Import SpecDec.
Import ListNotations.
Open Scope Z_scope.
Open Scope m_scope.

Section Dec.
Variable dbg : bool.
Variable t : dty.
Hypothesis Hb : is_binary t = true.
Notation td := (decimal_of t).
Notation R := (radix td).
Notation g := (group_places t).

Lemma small_value x : well_formed t x -> (length x < 16)%nat -> num t x < radix t ^ 15.
Proof.
  intros Wx Hs. pose proof (value_bound _ (radix_gt t) x (proj1 Wx)) as [_ Hu].
  eapply Z.lt_le_trans; [exact Hu|]. apply Z.pow_le_mono_r; [pose proof (radix_gt t)|]; lia.
Qed.
Lemma piece_small v w : v < radix t ^ 15 -> piece t v w -> w = v.
Proof.
  intros H Hp. induction Hp as [|u S' Hp IH Hc|u S' Hp IH Hc]; [reflexivity|subst..]; exfalso; exact (not_cut t _ _ H Hc).
Qed.
Lemma jams_small v : v < radix t ^ 15 -> ~ cut_jams t v.
Proof.
  intros H (x & y & Wx & Wy & Hp & Hc & _). apply (piece_small v _ H) in Hp. rewrite Hp in Hc.
  exact (not_cut t _ _ H Hc).
Qed.
Lemma jams_low v S : cut t v S -> cut_jams t (v mod S) -> cut_jams t v.
Proof.
  intros HC (x & y & Wx & Wy & Hp & Hc & HJ). exists x, y. conj; auto; try apply HJ.
  eapply piece_trans; [eapply piece_low; [constructor|exact HC]|exact Hp].
Qed.
Lemma jams_high v S : cut t v S -> cut_jams t (v / S) -> cut_jams t v.
Proof.
  intros HC (x & y & Wx & Wy & Hp & Hc & HJ). exists x, y. conj; auto; try apply HJ.
  eapply piece_trans; [eapply piece_high; [constructor|exact HC]|exact Hp].
Qed.
Lemma jams_none x y : well_formed t x -> well_formed t y -> cut t (num t x) (num t y) ->
  ~ ((20 <= length y)%nat /\ recursive_jam t x y) -> ~ cut_jams t (num t x mod num t y) ->
  ~ cut_jams t (num t x / num t y) -> ~ cut_jams t (num t x).
Proof.
  intros Wx Wy HC H1 H2 H3 (x' & y' & Wx' & Wy' & Hp & Hc & HJ).
  destruct (piece_cut t Hb _ _ _ HC Hp) as [E|[E|E]].
  - rewrite E in Hc. pose proof (cut_unique t Hb _ _ _ HC Hc) as Ey.
    assert (x' = x) by (apply (wf_eq t); congruence). assert (y' = y) by (apply (wf_eq t); congruence).
    subst. exact (H1 HJ).
  - apply H2. exists x', y'. conj; auto; apply HJ.
  - apply H3. exists x', y'. conj; auto; apply HJ.
Qed.

Lemma build_decimal_jam N scales f x : scales_right t scales N -> well_formed t x ->
  (length x <= N)%nat -> (length x < f)%nat -> cut_smoothly t (num t x) ->
  spec (stop (cut_jams t (num t x))) (build_decimal dbg t f x scales)
    (fun r => converted t x r /\ ~ cut_jams t (num t x)).
Proof.
  intros [HS HL]. revert x. induction f as [|f IH]; intros x Wx HN Hf Hsm; [lia|].
  destruct (Nat.lt_ge_cases (length x) 16) as [Hs|Hs].
  { pose proof (build_small_case dbg t Hb x Wx Hs) as H. eapply spec_weaken; [|intros w hw; destruct (hw : False)|intros r h; split; [exact h|apply jams_small; exact (small_value x Wx Hs)]].
    replace (build_decimal dbg t (S f) x scales) with (build_decimal dbg t 1 x []); [exact H|].
    cbn [build_decimal]. cbv zeta. change TO_DEC_DIV_CUTOFF with 16%nat. destruct (length x =? 0)%nat; [reflexivity|].
    rewrite (proj2 (Nat.ltb_lt _ _) Hs). reflexivity. }
  cbn [build_decimal]. cbv zeta. change TO_DEC_DIV_CUTOFF with 16%nat. rewrite (proj2 (Nat.eqb_neq _ _)) by lia.
  rewrite (proj2 (Nat.ltb_ge _ _) Hs).
  destruct (first_places t Hb) as [F1 F2].
  destruct (scale_index (S (nr_decimal_places t (length x))) (nr_decimal_places t (length x)) 0 (NR_DECIMAL_PLACES t))
    as [idx| |] eqn:Ei.
  2: { exfalso. clear - Ei. revert Ei. generalize 0%nat as j, (NR_DECIMAL_PLACES t) as nr, (S (nr_decimal_places t (length x))) as h.
       intros j nr h. revert j nr. induction h as [|h IH]; intros j nr; cbn [scale_index]; [discriminate|].
       destruct (_ <? _)%nat; [apply IH|discriminate]. }
  2: { exfalso. apply (scale_index_ends (S (nr_decimal_places t (length x))) (nr_decimal_places t (length x)) 0 (NR_DECIMAL_PLACES t)); [lia|lia|lia|exact Ei]. }
  cbn [bind]. apply scale_index_gives in Ei. destruct Ei as (i & -> & H1 & H2). cbn [Nat.add].
  assert (Hi : (i < length scales)%nat).
  { destruct (Nat.lt_ge_cases i (length scales)) as [|Hge]; [assumption|exfalso].
    destruct H2 as [->|H2]; [lia|].
    pose proof (places_mono t Hb (length x) N HN).
    assert (2 ^ S (length scales - 1) <= 2 ^ i)%nat by (apply Nat.pow_le_mono_r; lia).
    rewrite Nat.pow_succ_r' in *. nia. }
  destruct (nth_error scales i) as [y|] eqn:En; [|apply nth_error_None in En; lia].
  destruct (HS i y En) as [Wy Vy]. cbn [bind].
  assert (Vy' : num t y = 10 ^ Z.of_nat (NR_DECIMAL_PLACES t * 2 ^ i)).
  { rewrite Vy, Nat2Z.inj_mul, Nat2Z.inj_pow, (g_places t Hb). reflexivity. }
  pose proof (scale_length dbg t Hb (length x) i y Hs Wy Vy' H1 H2) as [Ly1 Ly2].
  pose proof (radix_gt t) as HB.
  pose proof (value_bound _ HB x (proj1 Wx)) as [_ Xu].
  pose proof (normal_lower _ HB x (proj1 Wx) (proj2 Wx) ltac:(intros E; rewrite E in Hs; cbn in Hs; lia)) as Xl.
  pose proof (value_bound _ HB y (proj1 Wy)) as [_ Yu].
  pose proof (normal_lower _ HB y (proj1 Wy) (proj2 Wy) ltac:(intros E; rewrite E in Ly1; cbn in Ly1; lia)) as Yl.
  fold (num t x) in Xu, Xl. fold (num t y) in Yu, Yl.
  assert (HC : cut t (num t x) (num t y)).
  { exists (Z.of_nat (length x)), (Z.of_nat i). split; [lia|]. split.
    { unfold pw in Xu, Xl. rewrite Nat2Z.inj_sub in Xl by lia. split; [exact Xl|exact Xu]. }
    split; [lia|]. rewrite <- (estimate_places t Hb), <- (g_places t Hb).
    change 2 with (Z.of_nat 2) at 1. rewrite <- Nat2Z.inj_pow. split; [lia|]. split.
    - destruct (Nat.eq_dec i 0) as [->|Hi0]; [left; reflexivity|right].
      destruct H2 as [|H2]; [lia|]. replace (Z.of_nat i - 1) with (Z.of_nat (i - 1)) by lia.
      change 2 with (Z.of_nat 2). rewrite <- Nat2Z.inj_pow.
      replace i with (S (i - 1)) in H2 by lia. rewrite Nat.pow_succ_r' in H2. lia.
    - rewrite Vy, (g_places t Hb). reflexivity. }
  assert (HD : (divided dbg t x y /\ ~ ((20 <= length y)%nat /\ recursive_jam t x y))
    \/ (cut_jams t (num t x) /\ div_assign_big (impl dbg t) x y = Panic (PUnwrap Underflow))).
  { pose proof (Hsm x y Wx Wy (piece_self t _) HC) as HT.
    destruct (Nat.ltb_spec (length y) 20) as [Hl|Hl].
    - left. split; [|intros [H _]; lia].
      apply div_short_claim; auto; [intros E; rewrite E in Ly1; cbn in Ly1; lia|].
      right. unfold divides. rewrite Hb. exact HT.
    - destruct (ClaimsBz.div_jam dbg t false x y Wx Wy Hl (or_introl Hb) (or_intror HT)) as [[HD1 HD2]|[[HD1 HD2]|[HD _]]].
      + left. split; [exact HD1|]. intros [_ H]. exact (HD2 H).
      + right. split; [|exact (proj1 HD2)]. exists x, y. conj; auto. constructor.
      + discriminate HD. }
  destruct HD as [[(q & r & E & _ & _ & _ & Wq & Wr & Eu & Er) HNJ]|[HJ E]]; rewrite E; cbn [bind unwrap];
    [|split; [reflexivity|exact HJ]].
  set (S0 := num t y) in *. set (v := num t x) in *.
  assert (PR : 0 < pw (radix t) (length y - 1)) by (apply pw_pos; exact HB).
  assert (Eq : num t q = v / S0) by (apply (Z.div_unique _ _ _ (num t r)); lia).
  assert (Emod : num t r = v mod S0) by (apply (Z.mod_unique _ _ (num t q)); lia).
  assert (Lr : (length r <= length y)%nat).
  { apply (normal_short _ _ (impl_ok dbg t)); [apply Wr|apply Wr|]. fold (num t r). lia. }
  assert (Q1 : 0 < num t q).
  { rewrite Eq. apply Z.div_str_pos. split; [lia|].
    assert (pw (radix t) (length y) <= pw (radix t) (length x - 1)) by (apply pw_le; [exact HB|lia]). lia. }
  assert (Lq : (length q <= length x - 1)%nat).
  { apply (normal_short _ _ (impl_ok dbg t)); [apply Wq|apply Wq|]. fold (num t q).
    rewrite Eq. apply Z.div_lt_upper_bound; [lia|]. 
    assert (Ex : pw (radix t) (length x) = pw (radix t) 1 * pw (radix t) (length x - 1)).
    { rewrite <- pw_add. f_equal. lia. }
    assert (pw (radix t) 1 <= pw (radix t) (length y - 1)) by (apply pw_le; [exact HB|lia]).
    assert (0 < pw (radix t) (length x - 1)) by (apply pw_pos; exact HB).
    assert (pw (radix t) 1 * pw (radix t) (length x - 1) <= S0 * pw (radix t) (length x - 1))
      by (apply Z.mul_le_mono_nonneg_r; lia). lia. }
  eapply spec_bind; [eapply spec_weaken; [apply IH; [exact Wr|lia|lia|rewrite Emod; apply (smooth_low t); auto]|intros w [h1 h2]; split; [exact h1|rewrite Emod in h2; apply (jams_low _ _ HC h2)]|intros z h; exact h]|].
  intros lo [(L1 & L2 & L3 & L4) L5].
  eapply spec_bind; [eapply spec_weaken; [apply IH; [exact Wq|lia|lia|rewrite Eq; apply (smooth_high t); auto]|intros w [h1 h2]; split; [exact h1|rewrite Eq in h2; apply (jams_high _ _ HC h2)]|intros z h; exact h]|].
  intros hi [(K1 & K2 & K3 & K4) K5]. ret. split;
  [|rewrite Emod in L5; rewrite Eq in K5; apply (jams_none x y Wx Wy HC HNJ L5 K5)]. specialize (K3 Q1).
  assert (ES : S0 = pw R (2 ^ i)) by (rewrite Vy; apply (R_pow t Hb)).
  pose proof (radix_gt td) as HR.
  pose proof (value_nonneg R HR lo (proj1 L1)) as Lo0. fold (num td lo) in Lo0.
  assert (Ll : (length lo <= 2 ^ i)%nat).
  { apply (normal_short _ _ (impl_ok dbg td)); [apply L1|apply L1|]. fold (num td lo). rewrite <- ES. lia. }
  destruct (join t (2 ^ i) (length lo) (num t q) (num td lo) (num td hi) ltac:(lia) Lo0 ltac:(lia) (num t r) L2) as [J1 J2].
  rewrite <- ES in J1, J2. replace (S0 * num t q + num t r) with v in J1, J2 by lia.
  assert (Hhi : hi <> []) by (intros ->; change (num td []) with 0 in K3; lia).
  assert (Ev : num td (lo ++ hi) = num td lo + pw R (length lo) * num td hi) by apply value_app.
  unfold converted. fold v. split; [|split; [rewrite Ev; exact J1|split]].
  - split; [apply below_app; split; [apply L1|apply K1]|apply normal_app; [exact Hhi|apply K1]].
  - intros _. rewrite Ev. pose proof (pw_pos R (length lo) HR).
    assert (0 < pw R (length lo) * num td hi) by (apply Z.mul_pos_pos; lia). lia.
  - rewrite Ev, J2, (filled_cut t Hb v S0 HC), <- Emod, <- Eq, <- L4, <- K4.
    enough (HH : num td lo = num t r -> (length lo = 2 ^ i)%nat <-> S0 <= R * num t r) by tauto.
    intros El. rewrite <- El, ES. split.
    + intros Ell. rewrite <- Ell.
      assert (Hlo : lo <> []) by (intros ->; cbn in Ell; pose proof (Nat.pow_nonzero 2 i); lia).
      pose proof (normal_lower R HR lo (proj1 L1) (proj2 L1) Hlo) as Hlow. fold (num td lo) in Hlow.
      assert (Epw : pw R (length lo) = R * pw R (length lo - 1)).
      { rewrite <- pw_S. f_equal. destruct lo; [contradiction|cbn; lia]. }
      rewrite Epw. apply Z.mul_le_mono_nonneg_l; lia.
    + intros Hge. destruct (Nat.eq_dec (length lo) (2 ^ i)) as [|Hne]; [assumption|exfalso].
      pose proof (value_bound R HR lo (proj1 L1)) as [_ Hu]. fold (num td lo) in Hu.
      assert (pw R (S (length lo)) <= pw R (2 ^ i)) by (apply pw_le; [exact HR|lia]).
      rewrite pw_S in *. nia.
Qed.



(** ** The powers of ten *)
Lemma scale_length_limit i y : (i <= 10)%nat -> well_formed t y -> num t y = 10 ^ (g * 2 ^ Z.of_nat i) -> (length y <= 1131)%nat.
Proof.
  intros Hi Wy E. apply (normal_short _ _ (impl_ok dbg t)); [apply Wy|apply Wy|]. fold (num t y). rewrite E.
  assert (Hg : 0 <= g) by (destruct t; cbn; lia).
  assert (H10 : 10 ^ g <= radix t) by (destruct t; try discriminate Hb; vm_compute; discriminate).
  assert (H2 : 2 ^ Z.of_nat i <= 2 ^ 10) by (apply Z.pow_le_mono_r; lia). change (2 ^ 10) with 1024 in H2.
  rewrite Z.pow_mul_r by lia. unfold pw. pose proof (radix_gt t).
  apply Z.le_lt_trans with (radix t ^ 2 ^ Z.of_nat i).
  - apply Z.pow_le_mono_l. split; [apply Z.pow_nonneg; lia|exact H10].
  - apply Z.pow_lt_mono_r; [lia|lia|]. change (Z.of_nat 1131) with 1131. lia.
Qed.
Lemma jam_self x : well_formed t x -> (jam_at (radix t) (num t x) (num t x) <-> ClaimsToom.jam_product t x x).
Proof.
  intros Wx. symmetry. exact (PowExact.jam_wf dbg t x x Wx Wx).
Qed.
Definition scale_jam (j : nat) : Prop := jam_at (radix t) (10 ^ (g * 2 ^ Z.of_nat j)) (10 ^ (g * 2 ^ Z.of_nat j)).
Lemma scale_limit m i : Z.of_nat m <= 5102 -> (3 * (NR_DECIMAL_PLACES t * 2 ^ i) < nr_decimal_places t m)%nat -> (i <= 10)%nat.
Proof.
  intros Hm H. destruct (Nat.le_gt_cases i 10) as [|Hi]; [assumption|exfalso].
  apply Nat2Z.inj_lt in H. rewrite !Nat2Z.inj_mul, (estimate_places t Hb), (g_places t Hb) in H.
  assert (H2 : 2 ^ 11 <= Z.of_nat (2 ^ i)).
  { rewrite Nat2Z.inj_pow. change (Z.of_nat 2) with 2. apply Z.pow_le_mono_r; lia. }
  assert (He : estimate t (Z.of_nat m) <= estimate t 5102).
  { unfold estimate. apply Z.div_le_mono; [lia|]. apply Z.mul_le_mono_nonneg_r; [lia|].
    apply Z.mul_le_mono_nonneg_r; [destruct t; cbn; lia|exact Hm]. }
  assert (Hc : estimate t 5102 <= 3 * (g * 2 ^ 11)) by (destruct t; try discriminate Hb; vm_compute; discriminate).
  assert (Hg : g * 2 ^ 11 <= g * Z.of_nat (2 ^ i)) by (apply Z.mul_le_mono_nonneg_l; [destruct t; cbn; lia|exact H2]).
  change (Z.of_nat 3) with 3 in H. lia.
Qed.

Lemma build_scales_jam m f tot i x : (tot = nr_decimal_places t m)%nat -> Z.of_nat m <= 5102 ->
  let nr := (NR_DECIMAL_PLACES t * 2 ^ i)%nat in
  (tot <= nr + f)%nat -> (1 <= f)%nat -> well_formed t x -> num t x = 10 ^ Z.of_nat nr ->
  spec (stop (exists j, (3 * (NR_DECIMAL_PLACES t * 2 ^ j) < tot)%nat /\ scale_jam j))
    (build_scales dbg t f tot nr x) (fun l => ((1 <= length l)%nat /\
    (forall i y, nth_error l i = Some y -> well_formed t y /\ num t y = 10 ^ Z.of_nat (nr * 2 ^ i))
    /\ (tot <= 3 * (nr * 2 ^ (length l - 1)))%nat)
    /\ forall j, (i <= j)%nat -> (3 * (NR_DECIMAL_PLACES t * 2 ^ j) < tot)%nat -> ~ scale_jam j).
Proof.
  intros Ht Hm. revert i x. induction f as [|f IH]; intros i x nr H2 H3 Wx Vx; [lia|]. cbn [build_scales].
  assert (H1 : (1 <= nr)%nat).
  { assert (F1 : (1 <= NR_DECIMAL_PLACES t)%nat) by (destruct t; cbn; lia). pose proof (Nat.pow_nonzero 2 i ltac:(lia)).
    assert (1 * 1 <= nr)%nat by (apply Nat.mul_le_mono; [exact F1|lia]). lia. }
  assert (H0 : forall y, Some x = Some y -> well_formed t y /\ num t y = 10 ^ Z.of_nat (nr * 2 ^ 0)).
  { intros y E. injection E as <-. rewrite Nat.pow_0_r, Nat.mul_1_r. auto. }
  destruct (Nat.ltb_spec (3 * nr) tot) as [Hlt|Hge].
  - assert (Hi : (i <= 10)%nat) by (apply (scale_limit m); [exact Hm|rewrite <- Ht; exact Hlt]).
    assert (Vx' : num t x = 10 ^ (g * 2 ^ Z.of_nat i)).
    { rewrite Vx. unfold nr. rewrite Nat2Z.inj_mul, Nat2Z.inj_pow, (g_places t Hb). reflexivity. }
    pose proof (scale_length_limit i x Hi Wx Vx') as HL.
    assert (ES : scale_jam i <-> ClaimsToom.jam_product t x x) by (unfold scale_jam; rewrite <- Vx'; apply jam_self; exact Wx).
    destruct (ClaimsToom.square_jam_claim dbg t x (proj1 Wx) HL) as [HJ HN].
    destruct (ClaimsToom.jam_check t x x) eqn:EJ.
    { apply (ClaimsToom.jam_computed t x x (proj1 Wx) (proj1 Wx)) in EJ. rewrite (HJ EJ). cbn [bind].
      split; [reflexivity|]. exists i. split; [exact Hlt|]. apply ES. exact EJ. }
    assert (NJ : ~ ClaimsToom.jam_product t x x).
    { intros H. apply (ClaimsToom.jam_computed t x x (proj1 Wx) (proj1 Wx)) in H. rewrite EJ in H. discriminate H. }
    destruct (HN NJ) as (sq & E & Wq & Vq).
    rewrite E. cbn [bind].
    assert (En : (2 * nr = NR_DECIMAL_PLACES t * 2 ^ S i)%nat) by (unfold nr; cbn [Nat.pow]; lia).
    assert (Vq' : num t sq = 10 ^ Z.of_nat (2 * nr)).
    { rewrite Vq, Vx, <- Z.pow_add_r by lia. f_equal. lia. }
    pose proof (IH (S i) sq) as IH'. cbv zeta in IH'. rewrite <- En in IH'.
    eapply spec_bind; [apply IH'; [lia|lia|exact Wq|exact Vq']|].
    intros l ((L0 & L1 & L2) & L3). ret.
    destruct l as [|z l]; [cbn in L0; lia|]. cbn [length] in *.
    split; [split; [lia|split]|].
    + intros [|k] y E'; cbn [nth_error] in E'; [apply H0; exact E'|].
      replace (nr * 2 ^ S k)%nat with (2 * nr * 2 ^ k)%nat by (cbn [Nat.pow]; lia). apply L1. exact E'.
    + replace (S (length l) - 1)%nat with (length l) in L2 by lia.
      replace (S (S (length l)) - 1)%nat with (S (length l)) by lia.
      replace (nr * 2 ^ S (length l))%nat with (2 * nr * 2 ^ length l)%nat by (cbn [Nat.pow]; lia). exact L2.
    + intros j Hj Hlj. destruct (Nat.eq_dec i j) as [<-|Hne]; [rewrite ES; exact NJ|]. apply L3; lia.
  - ret. split; [split; [cbn; lia|split]|].
    + intros [|k] y E; cbn [nth_error] in E; [apply H0; exact E|]. destruct k; discriminate E.
    + cbn [length Nat.sub Nat.pow]. lia.
    + intros j Hj Hlj. exfalso. assert (2 ^ i <= 2 ^ j)%nat by (apply Nat.pow_le_mono_r; lia).
      assert (NR_DECIMAL_PLACES t * 2 ^ i <= NR_DECIMAL_PLACES t * 2 ^ j)%nat by (apply Nat.mul_le_mono_l; assumption).
      unfold nr in Hge. lia.
Qed.

Lemma scale_jams_at x : well_formed t x -> (16 <= length x)%nat ->
  (scale_jams t (num t x) <-> exists j, (3 * (NR_DECIMAL_PLACES t * 2 ^ j) < nr_decimal_places t (length x))%nat /\ scale_jam j).
Proof.
  intros Wx Hs. pose proof (radix_gt t) as HB.
  pose proof (value_bound _ HB x (proj1 Wx)) as [_ Xu].
  pose proof (normal_lower _ HB x (proj1 Wx) (proj2 Wx) ltac:(intros E; rewrite E in Hs; cbn in Hs; lia)) as Xl.
  fold (num t x) in Xu, Xl. unfold pw in Xu, Xl. rewrite Nat2Z.inj_sub in Xl by lia. change (Z.of_nat 1) with 1 in Xl.
  assert (EI : forall j, (3 * (NR_DECIMAL_PLACES t * 2 ^ j) < nr_decimal_places t (length x))%nat
    <-> 3 * (g * 2 ^ Z.of_nat j) < estimate t (Z.of_nat (length x))).
  { intros j. rewrite Nat2Z.inj_lt, !Nat2Z.inj_mul, Nat2Z.inj_pow, (estimate_places t Hb), (g_places t Hb). reflexivity. }
  split.
  - intros (n & i & N1 & V1 & I1 & E1 & HJ).
    assert (n = Z.of_nat (length x)).
    { destruct (Z.lt_trichotomy n (Z.of_nat (length x))) as [Ho|[Ho|Ho]]; [exfalso|exact Ho|exfalso].
      - assert (radix t ^ n <= radix t ^ (Z.of_nat (length x) - 1)) by (apply Z.pow_le_mono_r; lia). lia.
      - assert (radix t ^ Z.of_nat (length x) <= radix t ^ (n - 1)) by (apply Z.pow_le_mono_r; lia). lia. }
    subst n. exists (Z.to_nat i). unfold scale_jam. rewrite EI, Z2Nat.id by lia. split; [exact E1|exact HJ].
  - intros (j & H1 & H2). apply EI in H1. exists (Z.of_nat (length x)), (Z.of_nat j). conj; auto; lia.
Qed.

Lemma to_decimal_jam x : well_formed t x -> Z.of_nat (length x) <= 5102 -> cut_smoothly t (num t x) ->
  let J := scale_jams t (num t x) \/ cut_jams t (num t x) in
  spec (stop J) (to_decimal dbg t x) (fun r => converted t x r /\ ~ J).
Proof.
  intros Wx Hl Hsm J. destruct (Nat.lt_ge_cases (length x) 16) as [Hs|Hs].
  { destruct (to_decimal_claim dbg t x Hb Wx Hs) as (r & E & W & V). rewrite E. apply spec_ret.
    pose proof (small_value x Wx Hs) as HV. split.
    - split; [exact W|]. rewrite V. split; [lia|]. split; [auto|]. split; [intros _|auto]. apply filled_small. exact HV.
    - intros [H|H]; [|revert H; apply jams_small; exact HV].
      destruct H as (n & i & N1 & V1 & _). pose proof (radix_gt t).
      assert (radix t ^ 15 <= radix t ^ (n - 1)) by (apply Z.pow_le_mono_r; lia). lia. }
  unfold to_decimal. change TO_DEC_DIV_CUTOFF with 16%nat. rewrite (proj2 (Nat.ltb_ge _ _) Hs). cbv zeta.
  destruct (first_places t Hb) as [F1 F2].
  assert (Hst : storage t (decimal_radix t)) by (destruct t; vm_compute; split; congruence).
  destruct (from_claim t _ Hst) as [W V].
  assert (E1 : (NR_DECIMAL_PLACES t = NR_DECIMAL_PLACES t * 2 ^ 0)%nat) by (cbn; lia).
  pose proof (scale_jams_at x Wx Hs) as ES.
  pose proof (fun f z => build_scales_jam (length x) f (nr_decimal_places t (length x)) 0 z eq_refl Hl) as HBS.
  cbv zeta in HBS. rewrite <- E1 in HBS.
  eapply spec_bind.
  - eapply spec_weaken; [apply HBS; [lia|lia|exact W|]
      |intros w [h1 h2]; split; [exact h1|left; apply ES; exact h2]|intros l h; exact h].
    rewrite V. destruct t; try discriminate Hb; reflexivity.
  - intros l ((L0 & L1 & L2) & L3).
    assert (NS : ~ scale_jams t (num t x)).
    { intros H. apply ES in H. destruct H as (j & G1 & G2). exact (L3 j ltac:(lia) G1 G2). }
    eapply spec_weaken; [apply (build_decimal_jam (length x) l _ x); auto
      |intros w [h1 h2]; split; [exact h1|right; exact h2]|intros r [h1 h2]; split; [exact h1|intros [h|h]; auto]].
    split.
    + intros i y E. destruct (L1 i y E) as [Wy Vy]. split; [exact Wy|].
      rewrite Vy, Nat2Z.inj_mul, Nat2Z.inj_pow, (g_places t Hb). reflexivity.
    + split; [exact L2|exact L0].
Qed.
End Dec.

Lemma to_decimal_jam_claim : forall dbg t x, is_binary t = true -> well_formed t x ->
  Z.of_nat (length x) <= 5102 -> cut_smoothly t (num t x) ->
  ((scale_jams t (num t x) \/ cut_jams t (num t x)) -> to_decimal dbg t x = Panic (PUnwrap Underflow))
  /\ (~ (scale_jams t (num t x) \/ cut_jams t (num t x)) -> exists r, to_decimal dbg t x = Ret r /\ well_formed (decimal_of t) r
     /\ num (decimal_of t) r <= num t x /\ (num (decimal_of t) r = num t x <-> filled t (num t x))).
Proof.
  intros dbg t x Hb Wx Hl Hsm. pose proof (to_decimal_jam dbg t Hb x Wx Hl Hsm) as H.
  destruct (to_decimal dbg t x) as [r|w|]; cbn in H; [| |contradiction].
  - destruct H as [(A1 & A2 & A3 & A4) HN]. split; [contradiction|]. intros _. exists r. auto.
  - destruct H as [-> HJ]. split; [auto|contradiction].
Qed.
Lemma display_jam_claim : forall dbg t x, is_binary t = true -> well_formed t x ->
  Z.of_nat (length x) <= 5102 -> cut_smoothly t (num t x) ->
  ((scale_jams t (num t x) \/ cut_jams t (num t x)) -> fmt_display_bin dbg t plain x = Panic (PUnwrap Underflow))
  /\ (~ (scale_jams t (num t x) \/ cut_jams t (num t x)) -> exists s, fmt_display_bin dbg t plain x = Ret s /\ numeral_of 10 s /\ minimal s
     /\ numeral_value 10 s <= num t x /\ (numeral_value 10 s = num t x <-> filled t (num t x))).
Proof.
  intros dbg t x Hb Wx Hl Hsm. destruct (to_decimal_jam_claim dbg t x Hb Wx Hl Hsm) as [H1 H2].
  unfold fmt_display_bin. split.
  - intros HJ. rewrite (H1 HJ). reflexivity.
  - intros HN. destruct (H2 HN) as (r & -> & W & V1 & V2). cbn [bind].
    destruct (dec_claim (decimal_of t) r (decimal_of_dec t Hb) W) as (s & S1 & S2 & S3 & S4).
    assert (Ed : fmt_display_dec t plain r = fmt_display_dec (decimal_of t) plain r) by (destruct t; reflexivity).
    rewrite Ed, S1. exists s. rewrite S3. auto.
Qed.

(** up to 120 digits no square and no division stops *)
Lemma scale_jams_short : forall t x, is_binary t = true -> well_formed t x -> (length x <= 120)%nat -> ~ scale_jams t (num t x).
Proof.
  intros t x Hb Wx Hl (n & i & N1 & V1 & I1 & E1 & HJ). cbv zeta in HJ. revert HJ. pose proof (radix_gt t) as HB.
  assert (Hn : n <= 120).
  { destruct (Z.le_gt_cases n 120) as [|Hgt]; [assumption|exfalso].
    pose proof (value_bound _ HB x (proj1 Wx)) as [_ Hu]. fold (num t x) in Hu. unfold pw in Hu.
    assert (radix t ^ Z.of_nat (length x) <= radix t ^ (n - 1)) by (apply Z.pow_le_mono_r; lia). lia. }
  assert (He : estimate t n <= estimate t 120).
  { unfold estimate. apply Z.div_le_mono; [lia|]. apply Z.mul_le_mono_nonneg_r; [lia|].
    apply Z.mul_le_mono_nonneg_r; [destruct t; cbn; lia|exact Hn]. }
  assert (H10 : 10 ^ ((estimate t 120 - 1) / 3) < radix t ^ 40) by (destruct t; try discriminate Hb; vm_compute; reflexivity).
  assert (Hle : 10 ^ (group_places t * 2 ^ i) <= 10 ^ ((estimate t 120 - 1) / 3)).
  { apply Z.pow_le_mono_r; [lia|]. apply Z.div_le_lower_bound; lia. }
  assert (0 <= 10 ^ (group_places t * 2 ^ i)) by (apply Z.pow_nonneg; lia).
  apply (ClaimsBz.jam_at_short _ _ (impl_ok true t)); unfold pw; change (Z.of_nat 40) with 40; lia.
Qed.
Lemma cut_jams_short : forall t x, is_binary t = true -> well_formed t x -> (length x <= 120)%nat -> ~ cut_jams t (num t x).
Proof.
  intros t x0 Hb W0 Hl (x & y & Wx & Wy & Hp & Hc & Hy & HJ).
  pose proof (radix_gt t) as HB.
  assert (Hle : num t x <= num t x0).
  { clear - Hp HB W0. pose proof (value_nonneg _ HB x0 (proj1 W0)) as H0. fold (num t x0) in H0.
    assert (aux : forall w, piece t (num t x0) w -> 0 <= w <= num t x0).
    { intros w Hw. induction Hw as [|u S' Hw IH Hc|u S' Hw IH Hc]; [lia| |];
        (assert (HS : 0 < S') by (destruct Hc as (n & i & _ & _ & Hi & _ & _ & ->);
           apply Z.pow_pos_nonneg; [lia|]; apply Z.mul_nonneg_nonneg; [destruct t; cbn; lia|apply Z.pow_nonneg; lia])).
      - pose proof (Z.mod_pos_bound u S' HS). pose proof (Z.mod_le u S' ltac:(lia) HS). lia.
      - pose proof (Z.div_pos u S' ltac:(lia) HS). assert (u <= S' * u) by nia.
        pose proof (Z.div_le_upper_bound u S' u HS ltac:(lia)). lia. }
    apply aux. exact Hp. }
  assert (Hlx : (length x <= 120)%nat).
  { apply (normal_short _ _ (impl_ok true t)); [apply Wx|apply Wx|]. fold (num t x).
    pose proof (value_bound _ HB x0 (proj1 W0)) as [_ Hu]. fold (num t x0) in Hu.
    assert (pw (radix t) (length x0) <= pw (radix t) 120) by (apply pw_le; [exact HB|lia]). lia. }
  revert HJ. apply (ClaimsBz.recursive_jam_short t x y Wx Wy).
  2: { apply ClaimsBz.binary_fits; auto. lia. }
  split; [exact Hy|].
  destruct Hc as (n & i & N1 & V1 & I1 & E1 & M1 & ES).
  assert (Hn : n = Z.of_nat (length x)).
  { assert (Hx : x <> []). { intros ->. change (num t []) with 0 in V1. assert (0 < radix t ^ (n - 1)) by (apply Z.pow_pos_nonneg; lia). lia. }
    pose proof (value_bound _ HB x (proj1 Wx)) as [_ Xu].
    pose proof (normal_lower _ HB x (proj1 Wx) (proj2 Wx) Hx) as Xl. fold (num t x) in Xu, Xl. unfold pw in Xu, Xl.
    assert (1 <= Z.of_nat (length x)) by (destruct x; [contradiction|cbn; lia]).
    rewrite Nat2Z.inj_sub in Xl by lia. change (Z.of_nat 1) with 1 in Xl.
    destruct (Z.lt_trichotomy n (Z.of_nat (length x))) as [Ho|[Ho|Ho]]; [exfalso|exact Ho|exfalso].
    - assert (radix t ^ n <= radix t ^ (Z.of_nat (length x) - 1)) by (apply Z.pow_le_mono_r; lia). lia.
    - assert (radix t ^ Z.of_nat (length x) <= radix t ^ (n - 1)) by (apply Z.pow_le_mono_r; lia). lia. }
  subst n. rewrite <- (estimate_places t Hb) in E1, M1. rewrite <- (g_places t Hb) in E1, M1, ES.
  assert (Ei : 2 ^ i = Z.of_nat (2 ^ Z.to_nat i)) by (rewrite Nat2Z.inj_pow, Z2Nat.id by lia; reflexivity).
  apply (cut_short true t Hb (length x) (Z.to_nat i) y); [lia|exact Wy| |].
  - rewrite ES, Ei, <- Nat2Z.inj_mul. reflexivity.
  - destruct (Z.eq_dec i 0) as [->|Hi0]; [left; reflexivity|]. right. destruct M1 as [|M1]; [contradiction|].
    assert (E2 : 2 ^ i = 2 * 2 ^ (i - 1)) by (rewrite <- Z.pow_succ_r by lia; f_equal; lia).
    apply Nat2Z.inj_lt. rewrite !Nat2Z.inj_mul, <- Ei, E2. change (Z.of_nat 3) with 3. change (Z.of_nat 2) with 2. lia.
Qed.
Lemma conversion_short : forall t x, is_binary t = true -> well_formed t x -> (length x <= 120)%nat ->
  ~ (scale_jams t (num t x) \/ cut_jams t (num t x)).
Proof. intros t x Hb Wx Hl [H|H]; [exact (scale_jams_short t x Hb Wx Hl H)|exact (cut_jams_short t x Hb Wx Hl H)]. Qed.
