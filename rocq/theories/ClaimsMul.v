(** * ClaimsMul: products, squares, powers and large decimal shifts in the form of the properties. *)
From Coq Require Import ZArith List Bool Lia.
From Verif Require Import Base Digit Slice Mul Div UBig Spec Hoare DigitOK ListLemmas SliceProof
  MulProof BufProof WorkSize KaratsubaProof ToomProof ToomMain MulTopProof UBigProof PowProof
  DivProof TypedProof Cases ClaimsBasic.
Import ListNotations.
Open Scope Z_scope.
Open Scope m_scope.

(** the only two panics of multiplication *)
Definition mul_outcome {A} (e : M A) (Q : A -> Prop) : Prop :=
  (exists r, e = Ret r /\ Q r) \/ e = Panic (PUnwrap Underflow) \/ e = Panic PAssert.

Lemma allowed_outcome {A} (e : M A) Q : spec (allowed false) e Q -> mul_outcome e Q.
Proof.
  unfold mul_outcome. destruct e as [a|w|]; cbn; [eauto|intros [_ [-> | ->]]; auto|contradiction].
Qed.
Lemma allowed_total {A} (e : M A) Q : spec (allowed true) e Q -> exists r, e = Ret r /\ Q r.
Proof. destruct e as [a|w|]; cbn; [eauto|intros [H _]; discriminate H|contradiction]. Qed.

Lemma outcome_returns {A} (e : M A) Q r : mul_outcome e Q -> e = Ret r -> Q r.
Proof.
  intros [(a & E & H)|[E|E]] E'; rewrite E' in E; [|discriminate E|discriminate E].
  injection E as ->. exact H.
Qed.

Lemma good_false x y : good false x y.
Proof. intros H; discriminate H. Qed.

Definition is_num t (v : Z) (r : digits) : Prop := well_formed t r /\ num t r = v.
Lemma prodpost_is t v r : prodpost (radix t) v r -> is_num t v r.
Proof. intros (H1 & H2 & H3). repeat split; auto. Qed.

Lemma mul_outcome_claim dbg t x y : valid t x -> valid t y ->
  mul_outcome (mul_assign (impl dbg t) x y) (is_num t (num t x * num t y)).
Proof.
  intros Hx Hy. apply allowed_outcome. eapply spec_post; [|apply prodpost_is].
  apply (mul_big_ok _ _ (impl_ok dbg t)); auto using good_false.
Qed.

Lemma mul_value_claim dbg t x y r : valid t x -> valid t y ->
  mul_assign (impl dbg t) x y = Ret r -> well_formed t r /\ num t r = num t x * num t y.
Proof. intros Hx Hy E. exact (outcome_returns _ _ _ (mul_outcome_claim dbg t x y Hx Hy) E). Qed.

Lemma mul_short_claim dbg t x y : valid t x -> valid t y ->
  (length x < 20 \/ length y < 20)%nat ->
  exists r, mul_assign (impl dbg t) x y = Ret r /\ well_formed t r /\ num t r = num t x * num t y.
Proof.
  intros Hx Hy HL. apply allowed_total. eapply spec_post; [|apply prodpost_is].
  apply (mul_big_ok _ _ (impl_ok dbg t)); auto. intros _. tauto.
Qed.

Lemma mul_mid_claim dbg t x y : well_formed t x -> well_formed t y ->
  (length x <= 40)%nat -> (length y <= 40)%nat ->
  exists r, mul_assign (impl dbg t) x y = Ret r /\ well_formed t r /\ num t r = num t x * num t y.
Proof.
  intros [Hx Nx] [Hy Ny] L1 L2. apply allowed_total. eapply spec_post; [|apply prodpost_is].
  apply (mul_big_ok _ _ (impl_ok dbg t)); auto. intros _. tauto.
Qed.

Lemma square_claim dbg t x : valid t x -> (length x <= 1131)%nat ->
  mul_outcome (square (impl dbg t) x) (is_num t (num t x * num t x)).
Proof.
  intros Hx HL. apply allowed_outcome. eapply spec_post; [|apply prodpost_is].
  apply (square_ok _ _ (impl_ok dbg t)); auto using good_false.
Qed.

Lemma square_value_claim dbg t x r : valid t x -> (length x <= 1131)%nat ->
  square (impl dbg t) x = Ret r -> well_formed t r /\ num t r = num t x * num t x.
Proof. intros Hx HL E. exact (outcome_returns _ _ _ (square_claim dbg t x Hx HL) E). Qed.

Lemma wf_eq t x y : well_formed t x -> well_formed t y -> num t x = num t y -> x = y.
Proof. intros [V1 N1] [V2 N2] E. apply (normal_inj (radix t)); auto using radix_gt. Qed.

Lemma square_mul_claim dbg t x r s : valid t x -> (length x <= 1131)%nat ->
  square (impl dbg t) x = Ret r -> mul_assign (impl dbg t) x x = Ret s -> r = s.
Proof.
  intros Hx HL E1 E2. apply square_value_claim in E1; auto. apply mul_value_claim in E2; auto.
  destruct E1, E2. apply (wf_eq t); auto. lia.
Qed.

Lemma square_total_claim dbg t x : valid t x ->
  (length x < 20)%nat \/ (normal x /\ (length x <= 40)%nat) ->
  exists r, square (impl dbg t) x = Ret r /\ well_formed t r /\ num t r = num t x * num t x.
Proof.
  intros Hx HL. apply allowed_total. eapply spec_post; [|apply prodpost_is].
  apply (square_ok _ _ (impl_ok dbg t)); auto; [|lia]. intros _. tauto.
Qed.

Lemma pw_radix t n : pw (radix t) (Z.to_nat n) = radix t ^ Z.of_nat (Z.to_nat n).
Proof. reflexivity. Qed.

Lemma pow_claim dbg t x e : well_formed t x -> num t x ^ Z.of_N (e / 2) < radix t ^ 1131 ->
  mul_outcome (pow (impl dbg t) x e) (is_num t (num t x ^ Z.of_N e)).
Proof.
  intros [Hx Nx] HL. apply allowed_outcome. eapply spec_post; [|apply prodpost_is].
  apply (pow_ok _ _ (impl_ok dbg t)); auto. discriminate.
Qed.

Lemma pow_value_claim dbg t x e r : well_formed t x -> num t x ^ Z.of_N (e / 2) < radix t ^ 1131 ->
  pow (impl dbg t) x e = Ret r -> well_formed t r /\ num t r = num t x ^ Z.of_N e.
Proof. intros Hx HL E. exact (outcome_returns _ _ _ (pow_claim dbg t x e Hx HL) E). Qed.

Lemma pow_total_claim dbg t x e : well_formed t x -> num t x ^ Z.of_N e < radix t ^ 40 ->
  exists r, pow (impl dbg t) x e = Ret r /\ well_formed t r /\ num t r = num t x ^ Z.of_N e.
Proof.
  intros [Hx Nx] HL. apply allowed_total. eapply spec_post; [|apply prodpost_is].
  apply (pow_ok _ _ (impl_ok dbg t)); auto.
  pose proof (radix_ge t). pose proof (value_nonneg (radix t) (radix_gt t) x Hx) as V.
  assert (radix t ^ 40 < radix t ^ 1131) by (apply Z.pow_lt_mono_r; lia).
  change (pw (radix t) 1131) with (radix t ^ 1131).
  assert (Hmx : num t x ^ Z.of_N (e / 2) <= Z.max 1 (num t x ^ Z.of_N e)); [|pose proof (Z.pow_pos_nonneg (radix t) 40); unfold num in *; lia].
  assert (He : 0 <= Z.of_N (e / 2) <= Z.of_N e).
  { split; [apply N2Z.is_nonneg|]. apply N2Z.inj_le, N.div_le_upper_bound; lia. }
  revert He. generalize (Z.of_N (e / 2)) (Z.of_N e). intros h k He.
  destruct (Z.eq_dec (num t x) 0) as [->|NZ].
  - destruct (Z.eq_dec h 0) as [-> |]; [rewrite Z.pow_0_r; apply Z.le_max_l|].
    rewrite (Z.pow_0_l h) by lia. etransitivity; [|apply Z.le_max_l]. lia.
  - unfold num in *. etransitivity; [apply Z.pow_le_mono_r; [lia|apply He]|apply Z.le_max_r].
Qed.

(** large decimal shifts *)
Lemma two_ok dbg t : total (add_assign (impl dbg t) ubig_one ubig_one) (prodpost (radix t) 2).
Proof.
  destruct (one_ok _ _ (impl_ok dbg t)) as (H1 & H2 & H3).
  eapply total_post; [apply (add_assign_ok _ _ (impl_ok dbg t)); auto|].
  cbv beta. rewrite H3. intros r Hr. unfold prodpost. tauto.
Qed.

Lemma shl_big_ok dbg t tot x n : is_binary t = false -> valid t x -> 0 <= n ->
  4 * Z.of_nat (MAX_HEX_PLACES t) < n -> 2 ^ (n / 2) < radix t ^ 1131 ->
  (tot = true -> 2 ^ n < radix t ^ 40 /\ (2 ^ n < radix t ^ 19 \/ (length x < 20)%nat

    \/ (normal x /\ (length x <= 40)%nat))) ->
  spec (allowed tot) (shl_assign dbg t x n) (prodpost (radix t) (num t x * 2 ^ n)).
Proof.
  intros Hb Hx Hn Hbig Hlim Htot. unfold shl_assign. rewrite Hb.
  replace (n <=? 4 * Z.of_nat (MAX_HEX_PLACES t)) with false by (symmetry; apply Z.leb_gt; lia).
  eapply total_bind; [apply two_ok|]. intros two (D2 & N2 & V2).
  eapply spec_bind.
  { apply (pow_ok _ _ (impl_ok dbg t) tot two (Z.to_N n)); auto.
    - rewrite V2, N2Z.inj_div, Z2N.id by lia. exact Hlim.
    - rewrite V2, Z2N.id by lia. intros Ht. apply Htot, Ht. }
  rewrite V2, Z2N.id by lia. intros s (Ds & Ns & Vs). unfold mul_assign. rewrite <- Vs.
  apply (mul_big_ok _ _ (impl_ok dbg t)); auto.
  intros Ht. destruct (Htot Ht) as [H1 H2].
  assert (length s <= 40)%nat by (apply (normal_short _ _ (impl_ok dbg t)); auto; rewrite Vs; exact H1).
  destruct H2 as [H2|[H2|H2]]; [|tauto|tauto].
  assert (length s <= 19)%nat by (apply (normal_short _ _ (impl_ok dbg t)); auto; rewrite Vs; exact H2).
  lia.
Qed.

Lemma shl_dec_claim dbg t x n : is_binary t = false -> valid t x -> 0 <= n ->
  2 ^ (n / 2) < radix t ^ 1131 ->
  mul_outcome (shl_assign dbg t x n) (fun r => valid t r /\ num t r = num t x * 2 ^ n
    /\ (normal x -> normal r)).
Proof.
  intros Hb Hx Hn HL. apply allowed_outcome.
  destruct (Z_le_gt_dec n (4 * Z.of_nat (MAX_HEX_PLACES t))) as [Hs|Hs].
  - apply total_spec. apply shl_assign_dec_ok; auto.
  - eapply spec_post; [apply shl_big_ok; auto; [lia|discriminate]|].
    intros r (H1 & H2 & H3). auto.
Qed.

Lemma shl_dec_value_claim dbg t x n r : is_binary t = false -> valid t x -> 0 <= n ->
  2 ^ (n / 2) < radix t ^ 1131 -> shl_assign dbg t x n = Ret r ->
  valid t r /\ num t r = num t x * 2 ^ n /\ (normal x -> normal r).
Proof. intros Hb Hx Hn HL E. exact (outcome_returns _ _ _ (shl_dec_claim dbg t x n Hb Hx Hn HL) E). Qed.

Lemma shl_dec_total_claim dbg t x n : is_binary t = false -> valid t x -> 0 <= n ->
  2 ^ n < radix t ^ 40 ->
  2 ^ n < radix t ^ 19 \/ (length x < 20)%nat \/ (normal x /\ (length x <= 40)%nat) ->
  exists r, shl_assign dbg t x n = Ret r /\ valid t r /\ num t r = num t x * 2 ^ n
    /\ (normal x -> normal r).
Proof.
  intros Hb Hx Hn HL HC. apply allowed_total.
  destruct (Z_le_gt_dec n (4 * Z.of_nat (MAX_HEX_PLACES t))) as [Hs|Hs].
  - apply total_spec. apply shl_assign_dec_ok; auto.
  - eapply spec_post; [apply shl_big_ok; auto; [lia|]|].
    + pose proof (radix_ge t).
      assert (radix t ^ 40 < radix t ^ 1131) by (apply Z.pow_lt_mono_r; lia).
      assert (2 ^ (n / 2) <= 2 ^ n) by (apply Z.pow_le_mono_r; [lia|apply Z.div_le_upper_bound; lia]).
      eapply Z.le_lt_trans; [eassumption|]. eapply Z.lt_trans; eassumption.
    + intros r (H1 & H2 & H3). auto.
Qed.

(** ** laws *)
Lemma mul_comm_claim dbg t x y a b : valid t x -> valid t y ->
  mul_assign (impl dbg t) x y = Ret a -> mul_assign (impl dbg t) y x = Ret b -> ubig_eqb a b = true.
Proof.
  intros Hx Hy E1 E2. apply mul_value_claim in E1, E2; auto. destruct E1, E2.
  apply (eq_claim t); auto. lia.
Qed.
Lemma mul_assoc_claim dbg t x y z xy a yz b : valid t x -> valid t y -> valid t z ->
  mul_assign (impl dbg t) x y = Ret xy -> mul_assign (impl dbg t) xy z = Ret a ->
  mul_assign (impl dbg t) y z = Ret yz -> mul_assign (impl dbg t) x yz = Ret b -> ubig_eqb a b = true.
Proof.
  intros Hx Hy Hz E1 E2 E3 E4. apply mul_value_claim in E1, E3; auto.
  destruct E1 as [[W1 ?] V1], E3 as [[W3 ?] V3]. apply mul_value_claim in E2, E4; auto.
  destruct E2, E4. apply (eq_claim t); auto. nia.
Qed.
Lemma mul_distr_claim dbg t x y z yz a xy xz b : well_formed t x -> well_formed t y -> well_formed t z ->
  add_assign (impl dbg t) y z = Ret yz -> mul_assign (impl dbg t) x yz = Ret a ->
  mul_assign (impl dbg t) x y = Ret xy -> mul_assign (impl dbg t) x z = Ret xz ->
  add_assign (impl dbg t) xy xz = Ret b -> ubig_eqb a b = true.
Proof.
  intros Hx Hy Hz E1 E2 E3 E4 E5.
  destruct (add_wf dbg t y z Hy Hz) as (r & Er & W1 & V1). rewrite E1 in Er. injection Er as <-.
  apply mul_value_claim in E2; [|apply Hx|apply W1].
  apply mul_value_claim in E3; [|apply Hx|apply Hy].
  apply mul_value_claim in E4; [|apply Hx|apply Hz].
  destruct E2 as [W2 V2], E3 as [W3 V3], E4 as [W4 V4].
  destruct (add_wf dbg t xy xz W3 W4) as (r & Er & W5 & V5). rewrite E5 in Er. injection Er as <-.
  apply (eq_claim t); auto. nia.
Qed.
Lemma mul_one_claim dbg t x : well_formed t x ->
  exists a b, mul_assign (impl dbg t) x ubig_one = Ret a /\ mul_assign (impl dbg t) ubig_one x = Ret b
    /\ ubig_eqb a x = true /\ ubig_eqb b x = true.
Proof.
  intros Hx. destruct (one_ok _ _ (impl_ok dbg t)) as (H1 & H2 & H3).
  destruct (mul_short_claim dbg t x ubig_one) as (a & E1 & W1 & V1); [apply Hx|assumption|cbn; lia|].
  destruct (mul_short_claim dbg t ubig_one x) as (b & E2 & W2 & V2); [assumption|apply Hx|cbn; lia|].
  exists a, b. repeat split; auto; apply (eq_claim t); auto; unfold num in *; nia.
Qed.
Lemma mul_zero_claim dbg t x : 
  mul_assign (impl dbg t) x ubig_zero = Ret ubig_zero /\ mul_assign (impl dbg t) ubig_zero x = Ret ubig_zero.
Proof.
  unfold mul_assign, mul_big. cbn [ubig_is_zero ubig_zero orb]. rewrite orb_true_r. auto.
Qed.

(** ** scratch buffers *)
Lemma work_claim dbg t x y prod work : valid t x -> valid t y -> valid t prod -> valid t work ->
  (length x + length y <= length prod)%nat ->
  (need (length x) (length y) <= length work)%nat ->
  mul_outcome (mul_big_into_with_work (impl dbg t) x y prod work) (fun '(pr, wk, n) =>
    well_formed t (firstn n pr) /\ num t (firstn n pr) = num t x * num t y
    /\ length pr = length prod /\ length wk = length work).
Proof.
  intros Hx Hy Hp Hw HL HW. apply allowed_outcome. eapply spec_post.
  { apply (with_work_ok _ _ (impl_ok dbg t) false); auto using good_false. }
  intros [[pr wk] n] (L & Dp & Lw & _ & _ & _ & V & N & _).
  repeat split; auto. apply below_firstn, Dp.
Qed.

Lemma work_indep_claim dbg t x y prod work prod' work' r : valid t x -> valid t y ->
  valid t prod -> valid t work -> valid t prod' -> valid t work' ->
  (length x + length y <= length prod)%nat -> (length x + length y <= length prod')%nat ->
  (need (length x) (length y) <= length work)%nat -> (need (length x) (length y) <= length work')%nat ->
  mul_big_into_with_work (impl dbg t) x y prod work = Ret r ->
  forall r', mul_big_into_with_work (impl dbg t) x y prod' work' = Ret r' ->
  firstn (snd r) (fst (fst r)) = firstn (snd r') (fst (fst r')).
Proof.
  intros Hx Hy H1 H2 H3 H4 L1 L2 L3 L4 E r' E'.
  apply (outcome_returns _ _ _ (work_claim dbg t x y prod work Hx Hy H1 H2 L1 L3)) in E.
  apply (outcome_returns _ _ _ (work_claim dbg t x y prod' work' Hx Hy H3 H4 L2 L4)) in E'.
  destruct r as [[pr wk] n], r' as [[pr' wk'] n']. destruct E as (W & V & _), E' as (W' & V' & _).
  apply (wf_eq t); auto. cbn [fst snd]. congruence.
Qed.
