(** * Laws: algebraic laws that relate several operations. *)
From Coq Require Import ZArith List Bool Lia.
From Verif Require Import Base Digit Slice Mul Div UBig Text Spec SpecDiv SpecBz Hoare DigitOK ListLemmas Gives
  SliceProof MulProof UBigProof DivProof TypedProof Cases ClaimsBasic ClaimsMul ClaimsDiv ClaimsText
  DivTie SubExact.
From Verif Require ClaimsBz.
Import ListNotations.
Open Scope Z_scope.
Open Scope m_scope.

(** ** sizes *)
Lemma wf_size t x : well_formed t x -> x <> [] ->
  radix t ^ (Z.of_nat (length x) - 1) <= num t x < radix t ^ Z.of_nat (length x).
Proof.
  intros [V N] Hne. pose proof (radix_gt t) as HB.
  pose proof (value_bound (radix t) HB x V) as H. pose proof (normal_lower (radix t) HB x V N Hne) as L.
  unfold pw, num in *. replace (Z.of_nat (length x) - 1) with (Z.of_nat (length x - 1)); [lia|].
  destruct x; [contradiction|]. cbn [length]. lia.
Qed.
Lemma wf_lt t x : well_formed t x -> num t x < radix t ^ Z.of_nat (length x).
Proof. intros [V _]. exact (proj2 (value_bound (radix t) (radix_gt t) x V)). Qed.
Lemma wf_nonneg t x : well_formed t x -> 0 <= num t x.
Proof. intros [V _]. exact (value_nonneg (radix t) (radix_gt t) x V). Qed.
Lemma wf_zero t x : well_formed t x -> num t x = 0 -> x = [].
Proof. intros W H. apply (zero_claim t x W). exact H. Qed.
Lemma wf_ne t x : well_formed t x -> x <> [] -> 0 < num t x.
Proof.
  intros W H. pose proof (wf_nonneg t x W). destruct (Z.eq_dec (num t x) 0) as [E|]; [|lia].
  destruct (H (wf_zero t x W E)).
Qed.

(** a bound on the value bounds the length, and conversely *)
Lemma len_le t x k : well_formed t x -> num t x < radix t ^ Z.of_nat k -> (length x <= k)%nat.
Proof.
  intros W H. destruct x as [|d x]; [cbn; lia|]. assert (Hne : d :: x <> []) by discriminate.
  destruct (wf_size t _ W Hne) as [L _]. pose proof (radix_gt t) as HB.
  destruct (Nat.le_gt_cases (length (d :: x)) k) as [|Hg]; [assumption|exfalso].
  assert (radix t ^ Z.of_nat k <= radix t ^ (Z.of_nat (length (d :: x)) - 1))
    by (apply Z.pow_le_mono_r; lia). lia.
Qed.
Lemma len_ge t x k : well_formed t x -> radix t ^ Z.of_nat k <= num t x -> (k < length x)%nat.
Proof.
  intros W H. pose proof (wf_lt t x W) as L. pose proof (radix_gt t) as HB.
  destruct (Nat.lt_ge_cases k (length x)) as [|Hg]; [assumption|exfalso].
  assert (radix t ^ Z.of_nat (length x) <= radix t ^ Z.of_nat k) by (apply Z.pow_le_mono_r; lia). lia.
Qed.

(** ** addition and subtraction *)
Lemma add_wf dbg t x y : well_formed t x -> well_formed t y ->
  exists r, add_assign (impl dbg t) x y = Ret r /\ well_formed t r /\ num t r = num t x + num t y.
Proof.
  intros [V1 N1] [V2 N2]. destruct (add_claim dbg t x y V1 V2) as (r & E & V & H & N).
  exists r. repeat split; auto.
Qed.

Lemma add_sub_claim dbg t x y : well_formed t x -> well_formed t y ->
  exists s r, add_assign (impl dbg t) x y = Ret s /\ sub_assign (impl dbg t) s y = Ret r
    /\ num t r = num t x
    /\ (r = x <-> ~ (num t (skipn (length y) s) = 1 /\ num t x < radix t ^ (Z.of_nat (length y) - 1))).
Proof.
  intros Wx Wy. destruct (add_wf dbg t x y Wx Wy) as (s & E & Ws & Vs).
  destruct (sub_claim dbg t s y (proj1 Ws) Wy) as [_ H].
  pose proof (wf_nonneg t x Wx) as Hx. destruct H as (r & E2 & Vr & Hr); [lia|].
  exists s, r. split; [exact E|]. split; [exact E2|]. assert (Er : num t r = num t x) by lia.
  split; [exact Er|].
  pose proof (sub_normal_iff_claim dbg t s y r Ws Wy E2) as HN. rewrite Er in HN. rewrite <- HN.
  split.
  - intros ->. apply Wx.
  - intros N. apply (wf_eq t); auto. split; assumption.
Qed.

Lemma sub_self_claim dbg t x : well_formed t x -> sub_assign (impl dbg t) x x = Ret [].
Proof.
  intros Wx. destruct (sub_claim dbg t x x (proj1 Wx) Wx) as [_ H].
  destruct H as (r & E & Vr & Hr); [lia|]. rewrite E. f_equal.
  pose proof (sub_normal_iff_claim dbg t x x r Wx Wx E) as HN.
  apply (wf_zero t); [|lia]. split; [exact Vr|]. apply HN. intros [H1 _].
  rewrite skipn_all in H1. discriminate H1.
Qed.

(** adding to a number with as many digits as a normal one *)
Lemma add_same_length dbg t x y r : valid t x -> well_formed t y -> length x = length y ->
  add_assign (impl dbg t) x y = Ret r -> well_formed t r.
Proof.
  intros Vx [Vy Ny] HL E. pose proof (impl_ok dbg t) as OK.
  assert (HT : total (add_assign (impl dbg t) x y) (fun r => well_formed t r)).
  { unfold add_assign, add_assign_big_at_offset. rewrite HL.
    destruct (Nat.leb_spec (length y) 0) as [H0|H0].
    - ret. assert (x = []) as -> by (destruct x; [reflexivity|cbn in HL; lia]).
      assert (y = []) as -> by (destruct y; [reflexivity|cbn in H0; lia]). split; assumption.
    - rewrite Nat.sub_0_r, Nat.leb_refl.
      eapply total_bind.
      + eapply (spec_with_suffix never); [lia|cbn [skipn]; apply (add_assign_big_ok _ _ OK x y Vx Vy); lia|].
        intros s c H. cbn [firstn app]. exact H.
      + intros [s c] (Ls & Ds & HV). ret. destruct c; cbn [of_bool] in HV.
        * split; [|apply normal_snoc; discriminate]. apply below_app. split; [exact Ds|].
          apply below_cons. split; [pose proof (radix_gt t); lia|apply below_nil].
        * split; [exact Ds|]. apply (normal_grow _ _ OK s y); auto; [lia|].
          pose proof (value_nonneg (radix t) (radix_gt t) x Vx). lia. }
  exact (spec_returns _ _ _ _ HT E).
Qed.

Lemma sub_add_claim dbg t x y : well_formed t x -> well_formed t y -> num t y <= num t x ->
  exists d, sub_assign (impl dbg t) x y = Ret d /\ add_assign (impl dbg t) d y = Ret x.
Proof.
  intros Wx Wy Hle. destruct (sub_claim dbg t x y (proj1 Wx) Wy) as [_ H].
  destruct (H Hle) as (d & E & Vd & Hd). exists d. split; [exact E|].
  destruct (add_claim dbg t d y Vd (proj1 Wy)) as (r & Er & Vr & Hr & Nr).
  rewrite Er. f_equal. apply (wf_eq t); [|exact Wx|lia].
  destruct (spec_returns _ _ _ _ (sub_assign_ok _ _ (impl_ok dbg t) x y (proj1 Wx) (proj1 Wy) (proj2 Wy)) E)
    as (_ & _ & HN & _).
  destruct (HN (proj2 Wx)) as [N|L].
  - split; [exact Vr|]. apply Nr; [exact N|apply Wy].
  - exact (add_same_length dbg t d y r Vd Wy L Er).
Qed.

(** ** multiplication and division *)
Lemma divided_unique dbg t x y q r : divided dbg t x y -> well_formed t q -> well_formed t r ->
  num t x = num t q * num t y + num t r -> num t r < num t y ->
  div_assign (impl dbg t) x y = Ret q /\ rem_assign (impl dbg t) x y = Ret r.
Proof.
  intros (q' & r' & _ & _ & E1 & E2 & Wq & Wr & H1 & H2) W1 W2 HE HL. rewrite E1, E2.
  pose proof (wf_nonneg t r W2) as Hr. pose proof (wf_nonneg t r' Wr) as Hr'.
  assert (num t q' = num t q /\ num t r' = num t r) as [A B].
  { apply (Z.div_mod_unique (num t y)); lia. }
  split; f_equal; apply (wf_eq t); auto.
Qed.

Lemma right_claim dbg t x y : well_formed t x -> well_formed t y -> y <> [] -> division_right t x y ->
  divided dbg t x y.
Proof.
  intros Wx Wy Hy [H|[[HL H]|(HL & HJ & H)]].
  - apply div_short_claim; auto. lia.
  - apply div_short_claim; auto.
  - destruct (is_binary t) eqn:Hb.
    + apply ClaimsBz.bz_untied_claim; auto.
    + destruct H as [H1 H2]. apply ClaimsBz.bz_scaling_claim; auto.
Qed.

Lemma mul_div_claim dbg t x y p : well_formed t x -> well_formed t y -> y <> [] ->
  mul_assign (impl dbg t) x y = Ret p -> division_right t p y ->
  div_assign (impl dbg t) p y = Ret x /\ rem_assign (impl dbg t) p y = Ret [].
Proof.
  intros Wx Wy Hy E HD. apply mul_value_claim in E; [|apply Wx|apply Wy]. destruct E as [Wp Hp].
  apply divided_unique; auto.
  - apply right_claim; auto.
  - split; [apply below_nil|apply normal_nil].
  - rewrite Hp. change (num t []) with 0. lia.
  - apply wf_ne; auto.
Qed.

Lemma div_mul_claim dbg t x y : well_formed t x -> well_formed t y -> y <> [] -> division_right t x y ->
  exists q r, div_assign (impl dbg t) x y = Ret q /\ rem_assign (impl dbg t) x y = Ret r
    /\ ubig_cmp r y = Lt
    /\ (forall p, mul_assign (impl dbg t) q y = Ret p -> add_assign (impl dbg t) p r = Ret x)
    /\ ((length y < 20)%nat -> exists p, mul_assign (impl dbg t) q y = Ret p).
Proof.
  intros Wx Wy Hy HD.
  destruct (right_claim dbg t x y Wx Wy Hy HD) as (q & r & _ & _ & E1 & E2 & Wq & Wr & H1 & H2).
  exists q, r. repeat split; auto.
  - rewrite (cmp_claim t r y Wr Wy). apply Z.compare_lt_iff. lia.
  - intros p E. apply mul_value_claim in E; [|apply Wq|apply Wy]. destruct E as [Wp Hp].
    destruct (add_wf dbg t p r Wp Wr) as (s & E4 & Ws & Hs).
    rewrite E4. f_equal. apply (wf_eq t); auto. lia.
  - intros HL. destruct (mul_short_claim dbg t q y (proj1 Wq) (proj1 Wy) (or_intror HL)) as (p & E3 & _).
    exists p. exact E3.
Qed.

(** ** lengths *)
Lemma add_length_claim dbg t x y r : well_formed t x -> well_formed t y ->
  add_assign (impl dbg t) x y = Ret r ->
  (Nat.max (length x) (length y) <= length r <= S (Nat.max (length x) (length y)))%nat.
Proof.
  intros Wx Wy E. destruct (add_wf dbg t x y Wx Wy) as (s & E' & Wr & Hr).
  assert (s = r) as -> by congruence. pose proof (radix_gt t) as HB.
  pose proof (wf_nonneg t x Wx) as Px. pose proof (wf_nonneg t y Wy) as Py. split.
  - assert (H : forall z, well_formed t z -> num t z <= num t r -> (length z <= length r)%nat).
    { intros z Wz Hz. apply (len_le t); auto. pose proof (wf_lt t r Wr). lia. }
    pose proof (H x Wx ltac:(lia)). pose proof (H y Wy ltac:(lia)). lia.
  - apply (len_le t); [exact Wr|].
    pose proof (wf_lt t x Wx) as Lx. pose proof (wf_lt t y Wy) as Ly.
    set (m := Nat.max (length x) (length y)) in *.
    assert (radix t ^ Z.of_nat (length x) <= radix t ^ Z.of_nat m) by (apply Z.pow_le_mono_r; lia).
    assert (radix t ^ Z.of_nat (length y) <= radix t ^ Z.of_nat m) by (apply Z.pow_le_mono_r; lia).
    rewrite Nat2Z.inj_succ, Z.pow_succ_r by lia. nia.
Qed.

Lemma mul_length_claim dbg t x y r : well_formed t x -> well_formed t y -> x <> [] -> y <> [] ->
  mul_assign (impl dbg t) x y = Ret r ->
  length r = (length x + length y)%nat \/ S (length r) = (length x + length y)%nat.
Proof.
  intros Wx Wy Hx Hy E. apply mul_value_claim in E; [|apply Wx|apply Wy]. destruct E as [Wr Hr].
  destruct (wf_size t x Wx Hx) as [Lx Ux]. destruct (wf_size t y Wy Hy) as [Ly Uy].
  pose proof (radix_gt t) as HB.
  assert (P : forall k, 0 <= k -> 0 < radix t ^ k) by (intros; apply Z.pow_pos_nonneg; lia).
  assert (Nx : (0 < length x)%nat) by (destruct x; [contradiction|cbn; lia]).
  assert (Ny : (0 < length y)%nat) by (destruct y; [contradiction|cbn; lia]).
  assert (H1 : (length r <= length x + length y)%nat).
  { apply (len_le t); [exact Wr|]. rewrite Hr, Nat2Z.inj_add, Z.pow_add_r by lia.
    pose proof (P (Z.of_nat (length x) - 1) ltac:(lia)). pose proof (P (Z.of_nat (length y) - 1) ltac:(lia)).
    apply Z.mul_lt_mono_nonneg; lia. }
  assert (H2 : (length x + length y - 2 < length r)%nat).
  { apply (len_ge t); [exact Wr|]. rewrite Hr.
    replace (Z.of_nat (length x + length y - 2)) with ((Z.of_nat (length x) - 1) + (Z.of_nat (length y) - 1)) by lia.
    rewrite Z.pow_add_r by lia.
    pose proof (P (Z.of_nat (length x) - 1) ltac:(lia)). pose proof (P (Z.of_nat (length y) - 1) ltac:(lia)).
    apply Z.mul_le_mono_nonneg; lia. }
  lia.
Qed.

Lemma div_length_claim dbg t x y q r : well_formed t x -> well_formed t y -> y <> [] ->
  division_right t x y -> (length y <= length x)%nat ->
  div_assign (impl dbg t) x y = Ret q -> rem_assign (impl dbg t) x y = Ret r ->
  (length r <= length y)%nat
  /\ (length q = (length x - length y)%nat \/ length q = S (length x - length y)%nat).
Proof.
  intros Wx Wy Hy HD Hle E1 E2.
  destruct (right_claim dbg t x y Wx Wy Hy HD) as (q' & r' & _ & _ & E1' & E2' & Wq & Wr & H1 & H2).
  assert (q' = q) as -> by congruence. assert (r' = r) as -> by congruence.
  assert (Hx : x <> []) by (intros ->; destruct y; [contradiction|cbn in Hle; lia]).
  destruct (wf_size t x Wx Hx) as [Lx Ux]. destruct (wf_size t y Wy Hy) as [Ly Uy].
  pose proof (radix_gt t) as HB. pose proof (wf_nonneg t q Wq) as Pq.
  assert (Ny : (0 < length y)%nat) by (destruct y; [contradiction|cbn; lia]).
  split; [apply (len_le t); [exact Wr|lia]|].
  assert (H3 : (length q <= S (length x - length y))%nat).
  { apply (len_le t); [exact Wq|]. 
    assert (HE : radix t ^ Z.of_nat (length x)
                 = radix t ^ Z.of_nat (S (length x - length y)) * radix t ^ (Z.of_nat (length y) - 1)).
    { rewrite <- Z.pow_add_r by lia. f_equal. lia. }
    assert (0 < radix t ^ (Z.of_nat (length y) - 1)) by (apply Z.pow_pos_nonneg; lia). nia. }
  assert (H4 : (length x - length y <= length q)%nat).
  { destruct (length x - length y)%nat as [|k] eqn:Ek; [lia|]. 
    assert (k < length q)%nat; [|lia]. apply (len_ge t); [exact Wq|].
    assert (HE : radix t ^ (Z.of_nat (length x) - 1) = radix t ^ Z.of_nat k * radix t ^ Z.of_nat (length y)).
    { rewrite <- Z.pow_add_r by lia. f_equal. lia. }
    assert (0 < radix t ^ Z.of_nat (length y)) by (apply Z.pow_pos_nonneg; lia).
    assert (num t x < (num t q + 1) * radix t ^ Z.of_nat (length y)) by nia. nia. }
  lia.
Qed.

(** ** shifts *)
Lemma shl_bin_wf dbg t x n : is_binary t = true -> well_formed t x -> x <> [] -> 0 <= n ->
  exists r, shl_assign dbg t x n = Ret r /\ well_formed t r /\ num t r = num t x * 2 ^ n /\ r <> [].
Proof.
  intros Hb W Hne Hn. destruct (shl_bin_claim dbg t x n Hb (proj1 W) Hn) as (r & E & V & H & N).
  assert (Wr : well_formed t r) by (split; [exact V|apply N; [apply W|auto]]).
  exists r. repeat split; auto; try apply Wr. intros ->.
  pose proof (wf_ne t x W Hne). pose proof (Z.pow_pos_nonneg 2 n ltac:(lia) Hn).
  change (num t []) with 0 in H. nia.
Qed.

Lemma shl_shl_claim dbg t x m n : is_binary t = true -> well_formed t x -> x <> [] -> 0 <= m -> 0 <= n ->
  exists r s, shl_assign dbg t x m = Ret r /\ shl_assign dbg t r n = Ret s
    /\ shl_assign dbg t x (m + n) = Ret s.
Proof.
  intros Hb W Hne Hm Hn. destruct (shl_bin_wf dbg t x m Hb W Hne Hm) as (r & E1 & W1 & V1 & N1).
  destruct (shl_bin_wf dbg t r n Hb W1 N1 Hn) as (s & E2 & W2 & V2 & _).
  destruct (shl_bin_wf dbg t x (m + n) Hb W Hne ltac:(lia)) as (s' & E3 & W3 & V3 & _).
  exists r, s. repeat split; auto. rewrite E3. f_equal. apply (wf_eq t); auto.
  rewrite V3, V2, V1, Z.pow_add_r by lia. ring.
Qed.

Lemma bits_radix t : is_binary t = true -> radix t = 2 ^ bits t.
Proof. destruct t; intros H; try discriminate; reflexivity. Qed.

Lemma shl_shr_claim dbg t x n : well_formed t x -> 0 <= n ->
  (if is_binary t then x <> [] else n <= 4 * Z.of_nat (MAX_HEX_PLACES t)) ->
  exists r, shl_assign dbg t x n = Ret r /\ shr_assign dbg t r n = Ret x.
Proof.
  intros W Hn HC. pose proof (radix_gt t) as HB.
  assert (P2 : 0 < 2 ^ n) by (apply Z.pow_pos_nonneg; lia).
  destruct (is_binary t) eqn:Hb.
  - destruct (shl_bin_wf dbg t x n Hb W HC Hn) as (r & E & Wr & Vr & Nr).
    exists r. split; [exact E|].
    destruct (shr_claim dbg t r n Wr Hn) as (s & Es & Ws & Vs).
    + rewrite Hb. pose proof (bits_pos t) as Hbp.
      assert (Hq : 0 <= n / bits t) by (apply Z.div_pos; lia).
      assert (Hl : (Z.to_nat (n / bits t) < length r)%nat); [|lia].
      apply (len_ge t); [exact Wr|]. rewrite Z2Nat.id by lia.
      rewrite (bits_radix t Hb), <- Z.pow_mul_r, Vr by lia.
      pose proof (wf_ne t x W HC) as Hx.
      assert (2 ^ (bits t * (n / bits t)) <= 2 ^ n).
      { apply Z.pow_le_mono_r; [lia|]. apply Z.mul_div_le. lia. }
      nia.
    + rewrite Es. f_equal. apply (wf_eq t); auto. rewrite Vs, Vr. apply Z.div_mul. lia.
  - assert (H2 : 2 ^ n < radix t) by (apply (hex_places_dec t n Hb); lia).
    assert (H40 : forall k, 0 < k -> 2 ^ n < radix t ^ k).
    { intros k Hk. eapply Z.lt_le_trans; [exact H2|]. rewrite <- (Z.pow_1_r (radix t)) at 1.
      apply Z.pow_le_mono_r; lia. }
    destruct (shl_dec_total_claim dbg t x n Hb (proj1 W) Hn (H40 40 eq_refl) (or_introl (H40 19 eq_refl)))
      as (r & E & V & Vr & Nr).
    assert (Wr : well_formed t r) by (split; [exact V|apply Nr, W]).
    exists r. split; [exact E|].
    destruct (shr_claim dbg t r n Wr Hn) as (s & Es & Ws & Vs); [rewrite Hb; exact HC|].
    rewrite Es. f_equal. apply (wf_eq t); auto. rewrite Vs, Vr. apply Z.div_mul. lia.
Qed.

Lemma one_wf t : well_formed t [1] /\ num t [1] = 1.
Proof.
  pose proof (radix_gt t). repeat split.
  - apply below_cons. split; [lia|apply below_nil].
  - apply (normal_snoc [] 1). discriminate.
  - unfold num. cbn [value]. lia.
Qed.

(** shifting is multiplying by a shifted one *)
Lemma shl_mul_claim dbg t x n p r : is_binary t = true -> well_formed t x -> x <> [] -> 0 <= n ->
  shl_assign dbg t [1] n = Ret p -> mul_assign (impl dbg t) x p = Ret r -> shl_assign dbg t x n = Ret r.
Proof.
  intros Hb W Hne Hn E1 E2. destruct (one_wf t) as [W1 V1].
  destruct (shl_bin_wf dbg t [1] n Hb W1 ltac:(discriminate) Hn) as (p' & E1' & Wp & Vp & _).
  assert (p' = p) as -> by congruence.
  apply mul_value_claim in E2; [|apply W|apply Wp]. destruct E2 as [Wr Vr].
  destruct (shl_bin_wf dbg t x n Hb W Hne Hn) as (s & E & Ws & Vs & _). rewrite E. f_equal.
  apply (wf_eq t); auto. rewrite Vs, Vr, Vp, V1. ring.
Qed.

(** ** powers *)
Lemma pow_zero_one_claim dbg t x : well_formed t x ->
  pow (impl dbg t) x 0 = Ret [1] /\ pow (impl dbg t) x 1 = Ret x.
Proof.
  intros W. destruct (one_wf t) as [W1 V1]. split; [reflexivity|].
  change (Ret x) with (Ret (A := digits) x).
  assert (E : pow (impl dbg t) x 1 = Ret x) by reflexivity. exact E.
Qed.

Lemma pow_small n e e' m : 0 <= n -> (e <= e')%N -> 1 < m -> n ^ Z.of_N e' < m -> n ^ Z.of_N e < m.
Proof.
  intros Hn He Hm H. destruct (Z.eq_dec n 0) as [->|Hn0].
  - destruct (N.eq_dec e 0) as [->|]; [cbn; lia|]. rewrite Z.pow_0_l by lia. lia.
  - eapply Z.le_lt_trans; [|exact H]. apply Z.pow_le_mono_r; lia.
Qed.

Lemma pow_add_claim dbg t x a b r1 r2 r3 r4 : well_formed t x ->
  num t x ^ Z.of_N ((a + b) / 2) < radix t ^ 1131 ->
  pow (impl dbg t) x a = Ret r1 -> pow (impl dbg t) x b = Ret r2 ->
  mul_assign (impl dbg t) r1 r2 = Ret r3 -> pow (impl dbg t) x (a + b) = Ret r4 -> r3 = r4.
Proof.
  intros W HL E1 E2 E3 E4. pose proof (wf_nonneg t x W) as Hx.
  assert (H1131 : 1 < radix t ^ 1131) by (apply Z.pow_gt_1; [apply radix_gt|reflexivity]).
  assert (HS : forall e, (e <= a + b)%N -> num t x ^ Z.of_N (e / 2) < radix t ^ 1131).
  { intros e He. apply (pow_small _ _ ((a + b) / 2)%N); auto. apply N.div_le_mono; lia. }
  apply pow_value_claim in E1; auto; [|apply HS; lia].
  apply pow_value_claim in E2; auto; [|apply HS; lia].
  apply pow_value_claim in E4; auto.
  destruct E1 as [W1 V1], E2 as [W2 V2], E4 as [W4 V4].
  apply mul_value_claim in E3; [|apply W1|apply W2]. destruct E3 as [W3 V3].
  apply (wf_eq t); auto. rewrite V3, V4, V1, V2, N2Z.inj_add, Z.pow_add_r by lia. reflexivity.
Qed.

Lemma pow_pow_value_claim dbg t x a b y z z' : well_formed t x -> (1 <= b)%N ->
  num t x ^ Z.of_N (a * b / 2) < radix t ^ 1131 ->
  pow (impl dbg t) x a = Ret y -> pow (impl dbg t) y b = Ret z ->
  pow (impl dbg t) x (a * b) = Ret z' -> z = z'.
Proof.
  intros W Hb HL E1 E2 E3. pose proof (wf_nonneg t x W) as Hx.
  assert (H1131 : 1 < radix t ^ 1131) by (apply Z.pow_gt_1; [apply radix_gt|reflexivity]).
  assert (HS : forall e, (e <= a * b / 2)%N -> num t x ^ Z.of_N e < radix t ^ 1131).
  { intros e He. apply (pow_small _ _ (a * b / 2)%N); auto. }
  apply pow_value_claim in E1; auto; [|apply HS; apply N.div_le_mono; [lia|nia]].
  destruct E1 as [W1 V1].
  apply pow_value_claim in E2; auto.
  2:{ rewrite V1, <- Z.pow_mul_r, <- N2Z.inj_mul by apply N2Z.is_nonneg. apply HS.
      apply N.div_le_lower_bound; [lia|]. pose proof (N.mul_div_le b 2 ltac:(lia)). nia. }
  apply pow_value_claim in E3; auto.
  destruct E2 as [W2 V2], E3 as [W3 V3].
  apply (wf_eq t); auto. rewrite V2, V3, V1, <- Z.pow_mul_r, N2Z.inj_mul by lia. reflexivity.
Qed.

Lemma pow_pow_claim dbg t x a b : well_formed t x -> 0 < num t x -> (1 <= b)%N ->
  num t x ^ Z.of_N (a * b) < radix t ^ 40 ->
  exists y z, pow (impl dbg t) x a = Ret y /\ pow (impl dbg t) y b = Ret z
    /\ pow (impl dbg t) x (a * b) = Ret z.
Proof.
  intros W Hx Hb HL.
  assert (H40 : 1 < radix t ^ 40) by (apply Z.pow_gt_1; [apply radix_gt|reflexivity]).
  destruct (pow_total_claim dbg t x a W) as (y & E1 & W1 & V1).
  { apply (pow_small _ _ (a * b)%N); auto; [lia|nia]. }
  destruct (pow_total_claim dbg t y b W1) as (z & E2 & W2 & V2).
  { rewrite V1, <- Z.pow_mul_r by lia. rewrite <- N2Z.inj_mul. exact HL. }
  destruct (pow_total_claim dbg t x (a * b)%N W HL) as (z' & E3 & W3 & V3).
  exists y, z. repeat split; auto. rewrite E3. f_equal. apply (wf_eq t); auto.
  rewrite V3, V2, V1, <- Z.pow_mul_r, N2Z.inj_mul by lia. reflexivity.
Qed.

(** ** order *)
Lemma cmp_order_claim t x y z : well_formed t x -> well_formed t y -> well_formed t z ->
  (ubig_cmp x y = Eq <-> x = y)
  /\ ubig_cmp y x = CompOpp (ubig_cmp x y)
  /\ (ubig_cmp x y = Lt -> ubig_cmp y z = Lt -> ubig_cmp x z = Lt).
Proof.
  intros Wx Wy Wz. rewrite (cmp_claim t x y), (cmp_claim t y x), (cmp_claim t y z), (cmp_claim t x z) by auto.
  repeat split.
  - intros H. apply Z.compare_eq in H. apply (wf_eq t); auto.
  - intros ->. apply Z.compare_refl.
  - apply Z.compare_antisym.
  - rewrite !Z.compare_lt_iff. lia.
Qed.

Lemma add_cmp_claim dbg t x y z : well_formed t x -> well_formed t y -> well_formed t z ->
  exists r s, add_assign (impl dbg t) x z = Ret r /\ add_assign (impl dbg t) y z = Ret s
    /\ ubig_cmp r s = ubig_cmp x y.
Proof.
  intros Wx Wy Wz. destruct (add_wf dbg t x z Wx Wz) as (r & E1 & W1 & V1).
  destruct (add_wf dbg t y z Wy Wz) as (s & E2 & W2 & V2). exists r, s. repeat split; auto.
  rewrite (cmp_claim t r s), (cmp_claim t x y), V1, V2 by auto.
  rewrite (Z.add_comm (num t x)), (Z.add_comm (num t y)). apply Zcompare_plus_compat.
Qed.

Lemma mul_cmp_claim dbg t x y z r s : well_formed t x -> well_formed t y -> well_formed t z -> z <> [] ->
  mul_assign (impl dbg t) x z = Ret r -> mul_assign (impl dbg t) y z = Ret s ->
  ubig_cmp r s = ubig_cmp x y.
Proof.
  intros Wx Wy Wz Hz E1 E2. apply mul_value_claim in E1; [|apply Wx|apply Wz].
  apply mul_value_claim in E2; [|apply Wy|apply Wz]. destruct E1 as [W1 V1], E2 as [W2 V2].
  rewrite (cmp_claim t r s), (cmp_claim t x y), V1, V2 by auto.
  pose proof (wf_ne t z Wz Hz) as Pz. symmetry. apply Zmult_compare_compat_r. apply Z.lt_gt, Pz.
Qed.

Lemma sub_cmp_claim dbg t x y : well_formed t x -> well_formed t y ->
  (sub_assign (impl dbg t) x y = Panic (PExplicit Underflow) <-> ubig_cmp x y = Lt).
Proof.
  intros Wx Wy. rewrite (cmp_claim t x y), Z.compare_lt_iff by auto.
  destruct (sub_claim dbg t x y (proj1 Wx) Wy) as [H1 H2]. split; [|exact H1].
  intros E. destruct (Z.lt_ge_cases (num t x) (num t y)) as [|H]; [assumption|].
  destruct (H2 H) as (r & E' & _). congruence.
Qed.
