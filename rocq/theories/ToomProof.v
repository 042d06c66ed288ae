(** * ToomProof: mul/toom3.rs. *)
From Coq Require Import ZArith List Bool Lia.
From Verif Require Import Base Digit Spec Hoare DigitOK Slice Mul ListLemmas SliceProof MulProof
  BufProof WorkSize KaratsubaProof.
Import ListNotations.
Open Scope Z_scope.
Open Scope m_scope.

(** [lia] on part of the context *)
Ltac keep_nat := repeat match goal with
  | H : ?T |- _ => lazymatch T with
      | (_ <= _)%nat => fail | (_ < _)%nat => fail | (_ <= _ < _)%nat => fail | (_ <= _ <= _)%nat => fail
      | @eq nat _ _ => fail | nat => fail | not (@eq nat _ _) => fail
      | _ => clear H end
  end.
Ltac nlia := keep_nat; lia.
Ltac keep_Z := repeat match goal with
  | H : ?T |- _ => lazymatch T with
      | (_ <= _)%Z => fail | (_ < _)%Z => fail | (_ <= _ < _)%Z => fail | (_ <= _ <= _)%Z => fail
      | @eq Z _ _ => fail | Z => fail | nat => fail | bool => fail | digits => fail | list Z => fail
      | _ => clear H end
  end.
Ltac zlia := keep_Z; lia.

Section ToomProof.
Variables (B : Z) (D : digit).
Hypothesis OK : digit_ok B D.
Notation val := (value B).
Notation digs := (below B).
Notation "'p' n" := (pw B n) (at level 10, n at level 9).
Notation buf := (buf B).
Notation wbuf := (wbuf B).
Let HB : 1 < B := SliceProof.HB B D OK.
Hint Resolve HB : core.

(** sign and magnitude *)
Definition sgv (s : bool) (v : Z) : Z := if s then - v else v.

Lemma sgv_abs s v : 0 <= v -> Z.abs (sgv s v) = v.
Proof. destruct s; cbn; lia. Qed.
Lemma abs_sgv s x y : (s = true -> x <= y) -> (s = false -> y <= x) -> sgv s (Z.abs (x - y)) = x - y.
Proof.
  destruct s; cbn; intros H1 H2; [specialize (H1 eq_refl)|specialize (H2 eq_refl)]; lia.
Qed.

Definition tpanic (w : panic) : Prop := w = PUnwrap Underflow \/ w = PAssert.
Lemma ufl_t w : ufl w -> tpanic w.
Proof. left. assumption. Qed.

Lemma parts_ok nr0 b : digs nr0 -> (length nr0 <= 3 * b)%nat ->
  total (toom3_parts nr0 b) (fun '(p0, m1, pinf) =>
    digs p0 /\ digs m1 /\ digs pinf /\ (length p0 <= b)%nat /\ (length m1 <= b)%nat
    /\ (length p0 <= length nr0)%nat
    /\ length pinf = (length nr0 - 2 * b)%nat
    /\ val nr0 = val p0 + p b * val m1 + p (2 * b) * val pinf).
Proof.
  intros Hd HL. unfold toom3_parts.
  tstep (drop_val B); [lia|]. intros n0 (H1 & V1 & _).
  rewrite prefix_ok by lia. cbn [bind]. rewrite suffix_ok by lia. cbn [bind].
  tstep (drop_val B); [rewrite skipn_length; lia|]. intros n1 (H2 & V2 & _).
  rewrite sub_slice_ok by lia. cbn [bind]. rewrite suffix_ok by lia. cbn [bind]. ret.
  replace (Nat.min b (length nr0) + n1 - Nat.min b (length nr0))%nat with n1 by lia.
  conj; try (apply below_firstn, Hd); try apply below_firstn, below_skipn, Hd;
    try apply below_skipn, Hd; try (rewrite firstn_length; lia); [rewrite skipn_length; lia|].
  rewrite V1, V2. set (n := length nr0) in *.
  destruct (Nat.le_gt_cases n b) as [Hc|Hc].
  - replace (Nat.min b n) with n by lia. replace (Nat.min (2 * b) n) with n by lia.
    unfold n. rewrite !firstn_all, !skipn_all, firstn_nil. cbn [value]. lia.
  - replace (Nat.min b n) with b by lia. rewrite (value_split B b nr0) at 1 by (fold n; lia).
    destruct (Nat.le_gt_cases n (2 * b)) as [Hc2|Hc2].
    + replace (Nat.min (2 * b) n) with n by lia. unfold n at 2. rewrite skipn_all.
      replace (Nat.min b (n - b)) with (n - b)%nat by lia.
      rewrite (firstn_all2 (n := (n - b)%nat)) by (rewrite skipn_length; lia). cbn [value]. lia.
    + replace (Nat.min (2 * b) n) with (2 * b)%nat by lia.
      replace (Nat.min b (n - b)) with b by lia.
      rewrite (value_split B b (skipn b nr0)) by (rewrite skipn_length; lia).
      rewrite skipn_skipn. replace (b + b)%nat with (2 * b)%nat by lia.
      replace (p (2 * b)) with (p b * p b) by (rewrite <- pw_add; f_equal; lia). ring.
Qed.

Lemma eval_ok b p0 m1 pinf p1 pm1 pm2 :
  digs p0 -> digs m1 -> digs pinf ->
  (length p0 <= b)%nat -> (length m1 <= b)%nat -> (length pinf <= b)%nat ->
  digs p1 -> digs pm1 -> digs pm2 -> val pm1 = 0 -> val pm2 = 0 ->
  (b + 1 <= length p1)%nat -> (b + 1 <= length pm1)%nat -> (b + 1 <= length pm2)%nat ->
  spec tpanic (toom3_eval D p0 m1 pinf p1 pm1 pm2)
    (fun '((p1', l1), (pm1', (s1, lm1)), (pm2', (s2, lm2))) =>
      length p1' = length p1 /\ digs p1' /\ (l1 <= b + 1)%nat
      /\ val (firstn l1 p1') = val p0 + val m1 + val pinf
      /\ length pm1' = length pm1 /\ (lm1 <= b + 1)%nat
      /\ (exists v, buf pm1' lm1 v /\ sgv s1 v = val p0 - val m1 + val pinf)
      /\ length pm2' = length pm2 /\ (lm2 <= b + 1)%nat
      /\ (exists v, buf pm2' lm2 v /\ sgv s2 v = val p0 - 2 * val m1 + 4 * val pinf)).
Proof.
  intros D0 D1 Di L0 L1 Li Dp1 Dm1 Dm2 Z1 Z2 K1 K2 K3. unfold toom3_eval.
  pose proof (value_bound B HB p0 D0) as V0. pose proof (value_bound B HB m1 D1) as V1.
  pose proof (value_bound B HB pinf Di) as Vi.
  pose proof (pw_le B _ _ HB L0) as Q0. pose proof (pw_le B _ _ HB L1) as Q1.
  pose proof (pw_le B _ _ HB Li) as Qi.
  assert (P1 : 100 * p b <= p (b + 1)).
  { replace (b + 1)%nat with (S b) by lia. rewrite pw_S. pose proof (ok_base _ _ OK).
    pose proof (pw_pos B b HB). nia. }
  set (a0 := val p0) in *. set (a1 := val m1) in *. set (a2 := val pinf) in *.
  (* a0 + a2 *)
  tstep (add_into B D OK p0 pinf pm1 (b + 1)); auto; [nlia|fold a0 a2; zlia|].
  fold a0 a2. intros [qm1 n] (Lq & Bq & Hn).
  rewrite prefix_ok by apply Bq. cbn [bind].
  destruct (buf_firstn_digs B _ _ _ Bq) as [Dq Lq'].
  tstep (add_into_any B D OK (firstn n qm1) m1 p1 (b + 1)); auto; [nlia| |].
  { rewrite (buf_first B D OK _ _ _ Bq). fold a1. zlia. }
  rewrite (buf_first B D OK _ _ _ Bq). fold a1.
  intros [q1 l1] (Lq1 & Dq1 & Vq1 & Hl1).
  (* P(-1) *)
  eapply spec_bind.
  { eapply spec_weaken; [apply (buf_abs B D OK); [exact Bq|exact D1|nlia]| |intros a Ha; exact Ha].
    intros w [Hw _]. apply ufl_t, Hw. }
  fold a1. intros [rm1 (s1 & lm1)] (Lr & Br & Hlm & S1 & S1' & _).
  assert (Es1 : sgv s1 (Z.abs (a0 + a2 - a1)) = a0 - a1 + a2).
  { rewrite abs_sgv by assumption. zlia. }
  set (v1 := Z.abs (a0 + a2 - a1)) in *.
  assert (Hv1 : 0 <= v1 < 2 * p b) by (unfold v1; zlia).
  assert (Hlm' : (lm1 <= b + 1)%nat) by nlia. clear Hlm.
  rewrite prefix_ok by apply Br. cbn [bind].
  destruct (buf_firstn_digs B _ _ _ Br) as [Drp Lrp].
  pose proof (buf_first B D OK _ _ _ Br) as Vrp. clearbody v1.
  eapply spec_bind with (R := fun '(r, (sg, m)) =>
    length r = length pm2 /\ (m <= b + 1)%nat /\ exists v, buf r m v /\ sgv sg v = a0 - a1 + 2 * a2).
  { destruct s1; cbn [sgv] in Es1.
    - eapply spec_weaken; [apply (abs_into_any B D OK pinf (firstn lm1 rm1) pm2); auto; nlia|apply ufl_t|].
      rewrite Vrp. fold a2. intros [r (sg & m)] (L & Bv & Hm & Sa & Sb). conj; auto; [nlia|].
      exists (Z.abs (a2 - v1)). split; [assumption|]. rewrite abs_sgv by assumption. zlia.
    - tstep (add_into B D OK (firstn lm1 rm1) pinf pm2 (b + 1)); auto; [nlia|rewrite Vrp; fold a2; zlia|].
      rewrite Vrp. fold a2. intros [r m] (L & Bv & Hm). ret. conj; auto.
      exists (v1 + a2). split; [assumption|]. cbn [sgv]. zlia. }
  intros [r2 (s2 & l2)] (Lr2 & Hl2 & v2 & Bv2 & Ev2).
  tstep (buf_double B D OK); [exact Bv2|]. intros [r3 c3] (Lr3 & v3 & Bv3 & Ev3).
  pose proof (buf_nonneg B D OK _ _ _ Bv2) as Hv2.
  assert (Hv2' : v2 < 3 * p b) by (destruct s2; cbn [sgv] in Ev2; zlia).
  tstep (buf_push B D OK _ _ _ _ (2 * v2) (b + 1) Bv3 Ev3); [zlia|nlia|nlia|].
  intros [r4 l4] (Lr4 & Bv4 & _ & Hl4 & _).
  eapply spec_bind with (R := fun '(r, (sg, m)) =>
    length r = length pm2 /\ (m <= b + 1)%nat /\ exists v, buf r m v /\ sgv sg v = a0 - 2 * a1 + 4 * a2).
  { destruct s2; cbn [sgv] in Ev2.
    - assert (Bv4' : buf r4 (Nat.max l4 (length p0)) (2 * v2)).
      { apply (buf_more B D OK _ _ _ _ Bv4); nlia. }
      tstep (buf_add B D OK _ _ _ p0 Bv4'); [assumption|nlia|].
      intros [r5 c5] (Lr5 & v5 & Bv5 & Ev5). fold a0 in Ev5.
      tstep (buf_push B D OK _ _ _ _ _ (b + 1) Bv5 Ev5); [zlia|nlia|nlia|].
      intros [r6 l6] (Lr6 & Bv6 & _ & Hl6 & _). ret. conj; auto; [nlia|].
      exists (2 * v2 + a0). split; [assumption|]. cbn [sgv]. zlia.
    - eapply spec_weaken; [apply (buf_abs B D OK _ _ _ p0 Bv4); [assumption|nlia]| |].
      { intros w [Hw _]. apply ufl_t, Hw. }
      fold a0. intros [r5 (sg & m)] (L & Bv & Hm & Sa & Sb & _). conj; auto; [nlia|nlia|].
      exists (Z.abs (2 * v2 - a0)). split; [assumption|]. rewrite abs_sgv by assumption. zlia. }
  intros [r5 (s5 & l5)] (Lr5 & Hl5 & v5 & Bv5 & Ev5). ret.
  conj; auto; try nlia; try zlia.
  - exists v1. auto.
  - exists v5. auto.
Qed.

(** adding into the result, or failing the length assertion *)
Lemma res_add_spec result k y : digs result -> digs y -> (k <= length result)%nat ->
  val result + p k * val y < p (length result) ->
  spec tpanic (with_suffix result k (fun s => add_assign_big D s y)) (fun '(r, c) =>
    length r = length result /\ digs r /\ val r = val result + p k * val y).
Proof.
  intros Hd Hy HL Hb. destruct (Nat.le_gt_cases (k + length y) (length result)) as [Hc|Hc].
  - eapply total_post_spec; [apply (res_add B D OK); auto|].
    intros [r c] (? & ? & _ & ?). auto.
  - unfold with_suffix. rewrite with_slice_eq by lia. unfold add_assign_big.
    destruct (Nat.leb_spec (length y) (length (firstn (length result - k) (skipn k result)))) as [H|H].
    + rewrite firstn_length, skipn_length in H. lia.
    + right. reflexivity.
Qed.

Lemma wbuf_sub_t l n v y : wbuf l n v -> digs y ->
  spec tpanic (with_prefix l n (fun s => unwrap_with (sub_assign_big D s y))) (fun '(l', m) =>
    length l' = length l /\ (m <= n)%nat /\ wbuf l' m (v - val y)).
Proof.
  intros H Hy. eapply spec_weaken; [apply (wbuf_sub B D OK l n v y H Hy)| |auto].
  intros w [Hw _]. apply ufl_t, Hw.
Qed.
Lemma buf_abs_t l n v y : buf l n v -> digs y -> (length y <= length l)%nat ->
  spec tpanic (sub_assign_big_abs_sign D l n y) (fun '(l', (sg, m)) =>
    length l' = length l /\ buf l' m (Z.abs (v - val y)) /\ (m <= Nat.max n (length y))%nat
    /\ sgv sg (Z.abs (v - val y)) = v - val y).
Proof.
  intros H Hy HL. eapply spec_weaken; [apply (buf_abs B D OK l n v y H Hy HL)| |].
  - intros w [Hw _]. apply ufl_t, Hw.
  - intros [l' (sg & m)] (L & Hb & Hm & S1 & S2 & _). conj; auto. apply abs_sgv; assumption.
Qed.

(** src/ubig/mul/toom3.rs:267-270: the subtraction is on the low [len_r4]
    digits only and its error is dropped *)
Lemma sub_wrap l v y : digs l -> digs y -> val l = v -> (length y <= length l)%nat ->
  0 <= v - val y < p (length y) ->
  total (with_prefix l (length y) (fun s => sub_assign_big D s y)) (fun '(l', _) =>
    length l' = length l /\ wbuf l' (length y) (v - val y)).
Proof.
  intros Hl Hy Hv HL Hb. pose proof (below_firstn B (length y) l Hl) as Hf.
  assert (Lf : length (firstn (length y) l) = length y) by (rewrite firstn_length; lia).
  eapply spec_with_prefix; [assumption|apply (sub_assign_big_ok B D OK); auto|].
  intros s r (L & Ds & Hr). rewrite Lf in *.
  pose proof (value_split B (length y) l HL) as Es. rewrite Hv in Es.
  pose proof (value_bound B HB s Ds) as Hs. rewrite L in Hs.
  pose proof (value_nonneg B HB _ (below_skipn B (length y) l Hl)) as Hh.
  assert (E : exists k, val s = v - val y + p (length y) * k).
  { destruct r as [n|e].
    - destruct Hr as (_ & V & _). exists (- val (skipn (length y) l)). rewrite Es, V. ring.
    - destruct Hr as (_ & _ & V & _). specialize (V ltac:(lia)).
      exists (1 - val (skipn (length y) l)). rewrite Es, V. ring. }
  destruct E as [k E]. pose proof (pw_pos B (length y) HB).
  assert (k = 0) by nia. subst k.
  split; [len|]. unfold BufProof.wbuf. conj.
  - apply below_app. split; [assumption|apply below_skipn, Hl].
  - len.
  - rewrite firstn_exact by assumption. lia.
Qed.

Lemma rsub_raw l v y : buf l (length y) v -> digs y -> v <= val y ->
  total (with_prefix l (length y) (fun s => rsub_assign_big D s y)) (fun '(l', _) =>
    length l' = length l /\ buf l' (length y) (val y - v)).
Proof.
  intros H Hy Hv. destruct (buf_firstn_digs B _ _ _ H) as [Hd Hl].
  eapply spec_with_prefix; [apply H|apply (rsub_assign_big_ok B D OK); auto|].
  intros s r (L & Ds & Hr). rewrite Hl in *. rewrite (buf_first B D OK _ _ _ H) in Hr.
  destruct r as [n|e]; [|lia]. destruct Hr as (V & _).
  destruct (buf_replace B D OK l _ v s H Ds L). rewrite <- V. auto.
Qed.

Lemma interpolate_ok b n result r1 rm1 rm2 l1 lm1 lm2 l0 l4 s1 s2 c0 c1 c2 c3 c4 :
  0 <= c0 -> 0 <= c1 -> 0 <= c2 -> 0 <= c3 -> 0 <= c4 ->
  c0 < p (2 * b) -> c1 < 2 * p (2 * b) -> c2 < 3 * p (2 * b) -> c3 < 2 * p (2 * b) -> c4 < p (2 * b) ->
  digs result -> (3 * b <= n)%nat -> (n <= length result)%nat ->
  length rm1 = (2 * b + 3)%nat -> length rm2 = (2 * b + 4)%nat -> length r1 = (2 * b + 3)%nat ->
  let h := Nat.min (4 * b) (length result) in
  (l0 <= h)%nat -> (l0 <= 2 * b)%nat -> (l4 <= 2 * b)%nat -> (l4 <= length result - h)%nat ->
  (l1 <= 2 * b + 2)%nat -> (lm1 <= 2 * b + 2)%nat -> (lm2 <= 2 * b + 2)%nat ->
  val (firstn l0 (firstn h result)) = c0 ->
  val (firstn l4 (skipn h result)) = c4 -> normal (firstn l4 (skipn h result)) ->
  wbuf r1 l1 (c0 + c1 + c2 + c3 + c4) -> (s1 = true -> buf r1 l1 (c0 + c1 + c2 + c3 + c4)) ->
  (exists v, buf rm1 lm1 v /\ sgv s1 v = c0 - c1 + c2 - c3 + c4) ->
  (exists v, buf rm2 lm2 v /\ sgv s2 v = c0 - 2 * c1 + 4 * c2 - 8 * c3 + 16 * c4) ->
  val result = c0 + p (4 * b) * c4 ->
  let XY := c0 + p b * c1 + p (2 * b) * c2 + p (3 * b) * c3 + p (4 * b) * c4 in
  XY < p n ->
  spec tpanic (toom3_interpolate D b n result r1 rm1 rm2 l1 lm1 lm2 l0 l4 s1 s2)
    (fun '(r, (r1', r2', r3'), nres) =>
      length r = length result /\ digs r /\ length r1' = length r1 /\ digs r1'
      /\ length r2' = length rm1 /\ digs r2' /\ length r3' = length rm2 /\ digs r3'
      /\ val r = XY /\ (nres <= n)%nat /\ val (firstn nres r) = XY /\ normal (firstn nres r)).
Proof.
  intros C0 C1 C2 C3 C4 U0 U1 U2 U3 U4 Dr Hb Hn Lm1 Lm2 Lr1 h H0 H0' H4 H4' H1 Hm1 Hm2
    V0 V4 N4 W1 B1 (vm1 & Bm1 & Em1) (vm2 & Bm2 & Em2) VR XY HXY.
  unfold toom3_interpolate. fold h.
  assert (Hh : (h <= length result)%nat) by (unfold h; nlia).
  rewrite split_at_ok by assumption. cbn [bind].
  rewrite (prefix_ok _ l4) by (rewrite skipn_length; nlia). cbn [bind].
  rewrite (prefix_ok _ l0) by (rewrite firstn_length; nlia). cbn [bind].
  assert (D0 : digs (firstn l0 (firstn h result))) by (apply below_firstn, below_firstn, Dr).
  assert (D4 : digs (firstn l4 (skipn h result))) by (apply below_firstn, below_skipn, Dr).
  assert (L0 : length (firstn l0 (firstn h result)) = l0) by (rewrite !firstn_length; nlia).
  assert (L4 : length (firstn l4 (skipn h result)) = l4) by (rewrite firstn_length, skipn_length; nlia).
  set (r0 := firstn l0 (firstn h result)) in *. set (r4 := firstn l4 (skipn h result)) in *.
  clearbody r0 r4.
  rewrite (prefix_ok r1) by nlia. cbn [bind].
  destruct (buf_of_wbuf B D OK _ _ _ W1) as [Wb1 Lp1]. destruct Wb1 as (Dp1 & _ & Vp1 & Hp1).
  set (r1p := firstn l1 r1) in *.
  set (PP := p (2 * b)) in *.
  assert (P1 : 100 * PP <= p (2 * b + 1)).
  { replace (2 * b + 1)%nat with (S (2 * b)) by lia. rewrite pw_S. pose proof (ok_base _ _ OK).
    fold PP. apply Z.mul_le_mono_nonneg_r; zlia. }
  assert (P2 : p (2 * b + 1) <= p (2 * b + 2)) by (apply pw_le; auto; nlia).
  set (R1 := c0 + c1 + c2 + c3 + c4) in *.
  pose proof (buf_nonneg B D OK _ _ _ Bm1) as Hvm1. pose proof (buf_nonneg B D OK _ _ _ Bm2) as Hvm2.
  (* 183-196 *)
  eapply spec_bind with (R := fun '(r3, (sg, len, carry)) =>
    length r3 = length rm2 /\ (len <= 2 * b + 2)%nat /\ exists v w, buf r3 len v
      /\ v + p len * of_bool carry = 3 * w /\ sgv sg w = - c1 + c2 - 3 * c3 + 5 * c4).
  { destruct s2; cbn [sgv] in Em2.
    - assert (B' : buf rm2 (Nat.max lm2 l1) vm2) by (apply (buf_more B D OK _ _ _ _ Bm2); nlia).
      tstep (buf_add B D OK _ _ _ r1p B'); [assumption|nlia|].
      intros [r3 c] (L & v & Bv & Ev). ret. conj; auto; [nlia|].
      exists v, (c1 - c2 + 3 * c3 - 5 * c4). conj; auto; [rewrite Ev, Vp1; unfold R1; zlia|cbn [sgv]; zlia].
    - sstep (buf_abs_t _ _ _ r1p Bm2); [assumption|nlia|].
      rewrite Vp1. intros [r3 (sg & m)] (L & Bv & Hm & Es). ret. conj; auto; [nlia|].
      exists (Z.abs (vm2 - R1)), (Z.abs (- c1 + c2 - 3 * c3 + 5 * c4)).
      replace (vm2 - R1) with (3 * (- c1 + c2 - 3 * c3 + 5 * c4)) in * by (unfold R1; zlia).
      conj; auto; cbn [of_bool]; [zlia|]. destruct sg; cbn [sgv] in *; zlia. }
  intros [r3 ((s3 & l3) & k3)] (L3 & H3 & v3 & w3 & B3 & E3 & S3).
  tstep (buf_div3 B D OK _ _ _ _ _ B3 E3).
  clear B3 E3 v3. intros [r3a (l3a & x3)] (L3a & H3a & B3 & N3). clear x3.
  pose proof (buf_nonneg B D OK _ _ _ B3) as Hw3.
  (* 201-211 *)
  rewrite (prefix_ok rm1) by apply Bm1. cbn [bind].
  destruct (buf_firstn_digs B _ _ _ Bm1) as [Dm1 Lm1'].
  pose proof (buf_first B D OK _ _ _ Bm1) as Vm1.
  eapply spec_bind with (R := fun '(r, (len, carry)) =>
    length r = length r1 /\ (len <= 2 * b + 2)%nat /\ exists v, wbuf r len v
      /\ v + p len * of_bool carry = 2 * (c1 + c3)).
  { destruct s1; cbn [sgv] in Em1.
    - assert (B' : buf r1 (Nat.max l1 lm1) R1) by (apply (buf_more B D OK _ _ _ _ (B1 eq_refl)); nlia).
      tstep (buf_add B D OK _ _ _ (firstn lm1 rm1) B'); [assumption|nlia|].
      intros [r c] (L & v & Bv & Ev). ret. conj; auto; [nlia|].
      exists v. split; [apply (wbuf_of_buf B D OK), Bv|]. rewrite Ev, Vm1. unfold R1. zlia.
    - sstep (wbuf_sub_t _ _ _ (firstn lm1 rm1) W1); [assumption|].
      rewrite Vm1. intros [r m] (L & Hm & Bv). ret. conj; auto; [nlia|].
      exists (R1 - vm1). split; [assumption|]. cbn [of_bool]. unfold R1. zlia. }
  intros [r1a (l1a & k1)] (L1a & H1a & v1 & W1a & E1a).
  tstep (wbuf_half B D OK _ _ _ _ _ W1a E1a).
  clear W1a E1a v1. intros [r1b (l1b & x1)] (L1b & H1b & W1b & N1b). clear x1.
  (* 212-230 *)
  eapply spec_bind with (R := fun '(r, (sg, len)) =>
    length r = length rm1 /\ (len <= 2 * b + 2)%nat /\ exists v, buf r len v
      /\ sgv sg v = - c1 + c2 - c3 + c4).
  { destruct s1; cbn [sgv] in Em1.
    - assert (B' : buf rm1 (Nat.max lm1 l0) vm1) by (apply (buf_more B D OK _ _ _ _ Bm1); nlia).
      tstep (buf_add B D OK _ _ _ r0 B'); [assumption|nlia|].
      intros [r c] (L & v & Bv & Ev). rewrite V0 in Ev.
      tstep (buf_push B D OK _ _ _ _ _ (2 * b + 2) Bv Ev); [zlia|nlia|nlia|].
      intros [r' l'] (L' & Bv' & _ & Hl' & _). ret. conj; auto; [nlia|].
      exists (vm1 + c0). split; [assumption|]. cbn [sgv]. zlia.
    - eapply spec_post; [apply (buf_abs_t _ _ _ r0 Bm1); [assumption|nlia]|].
      rewrite V0. intros [r (sg & m)] (L & Bv & Hm & Es). conj; auto; [nlia|].
      exists (Z.abs (vm1 - c0)). split; [assumption|]. rewrite Es. zlia. }
  intros [r2 (sg2 & l2)] (L2 & H2 & v2 & B2 & E2).
  (* 231-244 *)
  rewrite (prefix_ok r2) by apply B2. cbn [bind].
  destruct (buf_firstn_digs B _ _ _ B2) as [D2 L2'].
  pose proof (buf_first B D OK _ _ _ B2) as V2.
  pose proof (buf_nonneg B D OK _ _ _ B2) as Hv2.
  eapply spec_bind with (R := fun '(r, (sg, len, carry)) =>
    length r = length rm2 /\ (len <= 2 * b + 2)%nat /\ exists v w, buf r len v
      /\ v + p len * of_bool carry = 2 * w /\ sgv sg w = c3 - 2 * c4).
  { destruct (xorb sg2 s3) eqn:Ex.
    - assert (B' : buf r3a (Nat.max l3a l2) w3) by (apply (buf_more B D OK _ _ _ _ B3); nlia).
      tstep (buf_add B D OK _ _ _ (firstn l2 r2) B'); [assumption|nlia|].
      intros [r c] (L & v & Bv & Ev). rewrite V2 in Ev. ret. conj; auto; [nlia|nlia|].
      exists v, (sgv sg2 (c3 - 2 * c4)). conj; auto.
      + rewrite Ev. destruct sg2, s3; try discriminate; cbn [sgv] in *; zlia.
      + destruct sg2; cbn [sgv]; zlia.
    - sstep (buf_abs_t _ _ _ (firstn l2 r2) B3); [assumption|nlia|].
      rewrite V2. intros [r (sg & m)] (L & Bv & Hm & Es). ret. conj; auto; [nlia|nlia|].
      exists (Z.abs (w3 - v2)), (Z.abs (c3 - 2 * c4)).
      assert (E : w3 - v2 = sgv (negb s3) (2 * (c3 - 2 * c4))).
      { destruct sg2, s3; try discriminate; cbn [sgv negb] in *; zlia. }
      conj; auto; cbn [of_bool].
      + rewrite E. destruct s3; cbn [sgv negb]; zlia.
      + destruct (Nat.eqb_spec m 0) as [Em|Em].
        * rewrite andb_false_r. cbn [sgv]. destruct Bv as (_ & _ & _ & Bz). rewrite Em, pw_0 in Bz.
          rewrite E in Bz. destruct s3; cbn [sgv negb] in Bz; zlia.
        * rewrite andb_true_r. rewrite E in Es. destruct s3, sg; cbn [sgv negb xorb] in *; zlia. }
  intros [r3b ((s3b & l3b) & k3b)] (L3b & H3b & v3b & w3b & B3b & E3b & S3b).
  tstep (buf_half B D OK _ _ _ _ _ B3b E3b).
  clear B3b E3b v3b. intros [r3c (l3c & x3)] (L3c & H3c & B3c & N3c). clear x3.
  pose proof (buf_nonneg B D OK _ _ _ B3c) as Hw3b.
  (* 245-273 *)
  rewrite (prefix_ok r3c) by apply B3c. cbn [bind].
  destruct (buf_firstn_digs B _ _ _ B3c) as [D3c L3c'].
  pose proof (buf_first B D OK _ _ _ B3c) as V3c.
  pose proof (value_bound B HB r4 D4) as Hb4. rewrite L4, V4 in Hb4.
  eapply spec_bind with (R := fun '(r, len) =>
    length r = length rm2 /\ wbuf r len c3).
  { destruct s3b; cbn [negb sgv] in *.
    - rewrite (num_lt_value B HB _ _ D3c D4 N3c N4), V3c, V4.
      destruct (Z.ltb_spec w3b c4) as [Hlt|Hge].
      + assert (B' : buf r3c (length r4) w3b).
        { rewrite L4. destruct B3c as (X1 & X2 & X3 & X4). unfold BufProof.buf. conj; auto; [nlia|zlia]. }
        rewrite <- L4 at 1. tstep (rsub_raw _ _ _ B'); [assumption|zlia|].
        rewrite V4, L4. intros [r x] (L & Bv).
        tstep (buf_add B D OK _ _ _ r4 Bv); [assumption|nlia|].
        rewrite V4. intros [r' c] (L' & v' & Bv' & Ev').
        eapply total_post_spec; [apply (buf_push B D OK _ _ _ _ _ (2 * b + 2) Bv' Ev'); [zlia|nlia|nlia]|].
        intros [r'' l''] (L'' & Bv'' & _). split; [nlia|].
        replace c3 with (c4 - w3b + c4) by zlia. apply (wbuf_of_buf B D OK), Bv''.
      + assert (B3c' := B3c). destruct B3c' as (X1 & X2 & X3 & X4).
        rewrite <- L4 at 1. tstep (sub_wrap r3c w3b r4); auto; [nlia|rewrite V4, L4; zlia|].
        rewrite V4. intros [r x] (L & Wv). rewrite <- L4.
        eapply total_post_spec; [apply (wbuf_rsub B D OK _ _ _ Wv); [assumption|rewrite V4; zlia]|].
        rewrite V4. intros [r' l'] (L' & _ & Wv' & _). split; [nlia|].
        replace c3 with (c4 - (w3b - c4)) by zlia. assumption.
    - assert (B' : buf r3c (Nat.max l3c l4) w3b) by (apply (buf_more B D OK _ _ _ _ B3c); nlia).
      tstep (buf_add B D OK _ _ _ r4 B'); [assumption|nlia|].
      rewrite V4. intros [r c] (L & v & Bv & Ev).
      tstep (buf_push B D OK _ _ _ _ _ (2 * b + 2) Bv Ev); [zlia|nlia|nlia|].
      intros [r' l'] (L' & Bv' & Hl & Hl' & _).
      tstep (buf_add B D OK _ _ _ r4 Bv'); [assumption|nlia|].
      rewrite V4. intros [r'' c'] (L'' & v'' & Bv'' & Ev'').
      eapply total_post_spec; [apply (buf_push B D OK _ _ _ _ _ (2 * b + 2) Bv'' Ev''); [zlia|nlia|nlia]|].
      intros [r5 l5] (L5 & Bv5 & _). split; [nlia|].
      replace c3 with (w3b + c4 + c4) by zlia. apply (wbuf_of_buf B D OK), Bv5. }
  intros [r3d l3d] (L3d & W3).
  (* 275-290 *)
  rewrite (prefix_ok r1b) by apply W1b. cbn [bind].
  destruct (buf_of_wbuf B D OK _ _ _ W1b) as [Wb1b Lp1b]. destruct Wb1b as (Dp1b & _ & Vp1b & Hp1b).
  eapply spec_bind with (R := fun '(r, len) =>
    length r = length rm1 /\ buf r len (c2 + c4)).
  { destruct sg2; cbn [sgv] in E2.
    - assert (B' : buf r2 (length (firstn l1b r1b)) v2).
      { rewrite Lp1b. destruct B2 as (X1 & X2 & X3 & X4). unfold BufProof.buf. conj; auto; [nlia|zlia]. }
      rewrite <- Lp1b at 1.
      eapply total_post_spec; [apply (buf_rsub B D OK _ _ _ B'); [assumption|rewrite Vp1b; zlia]|].
      rewrite Vp1b. intros [r m] (L & _ & Bv & _). split; [nlia|].
      replace (c2 + c4) with (c1 + c3 - v2) by zlia. assumption.
    - assert (B' : buf r2 (Nat.max l2 l1b) v2) by (apply (buf_more B D OK _ _ _ _ B2); nlia).
      tstep (buf_add B D OK _ _ _ (firstn l1b r1b) B'); [assumption|nlia|].
      rewrite Vp1b. intros [r c] (L & v & Bv & Ev).
      eapply total_post_spec; [apply (buf_push B D OK _ _ _ _ _ (2 * b + 2) Bv Ev); [zlia|nlia|nlia]|].
      intros [r' l'] (L' & Bv' & _). split; [nlia|].
      replace (c2 + c4) with (v2 + (c1 + c3)) by zlia. assumption. }
  intros [r2b l2b] (L2b & B2b).
  sstep (wbuf_sub_t r2b l2b (c2 + c4) r4 (wbuf_of_buf B D OK _ _ _ B2b)); [assumption|].
  rewrite V4. replace (c2 + c4 - c4) with c2 by lia.
  intros [r2c l2c] (L2c & _ & W2).
  rewrite (prefix_ok r3d) by apply W3. cbn [bind].
  destruct (buf_of_wbuf B D OK _ _ _ W3) as [Wb3 Lp3]. destruct Wb3 as (Dp3 & _ & Vp3 & Hp3).
  sstep (wbuf_sub_t r1b l1b (c1 + c3) (firstn l3d r3d) W1b); [assumption|].
  rewrite Vp3. replace (c1 + c3 - c3) with c1 by lia.
  intros [r1c l1c] (L1c & _ & W1c).
  (* 292-296 *)
  rewrite (prefix_ok r1c) by apply W1c. cbn [bind].
  rewrite (prefix_ok r2c) by apply W2. cbn [bind].
  destruct (buf_of_wbuf B D OK _ _ _ W1c) as [Wb1c Lp1c]. destruct Wb1c as (Dp1c & _ & Vp1c & _).
  destruct (buf_of_wbuf B D OK _ _ _ W2) as [Wb2 Lp2]. destruct Wb2 as (Dp2 & _ & Vp2 & _).
  assert (Hnn : forall k c, 0 <= c -> 0 <= p k * c).
  { intros k c Hc. apply Z.mul_nonneg_nonneg; [apply Z.lt_le_incl, pw_pos; auto|assumption]. }
  pose proof (Hnn b c1 C1) as X1. pose proof (Hnn (2 * b)%nat c2 C2) as X2. fold PP in X2.
  pose proof (Hnn (3 * b)%nat c3 C3) as X3. pose proof (Hnn (4 * b)%nat c4 C4) as X4.
  pose proof (pw_le B _ _ HB Hn) as Hpn.
  assert (EXY : XY = c0 + p b * c1 + PP * c2 + p (3 * b) * c3 + p (4 * b) * c4) by reflexivity.
  clearbody XY.
  sstep (res_add_spec result b (firstn l1c r1c)); auto; [nlia|rewrite Vp1c; zlia|].
  rewrite Vp1c. intros [ra xa] (La & Da & Va).
  sstep (res_add_spec ra (2 * b) (firstn l2c r2c)); auto; [nlia|rewrite Vp2, La; fold PP; zlia|].
  rewrite Vp2. fold PP. intros [rb xb] (Lb & Db & Vb).
  sstep (res_add_spec rb (3 * b) (firstn l3d r3d)); auto; [nlia|rewrite Vp3, Lb, La; zlia|].
  rewrite Vp3. intros [rc xc] (Lc & Dc & Vc).
  assert (Vrc : val rc = XY) by zlia.
  tstep (drop_val B); [nlia|]. intros nres (E1 & E4 & E3). ret.
  destruct (firstn_skipn_val B D OK rc n XY 0) as [F1 F2]; auto; [nlia|zlia|zlia|].
  conj; auto; try nlia.
  - apply W1c.
  - apply W2.
  - apply W3.
  - rewrite E4. assumption.
Qed.
End ToomProof.
