(** * ToomExact: exactly when the parts of Toom-3 stop. *)
From Coq Require Import ZArith List Bool Lia.
From Verif Require Import Base Digit Spec SpecMul SpecToom Hoare DigitOK Slice Mul ListLemmas SliceProof
  MulProof BufProof WorkSize KaratsubaProof KaraExact ToomProof ToomMain ToomLen.
Import ListNotations.
Open Scope Z_scope.
Open Scope m_scope.

Section ToomExact.
Variables (B : Z) (D : digit).
Hypothesis OK : digit_ok B D.
Notation val := (value B).
Notation digs := (below B).
Notation "'p' n" := (pw B n) (at level 10, n at level 9).
Notation buf := (buf B).
Notation wbuf := (wbuf B).
Let HB : 1 < B := SliceProof.HB B D OK.
Hint Resolve HB : core.

Lemma lower_pieces a b c s t : 0 <= a < p s -> 0 <= b < p s -> t = a + p s * b + p (2 * s) * c ->
  lower B t s = a /\ lower B (upper B t s) s = b /\ upper B t (2 * s) = c.
Proof.
  intros Ha Hb ->. unfold lower, upper. change (B ^ Z.of_nat s) with (p s).
  change (B ^ Z.of_nat (2 * s)) with (p (2 * s)).
  assert (E2 : p (2 * s) = p s * p s) by (rewrite <- pw_add; f_equal; lia).
  assert (F1 : (a + p s * b + p (2 * s) * c) mod p s = a).
  { symmetry. apply (Z.mod_unique_pos _ _ (b + p s * c)); [assumption|]. rewrite E2. ring. }
  assert (F2 : (a + p s * b + p (2 * s) * c) / p s = b + p s * c).
  { symmetry. apply (Z.div_unique_pos _ _ _ a); [assumption|]. rewrite E2. ring. }
  rewrite F1, F2. conj; auto.
  - symmetry. apply (Z.mod_unique_pos _ _ c); [assumption|]. ring.
  - symmetry. apply (Z.div_unique_pos _ _ _ (a + p s * b)); [|ring].
    rewrite E2. pose proof (pw_pos B s HB). nia.
Qed.

Lemma parts_exact nr0 b : digs nr0 -> (length nr0 <= 3 * b)%nat ->
  total (toom3_parts nr0 b) (fun '(p0, m1, pinf) =>
    digs p0 /\ digs m1 /\ digs pinf /\ (length p0 <= b)%nat /\ (length m1 <= b)%nat
    /\ (length p0 <= length nr0)%nat
    /\ length pinf = (length nr0 - 2 * b)%nat
    /\ val nr0 = val p0 + p b * val m1 + p (2 * b) * val pinf
    /\ Sample false (length p0) (val p0) = piece0 B (val nr0) b
    /\ Sample false (length m1) (val m1) = piece1 B (val nr0) b
    /\ Sample false (length pinf) (val pinf) = piece2 B (length nr0) (val nr0) b).
Proof.
  intros Hd HL. pose proof (parts_ok B nr0 b Hd HL) as H1.
  assert (H2 : total (toom3_parts nr0 b) (fun '(p0, m1, pinf) => normal p0 /\ normal m1)).
  { unfold toom3_parts. tstep (drop_val B); [lia|]. intros n0 (K1 & V1 & N1).
    rewrite prefix_ok by lia. cbn [bind]. rewrite suffix_ok by lia. cbn [bind].
    tstep (drop_val B); [rewrite skipn_length; lia|]. intros n1 (K2 & V2 & N2).
    rewrite sub_slice_ok by lia. cbn [bind]. rewrite suffix_ok by lia. cbn [bind]. ret.
    replace (Nat.min b (length nr0) + n1 - Nat.min b (length nr0))%nat with n1 by lia. auto. }
  eapply spec_post; [apply (spec_and2 _ _ _ _ _ H1 H2)|].
  intros [[p0 m1] pinf] ((D0 & D1 & D2 & L0 & L1 & L0' & L2 & V) & N0 & N1).
  pose proof (value_bound B HB p0 D0) as V0. pose proof (value_bound B HB m1 D1) as V1.
  pose proof (pw_le B _ _ HB L0) as Q0. pose proof (pw_le B _ _ HB L1) as Q1.
  destruct (lower_pieces (val p0) (val m1) (val pinf) b (val nr0)) as (E0 & E1 & E2); try lia.
  conj; auto.
  - unfold piece0, piece. rewrite E0, (normal_places B D OK) by assumption. reflexivity.
  - unfold piece1, piece. rewrite E1, (normal_places B D OK) by assumption. reflexivity.
  - unfold piece2. rewrite E2, L2. reflexivity.
Qed.

Lemma stop_weaken (P Q : Prop) w : (P -> Q) -> stop P w -> stop Q w.
Proof. intros H [E HP]. split; auto. Qed.

Lemma confused_sign x y x' y' : count x = count x' -> size x = size x' -> count y = count y' -> size y = size y' ->
  confused x y -> confused x' y'.
Proof. unfold confused. intros -> -> -> ->. auto. Qed.

Lemma sample_eq (s : bool) k v (x : sample) : s = negative x -> k = count x -> v = size x -> Sample s k v = x.
Proof. intros -> -> ->. destruct x. reflexivity. Qed.

Lemma eval_exact b p0 m1 pinf p1 pm1 pm2 :
  digs p0 -> digs m1 -> digs pinf ->
  (length p0 <= b)%nat -> (length m1 <= b)%nat -> (length pinf <= b)%nat ->
  digs p1 -> digs pm1 -> digs pm2 -> val pm1 = 0 -> val pm2 = 0 ->
  (b + 1 <= length p1)%nat -> (b + 1 <= length pm1)%nat -> (b + 1 <= length pm2)%nat ->
  let P0 := Sample false (length p0) (val p0) in
  let P1 := Sample false (length m1) (val m1) in
  let P2 := Sample false (length pinf) (val pinf) in
  spec (stop (lost B P0 P1 P2)) (toom3_eval D p0 m1 pinf p1 pm1 pm2)
    (fun '((p1', l1), (pm1', (s1, lm1)), (pm2', (s2, lm2))) =>
      length p1' = length p1 /\ digs p1' /\ (l1 <= b + 1)%nat
      /\ length pm1' = length pm1 /\ (lm1 <= b + 1)%nat
      /\ length pm2' = length pm2 /\ (lm2 <= b + 1)%nat
      /\ ~ lost B P0 P1 P2
      /\ l1 = count (at_one B P0 P1 P2) /\ val (firstn l1 p1') = size (at_one B P0 P1 P2)
      /\ size (at_one B P0 P1 P2) = val p0 + val m1 + val pinf
      /\ Sample s1 lm1 (size (at_minus_one B P0 P1 P2)) = at_minus_one B P0 P1 P2
      /\ buf pm1' lm1 (size (at_minus_one B P0 P1 P2))
      /\ sgv s1 (size (at_minus_one B P0 P1 P2)) = val p0 - val m1 + val pinf
      /\ Sample s2 lm2 (size (at_minus_two B P0 P1 P2)) = at_minus_two B P0 P1 P2
      /\ buf pm2' lm2 (size (at_minus_two B P0 P1 P2))
      /\ sgv s2 (size (at_minus_two B P0 P1 P2)) = val p0 - 2 * val m1 + 4 * val pinf).
Proof.
  intros D0 D1 Di L0 L1 Li Dp1 Dm1 Dm2 Z1 Z2 K1 K2 K3 P0 P1 P2. unfold toom3_eval.
  pose proof (value_bound B HB p0 D0) as V0. pose proof (value_bound B HB m1 D1) as V1.
  pose proof (value_bound B HB pinf Di) as Vi.
  pose proof (pw_le B _ _ HB L0) as Q0. pose proof (pw_le B _ _ HB L1) as Q1.
  pose proof (pw_le B _ _ HB Li) as Qi.
  assert (PB : 100 * p b <= p (b + 1)).
  { replace (b + 1)%nat with (S b) by lia. rewrite pw_S. pose proof (ok_base _ _ OK).
    pose proof (pw_pos B b HB). nia. }
  set (a0 := val p0) in *. set (a1 := val m1) in *. set (a2 := val pinf) in *.
  set (LOST := lost B P0 P1 P2).
  (* a0 + a2 *)
  tstep (add_into_exact B D OK p0 pinf pm1 (b + 1)); auto; [nlia|fold a0 a2; zlia|].
  fold a0 a2. intros [qm1 n] (Lq & Bq & Hn & En).
  rewrite prefix_ok by apply Bq. cbn [bind].
  destruct (buf_firstn_digs B _ _ _ Bq) as [Dq Lq'].
  tstep (add_into_any_exact B D OK (firstn n qm1) m1 p1 (b + 1)); auto; [nlia| |].
  { rewrite (buf_first B D OK _ _ _ Bq). fold a1. zlia. }
  rewrite (buf_first B D OK _ _ _ Bq), Lq'. fold a1.
  intros [q1 l1] (Lq1 & Dq1 & Vq1 & Hl1 & El1).
  assert (Eends : Sample false n (a0 + a2) = ends B P0 P2) by (apply sample_eq; [reflexivity|exact En|reflexivity]).
  (* P(-1) *)
  eapply spec_bind.
  { eapply spec_weaken; [apply (abs_assign_exact B D OK); [exact Bq|exact D1|nlia]| |intros a Ha; exact Ha].
    intros w. apply stop_weaken. fold a1 P1. rewrite Eends. intros Hc. left. exact Hc. }
  fold a1. fold P1. rewrite Eends. fold (at_minus_one B P0 P1 P2).
  intros [rm1 (s1 & lm1)] (Lr & Br & Hlm & Es1 & S1 & C1 & F1).
  assert (Sz1 : size (at_minus_one B P0 P1 P2) = Z.abs (a0 + a2 - a1)) by reflexivity.
  rewrite <- Sz1 in *.
  assert (Hv1 : 0 <= size (at_minus_one B P0 P1 P2) < 2 * p b) by (rewrite Sz1; zlia).
  assert (Em1 : Sample s1 lm1 (size (at_minus_one B P0 P1 P2)) = at_minus_one B P0 P1 P2)
    by (apply sample_eq; auto).
  assert (SN1 : s1 = negative (at_minus_one B P0 P1 P2)) by exact S1.
  set (v1 := size (at_minus_one B P0 P1 P2)) in *.
  assert (Hlm' : (lm1 <= b + 1)%nat) by nlia. clear Hlm.
  rewrite prefix_ok by apply Br. cbn [bind].
  destruct (buf_firstn_digs B _ _ _ Br) as [Drp Lrp].
  pose proof (buf_first B D OK _ _ _ Br) as Vrp.
  eapply spec_bind with (R := fun '(r, (sg, m)) =>
    length r = length pm2 /\ (m <= b + 1)%nat
    /\ ~ (negative (at_minus_one B P0 P1 P2) = true /\ confused P2 (at_minus_one B P0 P1 P2))
    /\ Sample sg m (size (half_way B P0 P1 P2)) = half_way B P0 P1 P2
    /\ buf r m (size (half_way B P0 P1 P2)) /\ sgv sg (size (half_way B P0 P1 P2)) = a0 - a1 + 2 * a2).
  { unfold half_way. rewrite <- SN1. destruct s1; cbn [sgv] in Es1.
    - assert (Ec : forall Q : sample -> Prop, (forall s, Q (Sample s lm1 v1)) -> Q (at_minus_one B P0 P1 P2))
        by (intros Q HQ; rewrite <- Em1; apply HQ).
      eapply spec_weaken; [apply (abs_into_exact B D OK pinf (firstn lm1 rm1) pm2); auto; nlia| |].
      { intros w. apply stop_weaken. rewrite Lrp, Vrp. fold a2. fold P2. intros Hc. right. left.
        split; [symmetry; exact SN1|]. rewrite <- Em1. exact Hc. }
      rewrite Vrp, Lrp. fold a2. fold P2. intros [r (sg & m)] (L & Bv & Hm & Sa & Sb & Sc & Sd).
      assert (Emin : minus B P2 (at_minus_one B P0 P1 P2) = minus B P2 (Sample false lm1 v1))
        by (rewrite <- Em1; reflexivity).
      rewrite Emin. change (size (minus B P2 (Sample false lm1 v1))) with (Z.abs (a2 - v1)).
      conj; auto; [nlia| | |].
      + intros [_ Hc]. rewrite <- Em1 in Hc. exact (Sd Hc).
      + apply sample_eq; auto.
      + rewrite Sa. zlia.
    - tstep (add_into_exact B D OK (firstn lm1 rm1) pinf pm2 (b + 1)); auto; [nlia|rewrite Vrp; fold a2; zlia|].
      rewrite Vrp, Lrp. fold a2. intros [r m] (L & Bv & Hm & Hw). ret.
      assert (Epl : plus B false (at_minus_one B P0 P1 P2) P2 = plus B false (Sample false lm1 v1) P2)
        by (rewrite <- Em1; reflexivity).
      rewrite Epl. change (size (plus B false (Sample false lm1 v1) P2)) with (v1 + a2).
      conj; auto; [intros [Hc _]; discriminate Hc| |].
      + apply sample_eq; auto.
      + cbn [sgv]. zlia. }
  intros [r2 (s2 & l2)] (Lr2 & Hl2 & F2 & Em2 & Bv2 & Ev2).
  set (v2 := size (half_way B P0 P1 P2)) in *.
  tstep (buf_double B D OK); [exact Bv2|]. intros [r3 c3] (Lr3 & v3 & Bv3 & Ev3).
  pose proof (buf_nonneg B D OK _ _ _ Bv2) as Hv2.
  assert (Hv2' : v2 < 3 * p b) by (destruct s2; cbn [sgv] in Ev2; zlia).
  tstep (push_exact B D OK _ _ _ _ (2 * v2) (b + 1) Bv3 Ev3); [zlia|nlia|nlia|].
  intros [r4 l4] (Lr4 & Bv4 & _ & Hl4 & El4).
  assert (Et : Sample s2 l4 (2 * v2) = twice B (half_way B P0 P1 P2))
    by (rewrite <- Em2; apply sample_eq; [reflexivity|exact El4|reflexivity]).
  assert (SN2 : s2 = negative (half_way B P0 P1 P2)) by (rewrite <- Em2; reflexivity).
  eapply spec_bind with (R := fun '(r, (sg, m)) =>
    length r = length pm2 /\ (m <= b + 1)%nat
    /\ ~ (negative (half_way B P0 P1 P2) = false /\ confused (twice B (half_way B P0 P1 P2)) P0)
    /\ Sample sg m (size (at_minus_two B P0 P1 P2)) = at_minus_two B P0 P1 P2
    /\ buf r m (size (at_minus_two B P0 P1 P2))
    /\ sgv sg (size (at_minus_two B P0 P1 P2)) = a0 - 2 * a1 + 4 * a2).
  { unfold at_minus_two. rewrite <- SN2, <- Et. destruct s2; cbn [sgv] in Ev2.
    - assert (Bv4' : buf r4 (Nat.max l4 (length p0)) (2 * v2)).
      { apply (buf_more B D OK _ _ _ _ Bv4); nlia. }
      tstep (buf_add B D OK _ _ _ p0 Bv4'); [assumption|nlia|].
      intros [r5 c5] (Lr5 & v5 & Bv5 & Ev5). fold a0 in Ev5.
      tstep (push_exact B D OK _ _ _ _ _ (b + 1) Bv5 Ev5); [zlia|nlia|nlia|].
      intros [r6 l6] (Lr6 & Bv6 & _ & Hl6 & El6). ret.
      change (size (plus B true (Sample true l4 (2 * v2)) P0)) with (2 * v2 + a0).
      conj; auto; [nlia|intros [Hc _]; discriminate Hc| |].
      + apply sample_eq; auto.
      + cbn [sgv]. zlia.
    - eapply spec_weaken; [apply (abs_assign_exact B D OK _ _ _ p0 Bv4); [assumption|nlia]| |].
      { intros w. apply stop_weaken. fold a0. fold P0. intros Hc. right. right.
        split; [symmetry; exact SN2|]. rewrite <- Et. exact Hc. }
      fold a0. fold P0. intros [r5 (sg & m)] (L & Bv & Hm & Sa & Sb & Sc & Sd).
      change (size (minus_in_place B (Sample false l4 (2 * v2)) P0)) with (Z.abs (2 * v2 - a0)).
      conj; auto; [nlia|nlia| | |].
      + intros [_ Hc]. exact (Sd Hc).
      + apply sample_eq; auto.
      + rewrite Sa. zlia. }
  intros [r5 (s5 & l5)] (Lr5 & Hl5 & F3 & Em5 & Bv5 & Ev5). ret.
  conj; auto; try nlia.
  - intros [Hc|[Hc|Hc]]; auto.
  - rewrite El1, En. reflexivity.
  - change (size (at_one B P0 P1 P2)) with (a0 + a2 + a1). zlia.
  - zlia.
Qed.

Lemma buf_places l n v : buf l n v -> normal (firstn n l) -> n = places B v.
Proof.
  intros H N. destruct (buf_firstn_digs B _ _ _ H) as [Hd Hl].
  rewrite <- (buf_first B D OK _ _ _ H), (normal_places B D OK) by assumption. auto.
Qed.
Lemma wbuf_places l n v : wbuf l n v -> normal (firstn n l) -> n = places B v.
Proof.
  intros (Hd & Hn & HV) N. rewrite <- HV, (normal_places B D OK) by (auto using below_firstn).
  rewrite firstn_length. lia.
Qed.
Lemma places_mono v w : 0 <= v <= w -> (places B v <= places B w)%nat.
Proof. intros H. apply (places_le B D OK). pose proof (places_lt B D OK w ltac:(lia)). lia. Qed.
Lemma places_0 : places B 0 = 0%nat.
Proof. reflexivity. Qed.

(** subtracting nothing drops the leading zeros *)
Lemma wbuf_sub_exact l n v y : wbuf l n v -> digs y -> (length y <= n)%nat -> val y <= v ->
  total (with_prefix l n (fun s => unwrap_with (sub_assign_big D s y))) (fun '(l', m) =>
    length l' = length l /\ (m <= n)%nat /\ wbuf l' m (v - val y)
    /\ m = left_over B n v (length y) (val y)).
Proof.
  intros H Hy HL Hv.
  assert (H2 : total (with_prefix l n (fun s => unwrap_with (sub_assign_big D s y))) (fun '(_, m) =>
    m = left_over B n v (length y) (val y))).
  { destruct H as (Hd & Hn & HV). assert (Hl : length (firstn n l) = n) by (rewrite firstn_length; lia).
    eapply spec_with_prefix with (R := fun '(_, m) => m = left_over B n v (length y) (val y)); [assumption| |].
    - eapply spec_unwrap_with.
      + apply spec_and; [apply (sub_assign_big_ok B D OK)|apply (sub_assign_length B D OK)];
          auto using below_firstn.
      + cbn beta iota. intros r m (_ & Hc). rewrite Hl, HV in Hc. exact Hc.
      + cbn beta iota. intros r e ((_ & _ & _ & Hc & _) & _). rewrite Hl, HV in Hc. unfold never. lia.
    - intros s m Hm. exact Hm. }
  assert (H1 : total (with_prefix l n (fun s => unwrap_with (sub_assign_big D s y))) (fun '(l', m) =>
    length l' = length l /\ (m <= n)%nat /\ wbuf l' m (v - val y))).
  { eapply spec_weaken; [apply (wbuf_sub B D OK l n v y H Hy)| |intros a Ha; exact Ha].
    intros w [_ Hc]. unfold never. lia. }
  eapply spec_post; [apply (spec_and2 _ _ _ _ _ H1 H2)|].
  intros [l' m] ((? & ? & ?) & ?). auto.
Qed.

Lemma interpolate_exact b n result r1 rm1 rm2 l1 lm1 lm2 l0 l4 s1 s2 c0 c1 c2 c3 c4 vm1 vm2 :
  0 <= c0 -> 0 <= c1 -> 0 <= c2 -> 0 <= c3 -> 0 <= c4 ->
  c0 < p (2 * b) -> c1 < 2 * p (2 * b) -> c2 < 3 * p (2 * b) -> c3 < 2 * p (2 * b) -> c4 < p (2 * b) ->
  digs result -> (3 * b + 2 <= n)%nat -> (c4 <> 0 -> (4 * b + 2 <= n)%nat) -> (n <= length result)%nat ->
  length rm1 = (2 * b + 3)%nat -> length rm2 = (2 * b + 4)%nat -> length r1 = (2 * b + 3)%nat ->
  let h := Nat.min (4 * b) (length result) in
  (l0 <= h)%nat -> (l0 <= 2 * b)%nat -> (l4 <= 2 * b)%nat -> (l4 <= length result - h)%nat ->
  (l1 <= 2 * b + 2)%nat -> (lm1 <= 2 * b + 2)%nat -> (lm2 <= 2 * b + 2)%nat ->
  val (firstn l0 (firstn h result)) = c0 ->
  val (firstn l4 (skipn h result)) = c4 -> normal (firstn l4 (skipn h result)) ->
  let R1 := c0 + c1 + c2 + c3 + c4 in
  wbuf r1 l1 R1 -> (s1 = true -> buf r1 l1 R1) ->
  buf rm1 lm1 vm1 -> sgv s1 vm1 = c0 - c1 + c2 - c3 + c4 ->
  buf rm2 lm2 vm2 -> sgv s2 vm2 = c0 - 2 * c1 + 4 * c2 - 8 * c3 + 16 * c4 ->
  l1 = places B R1 -> lm1 = places B vm1 -> lm2 = places B vm2 -> l0 = places B c0 -> l4 = places B c4 ->
  val result = c0 + p (4 * b) * c4 ->
  let XY := c0 + p b * c1 + p (2 * b) * c2 + p (3 * b) * c3 + p (4 * b) * c4 in
  XY < p n ->
  let LOST := together_lost B c0 R1 vm1 vm2 s1 s2 in
  spec (stop LOST) (toom3_interpolate D b n result r1 rm1 rm2 l1 lm1 lm2 l0 l4 s1 s2)
    (fun '(r, (r1', r2', r3'), nres) =>
      length r = length result /\ digs r /\ length r1' = length r1 /\ digs r1'
      /\ length r2' = length rm1 /\ digs r2' /\ length r3' = length rm2 /\ digs r3'
      /\ val r = XY /\ (nres <= n)%nat /\ val (firstn nres r) = XY /\ normal (firstn nres r)
      /\ ~ LOST).
Proof.
  intros C0 C1 C2 C3 C4 U0 U1 U2 U3 U4 Dr Hb Hb4 Hn Lm1 Lm2 Lr1 h H0 H0' H4 H4' H1 Hm1 Hm2
    V0 V4 N4 R1 W1 B1 Bm1 Em1 Bm2 Em2 Pl1 Plm1 Plm2 Pl0 Pl4 VR XY HXY LOST.
  unfold toom3_interpolate. fold h.
  assert (Hh : (h <= length result)%nat) by (unfold h; nlia).
  rewrite split_at_ok by assumption. cbn [bind].
  rewrite (prefix_ok _ l4) by (rewrite skipn_length; nlia). cbn [bind].
  rewrite (prefix_ok _ l0) by (rewrite firstn_length; nlia). cbn [bind].
  assert (D0 : digs (firstn l0 (firstn h result))) by (apply below_firstn, below_firstn, Dr).
  assert (D4 : digs (firstn l4 (skipn h result))) by (apply below_firstn, below_skipn, Dr).
  assert (L0 : length (firstn l0 (firstn h result)) = l0) by (rewrite !firstn_length; nlia).
  assert (L4 : length (firstn l4 (skipn h result)) = l4) by (rewrite firstn_length, skipn_length; nlia).
  set (r0 := firstn l0 (firstn h result)) in *. set (r4 := firstn l4 (skipn h result)) in *.
  clearbody r0 r4.
  rewrite (prefix_ok r1) by nlia. cbn [bind].
  destruct (buf_of_wbuf B D OK _ _ _ W1) as [Wb1 Lp1]. destruct Wb1 as (Dp1 & _ & Vp1 & Hp1).
  set (r1p := firstn l1 r1) in *.
  set (PP := p (2 * b)) in *.
  assert (P1 : 100 * PP <= p (2 * b + 1)).
  { replace (2 * b + 1)%nat with (S (2 * b)) by lia. rewrite pw_S. pose proof (ok_base _ _ OK).
    fold PP. apply Z.mul_le_mono_nonneg_r; zlia. }
  assert (P2 : p (2 * b + 1) <= p (2 * b + 2)) by (apply pw_le; auto; nlia).
  assert (ER1 : R1 = c0 + c1 + c2 + c3 + c4) by reflexivity. clearbody R1.
  pose proof (buf_nonneg B D OK _ _ _ Bm1) as Hvm1. pose proof (buf_nonneg B D OK _ _ _ Bm2) as Hvm2.
  set (w3d := - c1 + c2 - 3 * c3 + 5 * c4).
  assert (Ew3 : w3d = - c1 + c2 - 3 * c3 + 5 * c4) by reflexivity. clearbody w3d.
  assert (Est3 : step3 B R1 vm2 s2 = Sample (s2 || (vm2 <? R1)) (places B (Z.abs w3d)) (Z.abs w3d)).
  { unfold step3. replace ((if s2 then - vm2 else vm2) - R1) with (w3d * 3)
      by (destruct s2; cbn [sgv] in Em2; zlia).
    rewrite Z.div_mul by lia. reflexivity. }
  (* 183-196 *)
  eapply spec_bind with (R := fun '(r3, (sg, len, carry)) =>
    length r3 = length rm2 /\ (len <= 2 * b + 2)%nat /\ sg = (s2 || (vm2 <? R1))%bool /\ exists v, buf r3 len v
      /\ v + p len * of_bool carry = 3 * Z.abs w3d /\ sgv sg (Z.abs w3d) = w3d).
  { destruct s2; cbn [sgv] in Em2.
    - assert (B' : buf rm2 (Nat.max lm2 l1) vm2) by (apply (buf_more B D OK _ _ _ _ Bm2); nlia).
      tstep (buf_add B D OK _ _ _ r1p B'); [assumption|nlia|].
      intros [r3 c] (L & v & Bv & Ev). ret. conj; auto; [nlia|].
      exists v. conj; auto; [rewrite Ev, Vp1; zlia|cbn [sgv]; zlia].
    - eapply spec_bind.
      { eapply spec_weaken; [apply (abs_assign_exact B D OK _ _ _ r1p Bm2); [assumption|nlia]| |intros a Ha; exact Ha].
        intros w [_ Hc]. exfalso. revert Hc. unfold confused. cbn [count size].
        rewrite Lp1, Vp1, Plm2, Pl1. apply (clear_places B D OK); zlia. }
      rewrite Vp1, Lp1. intros [r3 (sg & m)] (L & Bv & Hm & Es & Esg & _). ret.
      unfold minus_in_place in Esg. cbn [negative count size] in Esg.
      rewrite Plm2, Pl1, (precedes_places B D OK) in Esg by zlia.
      conj; auto; [nlia|].
      exists (Z.abs (vm2 - R1)).
      replace (vm2 - R1) with (3 * w3d) in * by zlia.
      conj; auto; cbn [of_bool]; [zlia|]. destruct sg; cbn [sgv] in *; zlia. }
  intros [r3 ((s3 & l3) & k3)] (L3 & H3 & Sg3 & v3 & B3 & E3 & S3).
  set (w3 := Z.abs w3d) in *.
  tstep (buf_div3 B D OK _ _ _ _ _ B3 E3).
  clear B3 E3 v3. intros [r3a (l3a & x3)] (L3a & H3a & B3 & N3). clear x3.
  pose proof (buf_nonneg B D OK _ _ _ B3) as Hw3.
  pose proof (buf_places _ _ _ B3 N3) as Pl3.
  assert (Est3' : Sample s3 l3a w3 = step3 B R1 vm2 s2) by (rewrite Est3, Sg3, Pl3; reflexivity).
  clear Est3 Sg3.
  (* 201-211 *)
  rewrite (prefix_ok rm1) by apply Bm1. cbn [bind].
  destruct (buf_firstn_digs B _ _ _ Bm1) as [Dm1 Lm1'].
  pose proof (buf_first B D OK _ _ _ Bm1) as Vm1.
  eapply spec_bind with (R := fun '(r, (len, carry)) =>
    length r = length r1 /\ (len <= 2 * b + 2)%nat /\ exists v, wbuf r len v
      /\ v + p len * of_bool carry = 2 * (c1 + c3)).
  { destruct s1; cbn [sgv] in Em1.
    - assert (B' : buf r1 (Nat.max l1 lm1) R1) by (apply (buf_more B D OK _ _ _ _ (B1 eq_refl)); nlia).
      tstep (buf_add B D OK _ _ _ (firstn lm1 rm1) B'); [assumption|nlia|].
      intros [r c] (L & v & Bv & Ev). ret. conj; auto; [nlia|].
      exists v. split; [apply (wbuf_of_buf B D OK), Bv|]. rewrite Ev, Vm1. zlia.
    - assert (Hle : vm1 <= R1) by zlia.
      pose proof (places_mono vm1 R1 ltac:(zlia)) as Hpl.
      tstep (wbuf_sub_exact _ _ _ (firstn lm1 rm1) W1); [assumption|nlia|rewrite Vm1; assumption|].
      rewrite Vm1. intros [r m] (L & Hm & Bv & _). ret. conj; auto; [nlia|].
      exists (R1 - vm1). split; [assumption|]. cbn [of_bool]. zlia. }
  intros [r1a (l1a & k1)] (L1a & H1a & v1 & W1a & E1a).
  tstep (wbuf_half B D OK _ _ _ _ _ W1a E1a).
  clear W1a E1a v1. intros [r1b (l1b & x1)] (L1b & H1b & W1b & N1b). clear x1.
  pose proof (wbuf_places _ _ _ W1b N1b) as Pl1b.
  (* 212-230 *)
  eapply spec_bind with (R := fun '(r, (sg, len)) =>
    length r = length rm1 /\ (len <= 2 * b + 2)%nat /\ exists v, buf r len v
      /\ sgv sg v = - c1 + c2 - c3 + c4 /\ Sample sg len v = step2 B c0 vm1 s1).
  { unfold step2. destruct s1; cbn [sgv] in Em1.
    - assert (B' : buf rm1 (Nat.max lm1 l0) vm1) by (apply (buf_more B D OK _ _ _ _ Bm1); nlia).
      tstep (buf_add B D OK _ _ _ r0 B'); [assumption|nlia|].
      intros [r c] (L & v & Bv & Ev). rewrite V0 in Ev.
      tstep (push_exact B D OK _ _ _ _ _ (2 * b + 2) Bv Ev); [zlia|nlia|nlia|].
      intros [r' l'] (L' & Bv' & _ & Hl' & El'). ret. conj; auto; [nlia|].
      exists (vm1 + c0). conj; auto; [cbn [sgv]; zlia|].
      rewrite El', Plm1, Pl0. reflexivity.
    - eapply spec_weaken; [apply (abs_assign_exact B D OK _ _ _ r0 Bm1); [assumption|nlia]| |].
      { intros w [_ Hc]. exfalso. revert Hc. unfold confused. cbn [count size].
        rewrite L0, V0, Plm1, Pl0. apply (clear_places B D OK); zlia. }
      rewrite V0, L0. intros [r (sg & m)] (L & Bv & Hm & Es & Esg & Em & _). conj; auto; [nlia|].
      exists (Z.abs (vm1 - c0)). conj; auto; [rewrite Es; zlia|].
      rewrite Esg, Em, Plm1, Pl0. reflexivity. }
  intros [r2 (sg2 & l2)] (L2 & H2 & v2 & B2 & E2 & Est2).
  (* 231-244 *)
  rewrite (prefix_ok r2) by apply B2. cbn [bind].
  destruct (buf_firstn_digs B _ _ _ B2) as [D2 L2'].
  pose proof (buf_first B D OK _ _ _ B2) as V2.
  pose proof (buf_nonneg B D OK _ _ _ B2) as Hv2.
  assert (ELOST : LOST = (negative (Sample sg2 l2 v2) = negative (Sample s3 l3a w3)
    /\ confused (Sample s3 l3a w3) (Sample sg2 l2 v2))).
  { unfold LOST, together_lost. rewrite <- Est3', <- Est2. reflexivity. }
  clear Est3' Est2. rewrite ELOST in *. clear ELOST. clear LOST. cbn [negative].
  set (LOST := sg2 = s3 /\ confused (Sample s3 l3a w3) (Sample sg2 l2 v2)).
  eapply spec_bind with (R := fun '(r, (sg, len, carry)) =>
    length r = length rm2 /\ (len <= 2 * b + 2)%nat /\ ~ LOST /\ exists v w, buf r len v
      /\ v + p len * of_bool carry = 2 * w /\ sgv sg w = c3 - 2 * c4).
  { destruct (xorb sg2 s3) eqn:Ex.
    - assert (B' : buf r3a (Nat.max l3a l2) w3) by (apply (buf_more B D OK _ _ _ _ B3); nlia).
      tstep (buf_add B D OK _ _ _ (firstn l2 r2) B'); [assumption|nlia|].
      intros [r c] (L & v & Bv & Ev). rewrite V2 in Ev. ret. conj; auto; [nlia|nlia| |].
      { intros [Hc _]. rewrite Hc, xorb_nilpotent in Ex. discriminate Ex. }
      exists v, (sgv sg2 (c3 - 2 * c4)). conj; auto.
      + rewrite Ev. destruct sg2, s3; try discriminate; cbn [sgv] in *; zlia.
      + destruct sg2; cbn [sgv]; zlia.
    - assert (Ess : sg2 = s3) by (apply xorb_eq; exact Ex).
      eapply spec_bind.
      { eapply spec_weaken; [apply (abs_assign_exact B D OK _ _ _ (firstn l2 r2) B3); [assumption|nlia]
          | |intros a Ha; exact Ha].
        intros w. apply stop_weaken. rewrite L2', V2. intros Hc. split; [exact Ess|exact Hc]. }
      rewrite V2, L2'. intros [r (sg & m)] (L & Bv & Hm & Es & _ & _ & Hcf). ret.
      conj; auto; [nlia|nlia|intros [_ Hc]; exact (Hcf Hc)|].
      exists (Z.abs (w3 - v2)), (Z.abs (c3 - 2 * c4)).
      assert (E : w3 - v2 = sgv (negb s3) (2 * (c3 - 2 * c4))).
      { destruct sg2, s3; try discriminate; cbn [sgv negb] in *; zlia. }
      conj; auto; cbn [of_bool].
      + rewrite E. destruct s3; cbn [sgv negb]; zlia.
      + destruct (Nat.eqb_spec m 0) as [Em|Em].
        * rewrite andb_false_r. cbn [sgv]. destruct Bv as (_ & _ & _ & Bz). rewrite Em, pw_0 in Bz.
          rewrite E in Bz. destruct s3; cbn [sgv negb] in Bz; zlia.
        * rewrite andb_true_r. rewrite E in Es. destruct s3, sg; cbn [sgv negb xorb] in *; zlia. }
  intros [r3b ((s3b & l3b) & k3b)] (L3b & H3b & NL & v3b & w3b & B3b & E3b & S3b).
  tstep (buf_half B D OK _ _ _ _ _ B3b E3b).
  clear B3b E3b v3b. intros [r3c (l3c & x3)] (L3c & H3c & B3c & N3c). clear x3.
  pose proof (buf_nonneg B D OK _ _ _ B3c) as Hw3b.
  pose proof (buf_places _ _ _ B3c N3c) as Pl3c.
  (* 245-273 *)
  rewrite (prefix_ok r3c) by apply B3c. cbn [bind].
  destruct (buf_firstn_digs B _ _ _ B3c) as [D3c L3c'].
  pose proof (buf_first B D OK _ _ _ B3c) as V3c.
  pose proof (value_bound B HB r4 D4) as Hb4'. rewrite L4, V4 in Hb4'.
  eapply spec_bind with (R := fun '(r, len) =>
    length r = length rm2 /\ wbuf r len c3 /\ len = places B c3).
  { destruct s3b; cbn [negb sgv] in *.
    - rewrite (num_lt_value B HB _ _ D3c D4 N3c N4), V3c, V4.
      destruct (Z.ltb_spec w3b c4) as [Hlt|Hge].
      + assert (B' : buf r3c (length r4) w3b).
        { rewrite L4. destruct B3c as (X1 & X2 & X3 & X4). unfold BufProof.buf. conj; auto; [nlia|zlia]. }
        rewrite <- L4 at 1. tstep (rsub_raw B D OK _ _ _ B'); [assumption|zlia|].
        rewrite V4, L4. intros [r x] (L & Bv).
        tstep (buf_add B D OK _ _ _ r4 Bv); [assumption|nlia|].
        rewrite V4. intros [r' c] (L' & v' & Bv' & Ev').
        eapply total_post_spec; [apply (push_exact B D OK _ _ _ _ _ (2 * b + 2) Bv' Ev'); [zlia|nlia|nlia]|].
        replace (c4 - w3b + c4) with c3 by zlia.
        intros [r'' l''] (L'' & Bv'' & _ & _ & El''). conj; [nlia|apply (wbuf_of_buf B D OK), Bv''|].
        rewrite El''. replace c3 with (c4 + (c4 - w3b)) by zlia.
        apply (wide_places_same B D OK); [zlia|exact Pl4].
      + assert (B3c' := B3c). destruct B3c' as (X1 & X2 & X3 & X4).
        rewrite <- L4 at 1. tstep (sub_wrap B D OK r3c w3b r4); auto; [nlia|rewrite V4, L4; zlia|].
        rewrite V4. intros [r x] (L & Wv). rewrite <- L4.
        eapply total_post_spec; [apply (wbuf_rsub B D OK _ _ _ Wv); [assumption|rewrite V4; zlia]|].
        rewrite V4. replace (c4 - (w3b - c4)) with c3 by zlia.
        intros [r' l'] (L' & _ & Wv' & Nv'). conj; [nlia|assumption|apply (wbuf_places _ _ _ Wv' Nv')].
    - assert (B' : buf r3c (Nat.max l3c l4) w3b) by (apply (buf_more B D OK _ _ _ _ B3c); nlia).
      tstep (buf_add B D OK _ _ _ r4 B'); [assumption|nlia|].
      rewrite V4. intros [r c] (L & v & Bv & Ev).
      tstep (push_exact B D OK _ _ _ _ _ (2 * b + 2) Bv Ev); [zlia|nlia|nlia|].
      intros [r' l'] (L' & Bv' & Hl & Hl' & El').
      rewrite Pl3c, Pl4, (wide_places B D OK) in El' by zlia.
      tstep (buf_add B D OK _ _ _ r4 Bv'); [assumption|nlia|].
      rewrite V4. intros [r'' c'] (L'' & v'' & Bv'' & Ev'').
      eapply total_post_spec; [apply (push_exact B D OK _ _ _ _ _ (2 * b + 2) Bv'' Ev''); [zlia|nlia|nlia]|].
      intros [r5 l5] (L5 & Bv5 & _ & _ & El5).
      rewrite (wide_places_same B D OK) in El5; [|zlia|exact El'].
      replace (w3b + c4 + c4) with c3 in * by zlia.
      conj; [nlia|apply (wbuf_of_buf B D OK), Bv5|exact El5]. }
  intros [r3d l3d] (L3d & W3 & Pl3d).
  (* 275-290 *)
  rewrite (prefix_ok r1b) by apply W1b. cbn [bind].
  destruct (buf_of_wbuf B D OK _ _ _ W1b) as [Wb1b Lp1b]. destruct Wb1b as (Dp1b & _ & Vp1b & Hp1b).
  eapply spec_bind with (R := fun '(r, len) =>
    length r = length rm1 /\ buf r len (c2 + c4) /\ (len <= 2 * b + 2)%nat).
  { destruct sg2; cbn [sgv] in E2.
    - assert (B' : buf r2 (length (firstn l1b r1b)) v2).
      { rewrite Lp1b. destruct B2 as (X1 & X2 & X3 & X4). unfold BufProof.buf. conj; auto; [nlia|zlia]. }
      rewrite <- Lp1b at 1.
      eapply total_post_spec; [apply (buf_rsub B D OK _ _ _ B'); [assumption|rewrite Vp1b; zlia]|].
      rewrite Vp1b. intros [r m] (L & Hm & Bv & _). conj; [nlia| |nlia].
      replace (c2 + c4) with (c1 + c3 - v2) by zlia. assumption.
    - assert (B' : buf r2 (Nat.max l2 l1b) v2) by (apply (buf_more B D OK _ _ _ _ B2); nlia).
      tstep (buf_add B D OK _ _ _ (firstn l1b r1b) B'); [assumption|nlia|].
      rewrite Vp1b. intros [r c] (L & v & Bv & Ev).
      eapply total_post_spec; [apply (push_exact B D OK _ _ _ _ _ (2 * b + 2) Bv Ev); [zlia|nlia|nlia]|].
      intros [r' l'] (L' & Bv' & _ & Hl' & _). conj; [nlia| |nlia].
      replace (c2 + c4) with (v2 + (c1 + c3)) by zlia. assumption. }
  intros [r2b l2b] (L2b & B2b & H2b).
  assert (Hl4 : (l4 <= l2b)%nat).
  { rewrite Pl4. apply (places_le B D OK). destruct B2b as (_ & _ & _ & X). zlia. }
  tstep (wbuf_sub_exact r2b l2b (c2 + c4) r4 (wbuf_of_buf B D OK _ _ _ B2b)); [assumption|nlia|rewrite V4; zlia|].
  rewrite V4, L4. replace (c2 + c4 - c4) with c2 by lia.
  intros [r2c l2c] (L2c & H2c & W2 & Pl2c).
  rewrite (prefix_ok r3d) by apply W3. cbn [bind].
  destruct (buf_of_wbuf B D OK _ _ _ W3) as [Wb3 Lp3]. destruct Wb3 as (Dp3 & _ & Vp3 & Hp3).
  pose proof (places_mono c3 (c1 + c3) ltac:(zlia)) as Hpl3.
  tstep (wbuf_sub_exact r1b l1b (c1 + c3) (firstn l3d r3d) W1b); [assumption|nlia|rewrite Vp3; zlia|].
  rewrite Vp3. replace (c1 + c3 - c3) with c1 by lia.
  intros [r1c l1c] (L1c & H1c & W1c & _).
  (* 292-296 *)
  rewrite (prefix_ok r1c) by apply W1c. cbn [bind].
  rewrite (prefix_ok r2c) by apply W2. cbn [bind].
  destruct (buf_of_wbuf B D OK _ _ _ W1c) as [Wb1c Lp1c]. destruct Wb1c as (Dp1c & _ & Vp1c & _).
  destruct (buf_of_wbuf B D OK _ _ _ W2) as [Wb2 Lp2]. destruct Wb2 as (Dp2 & _ & Vp2 & _).
  assert (Hnn : forall k c, 0 <= c -> 0 <= p k * c).
  { intros k c Hc. apply Z.mul_nonneg_nonneg; [apply Z.lt_le_incl, pw_pos; auto|assumption]. }
  pose proof (Hnn b c1 C1) as X1. pose proof (Hnn (2 * b)%nat c2 C2) as X2. fold PP in X2.
  pose proof (Hnn (3 * b)%nat c3 C3) as X3. pose proof (Hnn (4 * b)%nat c4 C4) as X4.
  pose proof (pw_le B _ _ HB Hn) as Hpn.
  assert (EXY : XY = c0 + p b * c1 + PP * c2 + p (3 * b) * c3 + p (4 * b) * c4) by reflexivity.
  clearbody XY.
  assert (Hfit : forall k c, 0 <= c -> (k <= n)%nat -> p k * c < p n -> (k + places B c <= n)%nat).
  { intros k c Hc Hk Hlt. replace n with (k + (n - k))%nat in Hlt by lia. rewrite pw_add in Hlt.
    apply Z.mul_lt_mono_pos_l in Hlt; [|apply pw_pos; auto].
    pose proof (places_le B D OK c (n - k) (conj Hc Hlt)). lia. }
  assert (F3 : (3 * b + l3d <= n)%nat).
  { rewrite Pl3d. apply Hfit; [assumption|nlia|zlia]. }
  assert (F2 : (2 * b + l2c <= n)%nat).
  { destruct (Z.eq_dec c4 0) as [E0|E0]; [|specialize (Hb4 E0); nlia].
    assert (E4 : l4 = 0%nat) by (rewrite Pl4, E0; reflexivity).
    assert (Elo : l2c = places B c2).
    { rewrite Pl2c, E4, E0, Z.add_0_r. unfold left_over, lower. cbn [Z.of_nat].
      rewrite Z.pow_0_r, Z.mod_1_r, Z.sub_0_r. reflexivity. }
    rewrite Elo. apply Hfit; [assumption|nlia|fold PP; zlia]. }
  assert (Hres : forall result k y, digs result -> digs y -> (k + length y <= length result)%nat ->
    val result + p k * val y < p (length result) ->
    total (with_suffix result k (fun s => add_assign_big D s y)) (fun '(r, c) =>
      length r = length result /\ digs r /\ val r = val result + p k * val y)).
  { intros rr k y Hd Hy HL Hv. eapply spec_post; [apply (res_add B D OK); auto|].
    intros [r c] (? & ? & _ & ?). auto. }
  tstep (Hres result b (firstn l1c r1c)); auto; [nlia|rewrite Vp1c; zlia|].
  rewrite Vp1c. intros [ra xa] (La & Da & Va).
  tstep (Hres ra (2 * b)%nat (firstn l2c r2c)); auto; [nlia|rewrite Vp2, La; fold PP; zlia|].
  rewrite Vp2. fold PP. intros [rb xb] (Lb & Db & Vb).
  tstep (Hres rb (3 * b)%nat (firstn l3d r3d)); auto; [nlia|rewrite Vp3, Lb, La; zlia|].
  rewrite Vp3. intros [rc xc] (Lc & Dc & Vc).
  assert (Vrc : val rc = XY) by zlia.
  tstep (drop_val B); [nlia|]. intros nres (E1 & E4 & E3). ret.
  destruct (firstn_skipn_val B D OK rc n XY 0) as [F1 F5]; auto; [nlia|zlia|zlia|].
  conj; auto; try nlia.
  - apply W1c.
  - apply W2.
  - apply W3.
  - rewrite E4. assumption.
Qed.
End ToomExact.
