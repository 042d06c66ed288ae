(** * ToomJam: exactly when multiplication stops, at every size. *)
From Coq Require Import ZArith List Bool Lia.
From Verif Require Import Base Digit Spec SpecMul SpecToom Hoare DigitOK Slice Mul ListLemmas SliceProof
  MulProof BufProof WorkSize KaratsubaProof KaraExact ToomProof ToomMain MulTopProof ToomLen ToomExact.
Import ListNotations.
Open Scope Z_scope.
Open Scope m_scope.

Section ToomJam.
Variables (B : Z) (D : digit).
Hypothesis OK : digit_ok B D.
Notation val := (value B).
Notation digs := (below B).
Notation "'p' n" := (pw B n) (at level 10, n at level 9).
Notation buf := (buf B).
Notation wbuf := (wbuf B).
Let HB : 1 < B := SliceProof.HB B D OK.
Hint Resolve HB : core.

Definition jams (x y : digits) : Prop := jam B (length x) (val x) (length y) (val y).
Definition halt (x y : digits) : panic -> Prop := stop (jams x y).

Definition rec_jam (N : nat) (rec : mul_fn) : Prop := forall x y prod work,
  digs x -> digs y -> digs prod -> digs work -> (Nat.max (length x) (length y) < N)%nat ->
  (x <> [] -> y <> [] -> (length x + length y <= length prod)%nat) ->
  (need (length x) (length y) <= length work)%nat ->
  spec (halt x y) (rec x y prod work) (fun r => mpost B x y prod work r /\ ~ jams x y).

Lemma not_jam x y : large (length x) (length y) ->
  let s := third (length x) (length y) in
  ~ goes_wrong B (length x) (val x) s -> ~ goes_wrong B (length y) (val y) s ->
  (forall z, let a := sample_at B (length x) (val x) s z in let b := sample_at B (length y) (val y) s z in
     ~ jam B (count a) (size a) (count b) (size b)) ->
  ~ not_together B (length x) (val x) (length y) (val y) -> ~ jams x y.
Proof.
  intros [L1 L2] s N1 N2 N3 N4 H. unfold jams in H. inversion H as [m v n w HS HT|m v n w HL HG|m v n w HL HG|m v n w z HL HG|m v n w HL HG]; subst.
  - lia.
  - auto.
  - auto.
  - exact (N3 z HG).
  - auto.
Qed.

Lemma toom_exact rec nr0 nr1 result work :
  let n0 := length nr0 in let n1 := length nr1 in let nmax := Nat.max n0 n1 in
  (128 <= n0)%nat -> (128 <= n1)%nat ->
  rec_jam nmax rec ->
  digs nr0 -> digs nr1 -> digs result -> digs work ->
  (n0 + n1 <= length result)%nat -> (calc_toom3_work_size nmax <= length work)%nat ->
  spec (halt nr0 nr1) (mul_big_toom3_into D rec nr0 nr1 result work)
    (fun r => mpost B nr0 nr1 result work r /\ ~ jams nr0 nr1).
Proof.
  intros n0 n1 nmax Hc0 Hc1 Hrec D0 D1 Dr Dw HL HW.
  unfold mul_big_toom3_into. fold n0 n1 nmax.
  tstep total_guard; [apply andb_true_iff; split; apply Nat.leb_le; lia|]. intros _ _.
  tstep total_guard; [apply Nat.leb_le; lia|]. intros _ _.
  set (b := ((nmax + 2) / 3)%nat) in *. pose proof (third_bounds nmax) as Hb. fold b in Hb.
  pose proof (t_step nmax ltac:(lia)) as Ht. fold b in Ht. rewrite Ht in HW. clear Ht.
  assert (Hm0 : (n0 <= 3 * b)%nat) by nlia. assert (Hm1 : (n1 <= 3 * b)%nat) by nlia.
  assert (Hm2 : (3 * b + 126 <= n0 + n1)%nat) by nlia.
  assert (Hm3 : (b + 2 < nmax)%nat) by nlia. assert (Hm4 : (43 <= b)%nat) by nlia.
  assert (Hbig : large n0 n1) by (split; assumption).
  assert (Eb : third n0 n1 = b) by reflexivity.
  clearbody b nmax. clear Hb.
  rewrite split_at_ok by (rewrite zeros_length; nlia). cbn [bind].
  rewrite split_at_ok by nlia. cbn [bind].
  replace (length (firstn (6 * b + 10) work)) with (6 * b + 10)%nat by (rewrite firstn_length; nlia).
  rewrite split_at_ok by (rewrite zeros_length; nlia). cbn [bind].
  rewrite !firstn_zeros, !skipn_zeros.
  replace (Nat.min (b + 2) (length result)) with (b + 2)%nat by nlia.
  replace (Nat.min (2 * b + 3) (6 * b + 10)) with (2 * b + 3)%nat by nlia.
  rewrite split_at_ok by (rewrite zeros_length; nlia). cbn [bind].
  rewrite !firstn_zeros, !skipn_zeros.
  replace (Nat.min (2 * b + 3) (6 * b + 10 - (2 * b + 3))) with (2 * b + 3)%nat by nlia.
  replace (6 * b + 10 - (2 * b + 3) - (2 * b + 3))%nat with (2 * b + 4)%nat by nlia.
  rewrite split_at_ok by (rewrite zeros_length; nlia). cbn [bind].
  rewrite split_at_ok by (rewrite zeros_length; nlia). cbn [bind].
  rewrite !firstn_zeros, !skipn_zeros.
  replace (Nat.min (b + 1) (2 * b + 3)) with (b + 1)%nat by nlia.
  replace (Nat.min (b + 1) (2 * b + 4)) with (b + 1)%nat by nlia.
  set (rest := (length result - (b + 2))%nat).
  assert (Hrest : (rest + (b + 2) = length result)%nat) by (unfold rest; nlia). clearbody rest.
  (* parts and evaluation *)
  assert (Hz : forall k, digs (zeros k)) by (intros k; apply below_zeros; auto).
  tstep (parts_exact B D OK nr0 b); auto. fold n0.
  intros [[p0 m1] pinf] (Dp0 & Dp1 & Dpi & Lp0 & Lp1 & Lp0' & Lpi & Vp & Sp0 & Sp1 & Sp2).
  eapply spec_bind_weak.
  { apply (eval_exact B D OK b p0 m1 pinf); auto; try apply value_zeros; try (rewrite zeros_length; nlia); nlia. }
  { intros w. apply stop_weaken. rewrite Sp0, Sp1, Sp2. intros Hc. apply jam_first; [exact Hbig|].
    fold n0 n1. rewrite Eb. exact Hc. }
  rewrite Sp0, Sp1, Sp2.
  intros [[[p1 l1] [pm1 [s1 lm1]]] [pm2 [s2 lm2]]]
    (Kp1 & Ep1 & Hl1 & Kpm1 & Hlm1 & Kpm2 & Hlm2 & NL0 & El1 & V1 & SV1 & Sm1 & Bm1 & Em1 & Sm2 & Bm2 & Em2).
  change (at_one B (piece0 B (val nr0) b) (piece1 B (val nr0) b) (piece2 B n0 (val nr0) b))
    with (sample_at B n0 (val nr0) b One) in *.
  change (at_minus_one B (piece0 B (val nr0) b) (piece1 B (val nr0) b) (piece2 B n0 (val nr0) b))
    with (sample_at B n0 (val nr0) b MinusOne) in *.
  change (at_minus_two B (piece0 B (val nr0) b) (piece1 B (val nr0) b) (piece2 B n0 (val nr0) b))
    with (sample_at B n0 (val nr0) b MinusTwo) in *.
  change (piece0 B (val nr0) b) with (sample_at B n0 (val nr0) b Zero) in Sp0.
  change (piece2 B n0 (val nr0) b) with (sample_at B n0 (val nr0) b Infinity) in Sp2.
  change (~ goes_wrong B n0 (val nr0) b) in NL0.
  set (vm1 := size (sample_at B n0 (val nr0) b MinusOne)) in *.
  set (vm2 := size (sample_at B n0 (val nr0) b MinusTwo)) in *.
  rewrite zeros_length in Kp1, Kpm1, Kpm2.
  tstep (parts_exact B D OK nr1 b); auto. fold n1.
  intros [[q0 e1] qinf] (Dq0 & Dq1 & Dqi & Lq0 & Lq1 & Lq0' & Lqi & Vq & Sq0 & Sq1 & Sq2).
  eapply spec_bind_weak.
  { apply (eval_exact B D OK b q0 e1 qinf); auto; try apply value_zeros; try (rewrite zeros_length; nlia); nlia. }
  { intros w. apply stop_weaken. rewrite Sq0, Sq1, Sq2. intros Hc. apply jam_second; [exact Hbig|].
    fold n0 n1. rewrite Eb. exact Hc. }
  rewrite Sq0, Sq1, Sq2.
  intros [[[q1 k1] [qm1 [t1 km1]]] [qm2 [t2 km2]]]
    (Kq1 & Eq1 & Hk1 & Kqm1 & Hkm1 & Kqm2 & Hkm2 & NL1 & Ek1 & W1 & SW1 & Tm1 & Cm1 & Fm1 & Tm2 & Cm2 & Fm2).
  change (at_one B (piece0 B (val nr1) b) (piece1 B (val nr1) b) (piece2 B n1 (val nr1) b))
    with (sample_at B n1 (val nr1) b One) in *.
  change (at_minus_one B (piece0 B (val nr1) b) (piece1 B (val nr1) b) (piece2 B n1 (val nr1) b))
    with (sample_at B n1 (val nr1) b MinusOne) in *.
  change (at_minus_two B (piece0 B (val nr1) b) (piece1 B (val nr1) b) (piece2 B n1 (val nr1) b))
    with (sample_at B n1 (val nr1) b MinusTwo) in *.
  change (piece0 B (val nr1) b) with (sample_at B n1 (val nr1) b Zero) in Sq0.
  change (piece2 B n1 (val nr1) b) with (sample_at B n1 (val nr1) b Infinity) in Sq2.
  change (~ goes_wrong B n1 (val nr1) b) in NL1.
  set (wm1 := size (sample_at B n1 (val nr1) b MinusOne)) in *.
  set (wm2 := size (sample_at B n1 (val nr1) b MinusTwo)) in *.
  assert (Hin : forall z x y, length x = count (sample_at B n0 (val nr0) b z) ->
    val x = size (sample_at B n0 (val nr0) b z) ->
    length y = count (sample_at B n1 (val nr1) b z) -> val y = size (sample_at B n1 (val nr1) b z) ->
    jams x y -> jams nr0 nr1).
  { intros z x y X1 X2 Y1 Y2 Hj. apply jam_inside with z; [exact Hbig|]. fold n0 n1. rewrite Eb. cbv zeta.
    rewrite <- X1, <- X2, <- Y1, <- Y2. exact Hj. }
  assert (Hnin : forall z x y, length x = count (sample_at B n0 (val nr0) b z) ->
    val x = size (sample_at B n0 (val nr0) b z) ->
    length y = count (sample_at B n1 (val nr1) b z) -> val y = size (sample_at B n1 (val nr1) b z) ->
    ~ jams x y -> ~ jam B (count (sample_at B n0 (val nr0) b z)) (size (sample_at B n0 (val nr0) b z))
      (count (sample_at B n1 (val nr1) b z)) (size (sample_at B n1 (val nr1) b z))).
  { intros z x y X1 X2 Y1 Y2 Hj. rewrite <- X1, <- X2, <- Y1, <- Y2. exact Hj. }
  rewrite zeros_length in Kq1, Kqm1, Kqm2.
  replace (2 * b + 3 - (b + 1))%nat with (b + 2)%nat in Kq1 by nlia.
  replace (2 * b + 4 - (b + 1))%nat with (b + 3)%nat in Kqm1 by nlia.
  set (nw0 := skipn (6 * b + 10) work).
  assert (Dnw : digs nw0) by (apply below_skipn, Dw).
  assert (Lnw : (length nw0 + (6 * b + 10) = length work)%nat) by (unfold nw0; rewrite skipn_length; nlia).
  assert (Hneed : forall x y, (x <= b + 2)%nat -> (y <= b + 2)%nat -> (need x y <= length nw0)%nat).
  { intros x y Hx Hy. etransitivity; [apply (need_le x y (b + 2)); nlia|]. nlia. }
  clearbody nw0.
  (* r1 *)
  rewrite (prefix_ok p1) by nlia. cbn [bind]. rewrite (prefix_ok q1) by nlia. cbn [bind].
  assert (Ll1 : length (firstn l1 p1) = l1) by (rewrite firstn_length; nlia).
  assert (Lk1 : length (firstn k1 q1) = k1) by (rewrite firstn_length; nlia).
  eapply spec_bind_weak.
  { apply Hrec; auto; try (apply below_firstn; assumption); rewrite ?Ll1, ?Lk1, ?zeros_length; try nlia.
    apply Hneed; nlia. }
  { intros w. apply stop_weaken, (Hin One); [rewrite Ll1; exact El1|exact V1|rewrite Lk1; exact Ek1|exact W1]. }
  intros [[r1 nw1] lr1] [Hp HJ].
  apply (Hnin One) in HJ; [|rewrite Ll1; exact El1|exact V1|rewrite Lk1; exact Ek1|exact W1]. rename HJ into J1.
  assert (Br1 : buf r1 lr1 (val (firstn l1 p1) * val (firstn k1 q1))).
  { eapply (mpost_zero B D OK); [| |exact Hp|apply value_zeros]; auto. intros _ _. rewrite zeros_length. nlia. }
  destruct Hp as (Lr1 & Dr1 & Lnw1 & Dnw1 & Hr1 & _ & _ & Nr1 & _). rewrite zeros_length in Lr1.
  rewrite V1, W1, SV1, SW1 in Br1. rewrite Ll1, Lk1 in Hr1.
  (* rm1 *)
  rewrite (prefix_ok pm1) by apply Bm1. cbn [bind]. rewrite (prefix_ok qm1) by apply Cm1. cbn [bind].
  assert (Llm1 : length (firstn lm1 pm1) = lm1) by apply (buf_firstn_digs B _ _ _ Bm1).
  assert (Lkm1 : length (firstn km1 qm1) = km1) by apply (buf_firstn_digs B _ _ _ Cm1).
  assert (Dpq : digs (p1 ++ q1)) by (apply below_app; auto).
  eapply spec_bind_weak.
  { apply (Hrec (firstn lm1 pm1) (firstn km1 qm1) (p1 ++ q1) nw1); auto;
      try (apply (buf_firstn_digs B _ _ _ Bm1)); try (apply (buf_firstn_digs B _ _ _ Cm1));
      rewrite ?Llm1, ?Lkm1, ?app_length; try nlia.
    rewrite Lnw1. apply Hneed; nlia. }
  { intros w. apply stop_weaken, (Hin MinusOne); [rewrite Llm1, <- Sm1; reflexivity|apply (buf_first B D OK _ _ _ Bm1)|rewrite Lkm1, <- Tm1; reflexivity|apply (buf_first B D OK _ _ _ Cm1)]. }
  intros [[rm1 nw2] lrm1] [Hp HJ].
  apply (Hnin MinusOne) in HJ; [|rewrite Llm1, <- Sm1; reflexivity|apply (buf_first B D OK _ _ _ Bm1)|rewrite Lkm1, <- Tm1; reflexivity|apply (buf_first B D OK _ _ _ Cm1)]. rename HJ into Jm1. pose proof (mpost_w B _ _ _ _ _ _ _ Hp) as Wrm1.
  destruct Hp as (Lrm1 & _ & Lnw2 & Dnw2 & Hrm1 & _ & _ & Nrm1 & _). rewrite app_length in Lrm1.
  rewrite (buf_first B D OK _ _ _ Bm1), (buf_first B D OK _ _ _ Cm1) in Wrm1.
  rewrite Llm1, Lkm1 in Hrm1.
  pose proof (wbuf_places B D OK _ _ _ Wrm1 Nrm1) as Plm1.
  tstep (clear_ok B D OK _ _ _ Wrm1). clear Wrm1. intros rm1' (Lrm1' & Brm1).
  (* rm2 *)
  rewrite (prefix_ok pm2) by apply Bm2. cbn [bind]. rewrite (prefix_ok qm2) by apply Cm2. cbn [bind].
  assert (Llm2 : length (firstn lm2 pm2) = lm2) by apply (buf_firstn_digs B _ _ _ Bm2).
  assert (Lkm2 : length (firstn km2 qm2) = km2) by apply (buf_firstn_digs B _ _ _ Cm2).
  assert (Dpq2 : digs (pm1 ++ qm1)) by (apply below_app; split; [apply Bm1|apply Cm1]).
  eapply spec_bind_weak.
  { apply (Hrec (firstn lm2 pm2) (firstn km2 qm2) (pm1 ++ qm1) nw2); auto;
      try (apply (buf_firstn_digs B _ _ _ Bm2)); try (apply (buf_firstn_digs B _ _ _ Cm2));
      rewrite ?Llm2, ?Lkm2, ?app_length; try nlia.
    rewrite Lnw2, Lnw1. apply Hneed; nlia. }
  { intros w. apply stop_weaken, (Hin MinusTwo); [rewrite Llm2, <- Sm2; reflexivity|apply (buf_first B D OK _ _ _ Bm2)|rewrite Lkm2, <- Tm2; reflexivity|apply (buf_first B D OK _ _ _ Cm2)]. }
  intros [[rm2 nw3] lrm2] [Hp HJ].
  apply (Hnin MinusTwo) in HJ; [|rewrite Llm2, <- Sm2; reflexivity|apply (buf_first B D OK _ _ _ Bm2)|rewrite Lkm2, <- Tm2; reflexivity|apply (buf_first B D OK _ _ _ Cm2)]. rename HJ into Jm2. pose proof (mpost_w B _ _ _ _ _ _ _ Hp) as Wrm2.
  destruct Hp as (Lrm2 & _ & Lnw3 & Dnw3 & Hrm2 & _ & _ & Nrm2 & _). rewrite app_length in Lrm2.
  rewrite (buf_first B D OK _ _ _ Bm2), (buf_first B D OK _ _ _ Cm2) in Wrm2.
  rewrite Llm2, Lkm2 in Hrm2.
  pose proof (wbuf_places B D OK _ _ _ Wrm2 Nrm2) as Plm2.
  tstep (clear_ok B D OK _ _ _ Wrm2). clear Wrm2. intros rm2' (Lrm2' & Brm2).
  (* the result buffer is zero again *)
  set (n := (n0 + n1)%nat) in *.
  rewrite fill_zero_ok by (rewrite ?app_length; nlia). cbn [bind].
  rewrite firstn_O, Nat.sub_0_r. cbn [app].
  assert (Htail : val (skipn n (pm2 ++ qm2)) = 0).
  { rewrite skipn_app_ge by nlia. rewrite Kpm2.
    assert (Cm2' : buf qm2 (n - (b + 2)) wm2) by (apply (buf_more B D OK _ _ _ _ Cm2); nlia).
    apply (buf_split B D OK _ _ _ Cm2'). }
  set (res0 := zeros n ++ skipn n (pm2 ++ qm2)).
  assert (Lres0 : length res0 = length result).
  { unfold res0. rewrite app_length, zeros_length, skipn_length, app_length. nlia. }
  assert (Dres0 : digs res0).
  { apply below_app. split; auto. apply below_skipn, below_app. split; [apply Bm2|apply Cm2]. }
  assert (Vres0 : val res0 = 0).
  { unfold res0. rewrite value_app, value_zeros, Htail. lia. }
  clearbody res0. rewrite Lres0.
  set (h := Nat.min (4 * b) (length result)).
  assert (Hh : (h <= length result)%nat) by (unfold h; nlia).
  assert (Hh4 : (h <= 4 * b)%nat) by (unfold h; nlia).
  assert (Hh4' : h = length result \/ h = (4 * b)%nat) by (unfold h; nlia).
  assert (Hh2 : (2 * b <= h)%nat) by (unfold h; nlia).
  rewrite split_at_ok by nlia. cbn [bind].
  destruct (zero_parts B D OK res0 h Dres0 Vres0 ltac:(nlia)) as [Z0 Z4].
  (* r0 *)
  assert (Lf : length (firstn h res0) = h) by (rewrite firstn_length; nlia).
  assert (Ls : length (skipn h res0) = (length result - h)%nat) by (rewrite skipn_length; nlia).
  eapply spec_bind_weak.
  { apply (Hrec p0 q0 (firstn h res0) nw3); auto; try (apply below_firstn; assumption); rewrite ?Lf; try nlia.
    rewrite Lnw3, Lnw2, Lnw1. apply Hneed; nlia. }
  { intros w. apply stop_weaken, (Hin Zero); rewrite <- ?Sp0, <- ?Sq0; reflexivity. }
  intros [[r0 nw4] lr0] [Hp HJ].
  apply (Hnin Zero) in HJ; [|rewrite <- ?Sp0, <- ?Sq0; reflexivity..]. rename HJ into J0.
  assert (Br0 : buf r0 lr0 (val p0 * val q0)).
  { eapply (mpost_zero B D OK); [| |exact Hp|assumption]; [apply below_firstn; auto|intros _ _; nlia]. }
  destruct Hp as (Lr0 & Dr0 & Lnw4 & Dnw4 & Hr0 & _ & _ & Nr0 & _).
  (* r4 *)
  assert (Hsp4 : pinf <> [] -> qinf <> [] -> (length pinf + length qinf <= length (skipn h res0))%nat).
  { intros A0 A1. apply length_zero_iff_nil' in A0, A1. rewrite Ls. nlia. }
  eapply spec_bind_weak.
  { apply (Hrec pinf qinf (skipn h res0) nw4); auto; try (apply below_skipn; assumption); try nlia.
    rewrite Lnw4, Lnw3, Lnw2, Lnw1. apply Hneed; nlia. }
  { intros w. apply stop_weaken, (Hin Infinity); rewrite <- ?Sp2, <- ?Sq2; reflexivity. }
  intros [[r4 nw5] lr4] [Hp HJ].
  apply (Hnin Infinity) in HJ; [|rewrite <- ?Sp2, <- ?Sq2; reflexivity..]. rename HJ into J4.
  assert (Br4 : buf r4 lr4 (val pinf * val qinf)).
  { eapply (mpost_zero B D OK); [| |exact Hp|assumption]; [apply below_skipn; auto|assumption]. }
  destruct Hp as (Lr4 & Dr4 & Lnw5 & Dnw5 & Hr4 & Hr4' & _ & Nr4 & _).
  (* interpolation *)
  destruct (coef_bounds B D OK (p b) (val p0) (val m1) (val pinf) (val q0) (val e1) (val qinf)) as
    (K0 & K1 & K2 & K3 & K4); try (apply (value_lt_pw B D OK); auto; nlia).
  replace (p b * p b) with (p (2 * b)) in * by (rewrite <- pw_add; f_equal; nlia).
  set (c0 := val p0 * val q0) in *. set (c4 := val pinf * val qinf) in *.
  set (c1 := val p0 * val e1 + val m1 * val q0) in *.
  set (c2 := val p0 * val qinf + val m1 * val e1 + val pinf * val q0) in *.
  set (c3 := val m1 * val qinf + val pinf * val e1) in *.
  assert (EXY : val nr0 * val nr1 =
    c0 + p b * c1 + p (2 * b) * c2 + p (3 * b) * c3 + p (4 * b) * c4).
  { rewrite Vp, Vq. unfold c0, c1, c2, c3, c4.
    replace (p (4 * b)) with (p b * p b * p b * p b) by (rewrite <- !pw_add; f_equal; nlia).
    replace (p (3 * b)) with (p b * p b * p b) by (rewrite <- !pw_add; f_equal; nlia).
    replace (p (2 * b)) with (p b * p b) by (rewrite <- !pw_add; f_equal; nlia). ring. }
  pose proof (product_bound B D OK nr0 nr1 D0 D1) as HXY. fold n0 n1 in HXY. fold n in HXY.
  assert (Hc4 : c4 <> 0 -> (4 * b + 2 <= n)%nat).
  { intros Hc. assert (pinf <> [] /\ qinf <> []) as [A0 A1].
    { split; intros ->; apply Hc; unfold c4; cbn [value]; ring. }
    apply length_zero_iff_nil' in A0, A1. nlia. }
  assert (ET : not_together B n0 (val nr0) n1 (val nr1)
    = together_lost B c0 (size (sample_at B n0 (val nr0) b One) * size (sample_at B n1 (val nr1) b One))
        (vm1 * wm1) (vm2 * wm2) (xorb s1 t1) (xorb s2 t2)).
  { unfold not_together, product_at, sign_at. rewrite Eb. rewrite <- Sp0, <- Sq0, <- Sm1, <- Sm2, <- Tm1, <- Tm2.
    reflexivity. }
  assert (ER1 : (val p0 + val m1 + val pinf) * (val q0 + val e1 + val qinf) = c0 + c1 + c2 + c3 + c4)
    by (unfold c0, c1, c2, c3, c4; ring).
  assert (ERm1 : sgv (xorb s1 t1) (vm1 * wm1) = c0 - c1 + c2 - c3 + c4).
  { rewrite sgv_mul, Em1, Fm1. unfold c0, c1, c2, c3, c4; ring. }
  assert (ERm2 : sgv (xorb s2 t2) (vm2 * wm2) = c0 - 2 * c1 + 4 * c2 - 8 * c3 + 16 * c4).
  { rewrite sgv_mul, Em2, Fm2. unfold c0, c1, c2, c3, c4; ring. }
  rewrite ER1 in Br1. rewrite SV1, SW1, ER1 in ET. rewrite EXY in HXY.
  pose proof (buf_places B D OK _ _ _ Br1 Nr1) as Pl1. pose proof (buf_places B D OK _ _ _ Br0 Nr0) as Pl0.
  pose proof (buf_places B D OK _ _ _ Br4 Nr4) as Pl4.
  assert (Lr04 : length (r0 ++ r4) = length result) by (rewrite app_length, Lr0, Lr4, Lf, Ls; nlia).
  assert (Hmin : Nat.min (4 * b) (length (r0 ++ r4)) = h) by (rewrite Lr04; reflexivity).
  clearbody c0 c1 c2 c3 c4.
  eapply spec_bind_weak.
  { apply (interpolate_exact B D OK b n (r0 ++ r4) r1 rm1' rm2' lr1 lrm1 lrm2 lr0 lr4 (xorb s1 t1) (xorb s2 t2)
      c0 c1 c2 c3 c4 (vm1 * wm1) (vm2 * wm2));
      try apply K0; try apply K1; try apply K2; try apply K3; try apply K4.
    - apply below_app; auto.
    - nlia.
    - exact Hc4.
    - nlia.
    - nlia.
    - nlia.
    - nlia.
    - rewrite Hmin. rewrite <- Lf, <- Lr0. apply Br0.
    - nlia.
    - nlia.
    - rewrite Hmin, Lr04. nlia.
    - nlia.
    - nlia.
    - nlia.
    - rewrite Hmin. rewrite (firstn_exact h) by nlia. apply (buf_first B D OK _ _ _ Br0).
    - rewrite Hmin. rewrite (skipn_exact h) by nlia. apply (buf_first B D OK _ _ _ Br4).
    - rewrite Hmin. rewrite (skipn_exact h) by nlia. assumption.
    - apply (wbuf_of_buf B D OK), Br1.
    - intros _. exact Br1.
    - exact Brm1.
    - exact ERm1.
    - exact Brm2.
    - exact ERm2.
    - exact Pl1.
    - exact Plm1.
    - exact Plm2.
    - exact Pl0.
    - exact Pl4.
    - destruct Br0 as (_ & _ & E0 & _), Br4 as (_ & _ & E4 & _). rewrite value_app, E0, E4, Lr0, Lf.
      destruct Hh4' as [E|E]; [|rewrite E; reflexivity].
      assert (r4 = []) by (apply length_zero_iff_nil; nlia). subst r4. cbn in E4. subst c4. lia.
    - apply HXY. }
  { intros w. apply stop_weaken. rewrite <- ET. intros Hc. apply jam_together; [exact Hbig|exact Hc]. }
  rewrite <- EXY in *. rewrite <- ET.
  intros [[r [[ra rb] rc]] nres] (Lr & Drr & La & Da & Lb & Db & Lc & Dc & Vr & Hnr & Vn & Nn & NT). ret.
  rewrite Lr04 in Lr. split; cycle 1.
  { apply (not_jam nr0 nr1 Hbig); fold n0 n1; rewrite ?Eb; auto. cbv zeta. intros []; assumption. }
  unfold mpost. fold n0 n1. fold n. conj; auto; try nlia.
  - rewrite !app_length. nlia.
  - repeat (apply below_app; split); auto.
  - intros [E|E]; exfalso; [assert (n0 = 0%nat) by (unfold n0; rewrite E; reflexivity)
        |assert (n1 = 0%nat) by (unfold n1; rewrite E; reflexivity)]; nlia.
  - intros _ _. exists 0. conj; auto; lia.
Qed.


(** ** Dispatch *)
Lemma jam_below m v n w : (m < 128)%nat \/ (n < 128)%nat -> (jam B m v n w <-> stuck B m v n w).
Proof.
  intros H. split; [|apply jam_small; assumption].
  intros J. inversion J as [? ? ? ? HS HT|? ? ? ? [? ?] HG|? ? ? ? [? ?] HG|? ? ? ? z [? ?] HG|? ? ? ? [? ?] HG]; subst;
    [exact HT|exfalso; lia..].
Qed.
Lemma jams_below x y : (Nat.min (length x) (length y) < 128)%nat -> (jams x y <-> halts B x y).
Proof. intros H. apply jam_below. lia. Qed.

Lemma rec_jam_exact N rec : rec_jam N rec -> rec_exact B N rec.
Proof.
  intros H x y prod work D0 D1 D2 D3 HN Hmin HL HW.
  eapply spec_weaken; [apply H; auto| |].
  - intros w [A C]. split; [exact A|apply (jams_below x y Hmin), C].
  - intros r [A C]. split; [exact A|]. intros K. apply C, (jams_below x y Hmin), K.
Qed.
Lemma rec_jam_le N M rec : (M <= N)%nat -> rec_jam N rec -> rec_jam M rec.
Proof. intros H Hr x y prod work D0 D1 D2 D3 HL. apply Hr; auto. lia. Qed.

Lemma dispatch_jam rec x y prod work :
  digs x -> digs y -> digs prod -> digs work ->
  rec_jam (Nat.max (length x) (length y)) rec ->
  (x <> [] -> y <> [] -> (length x + length y <= length prod)%nat) ->
  (need (length x) (length y) <= length work)%nat ->
  spec (halt x y) (mul_dispatch D rec x y prod work) (fun r => mpost B x y prod work r /\ ~ jams x y).
Proof.
  intros D0 D1 Dp Dw Hrec HL HW.
  destruct (Nat.le_gt_cases 128 (Nat.min (length x) (length y))) as [Hmin|Hmin].
  - unfold mul_dispatch.
    destruct (Nat.eqb_spec (length x) 0) as [E|N0]; [exfalso; lia|].
    destruct (Nat.eqb_spec (length y) 0) as [E|N1]; [exfalso; lia|]. cbn [orb].
    specialize (HL (nonempty _ N0) (nonempty _ N1)).
    tstep total_guard; [apply Nat.leb_le; lia|]. intros _ _.
    unfold TOOM3_CUTOFF, KARATSUBA_CUTOFF. unfold need in HW.
    unfold TOOM3_CUTOFF, KARATSUBA_CUTOFF in HW.
    destruct (Nat.leb_spec 128 (length x)) as [A0|A0]; [|exfalso; lia].
    destruct (Nat.leb_spec 128 (length y)) as [A1|A1]; [|exfalso; lia]. cbn [andb] in *.
    apply toom_exact; auto.
  - eapply spec_weaken; [apply (dispatch_exact B D OK); auto using rec_jam_exact| |].
    + intros w [A C]. split; [exact A|apply (jams_below x y Hmin), C].
    + intros r [A C]. split; [exact A|]. intros K. apply C, (jams_below x y Hmin), K.
Qed.

Lemma mul_fuel_jam f : rec_jam f (mul_fuel D f).
Proof.
  induction f as [|f IH]; intros x y prod work D0 D1 Dp Dw HN HL HW; [lia|].
  cbn [mul_fuel]. apply dispatch_jam; auto. apply (rec_jam_le f); auto. lia.
Qed.

Lemma mul_into_jam x y prod :
  digs x -> digs y -> digs prod ->
  (x <> [] -> y <> [] -> (length x + length y <= length prod)%nat) ->
  spec (halt x y) (mul_big_into D x y prod) (fun r => ipost B x y prod r /\ ~ jams x y).
Proof.
  intros D0 D1 Dp HL.
  destruct (Nat.le_gt_cases 128 (Nat.min (length x) (length y))) as [Hmin|Hmin].
  - unfold mul_big_into.
    destruct (Nat.eqb_spec (length x) 0) as [E|N0]; [exfalso; lia|].
    destruct (Nat.eqb_spec (length y) 0) as [E|N1]; [exfalso; lia|]. cbn [orb].
    specialize (HL (nonempty _ N0) (nonempty _ N1)).
    tstep total_guard; [apply Nat.leb_le; lia|]. intros _ _.
    assert (Hz : forall k, digs (zeros k)) by (intros; apply below_zeros; auto).
    pose proof (mul_fuel_jam (Nat.max (length x) (length y))) as Hrec.
    unfold TOOM3_CUTOFF, KARATSUBA_CUTOFF.
    destruct (Nat.leb_spec 128 (length x)) as [A0|A0]; [|exfalso; lia].
    destruct (Nat.leb_spec 128 (length y)) as [A1|A1]; [|exfalso; lia]. cbn [andb].
    eapply spec_bind; [apply toom_exact; auto; rewrite zeros_length; reflexivity|].
    intros [[pr wk] n] [H Hf]. ret. split; [eapply mpost_ipost, H|exact Hf].
  - eapply spec_weaken; [apply (mul_into_exact B D OK); auto| |].
    + intros w [A C]. split; [exact A|apply (jams_below x y Hmin), C].
    + intros r [A C]. split; [exact A|]. intros K. apply C, (jams_below x y Hmin), K.
Qed.
End ToomJam.
