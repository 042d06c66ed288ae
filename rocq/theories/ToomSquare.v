(** * ToomSquare: exactly when squaring up to 1131 digits stops. *)
From Coq Require Import ZArith List Bool Lia.
From Verif Require Import Base Digit Spec SpecMul SpecToom Hoare DigitOK Slice Mul ListLemmas SliceProof
  MulProof BufProof WorkSize KaratsubaProof KaraExact ToomProof ToomMain MulTopProof ToomLen ToomExact ToomJam.
Import ListNotations.
Open Scope Z_scope.
Open Scope m_scope.

Section ToomSquare.
Variables (B : Z) (D : digit).
Hypothesis OK : digit_ok B D.
Notation val := (value B).
Notation digs := (below B).
Notation "'p' n" := (pw B n) (at level 10, n at level 9).
Notation buf := (buf B).
Notation wbuf := (wbuf B).
Let HB : 1 < B := SliceProof.HB B D OK.
Hint Resolve HB : core.

Definition srec_jam (N : nat) (rec : square_fn) : Prop := forall x prod work,
  digs x -> digs prod -> digs work -> (length x < N)%nat ->
  (2 * length x <= length prod)%nat ->
  (need (length x) (length x) <= length work)%nat -> sqpre B (length x) prod work ->
  spec (halt B x x) (rec x prod work) (fun r => mpost B x x prod work r /\ ~ jams B x x).

Lemma stoom_exact rec nr0 result work :
  let n0 := length nr0 in
  (128 <= n0)%nat ->
  srec_jam n0 rec ->
  digs nr0 -> digs result -> digs work ->
  (2 * n0 <= length result)%nat -> (calc_toom3_work_size n0 <= length work)%nat ->
  sqpre B n0 result work ->
  spec (halt B nr0 nr0) (square_toom3_into D rec nr0 result work)
    (fun r => mpost B nr0 nr0 result work r /\ ~ jams B nr0 nr0).
Proof.
  intros n0 Hc0 Hrec D0 Dr Dw HL HW Hpre.
  unfold square_toom3_into. fold n0.
  tstep total_guard; [apply Nat.leb_le; lia|]. intros _ _.
  tstep total_guard; [apply Nat.leb_le; lia|]. intros _ _.
  set (b := ((n0 + 2) / 3)%nat) in *. pose proof (third_bounds n0) as Hb. fold b in Hb.
  pose proof (t_step n0 ltac:(lia)) as Ht. fold b in Ht. rewrite Ht in HW. clear Ht.
  assert (Hm0 : (n0 <= 3 * b)%nat) by nlia.
  assert (Hm2 : (3 * b + 126 <= n0 + n0)%nat) by nlia.
  assert (Hm3 : (b + 2 < n0)%nat) by nlia. assert (Hm4 : (43 <= b)%nat) by nlia.
  assert (Hbig : large n0 n0) by (split; assumption).
  assert (Eb : third n0 n0 = b) by (unfold third; rewrite Nat.max_id; reflexivity).
  assert (Hz0 : val result = 0) by (destruct Hpre as [E|[E _]]; [nlia|exact E]).
  assert (Hsub : forall k prod nw, (k <= b + 1)%nat -> (val work = 0 -> val prod = 0) -> sqpre B k prod nw).
  { intros k prod nw Hk Hp. unfold sqpre. destruct Hpre as [E|[_ [E|[E Ew]]]].
    - exfalso. nlia.
    - left. nlia.
    - right. split; [auto|]. left. nlia. }
  clear Hpre. clearbody b. clear Hb.
  rewrite split_at_ok by nlia. cbn [bind].
  rewrite split_at_ok by (rewrite skipn_length; nlia). cbn [bind].
  rewrite split_at_ok by nlia. cbn [bind].
  rewrite split_at_ok by (rewrite firstn_length; nlia). cbn [bind].
  rewrite split_at_ok by (rewrite skipn_length, firstn_length; nlia). cbn [bind].
  destruct (zero_parts B D OK result (b + 1) Dr Hz0 ltac:(nlia)) as [Zp1 Zq].
  assert (Dsk : digs (skipn (b + 1) result)) by (apply below_skipn, Dr).
  destruct (zero_parts B D OK (skipn (b + 1) result) (b + 1) Dsk Zq ltac:(rewrite skipn_length; nlia)) as [Zpm1 Zpm2].
  assert (Dp1' : digs (firstn (b + 1) result)) by (apply below_firstn, Dr).
  assert (Dpm1' : digs (firstn (b + 1) (skipn (b + 1) result))) by (apply below_firstn, Dsk).
  assert (Dpm2' : digs (skipn (b + 1) (skipn (b + 1) result))) by (apply below_skipn, Dsk).
  assert (Lp1' : length (firstn (b + 1) result) = (b + 1)%nat) by (rewrite firstn_length; nlia).
  assert (Lpm1' : length (firstn (b + 1) (skipn (b + 1) result)) = (b + 1)%nat)
    by (rewrite firstn_length, skipn_length; nlia).
  assert (Lpm2' : (length (skipn (b + 1) (skipn (b + 1) result)) + (2 * b + 2) = length result)%nat)
    by (rewrite !skipn_length; nlia).
  set (p1' := firstn (b + 1) result) in *.
  set (pm1' := firstn (b + 1) (skipn (b + 1) result)) in *.
  set (pm2' := skipn (b + 1) (skipn (b + 1) result)) in *.
  clearbody p1' pm1' pm2'. clear Dsk Zq Zp1.
  (* scratch *)
  set (w0 := firstn (6 * b + 10) work).
  assert (Lw0 : length w0 = (6 * b + 10)%nat) by (unfold w0; rewrite firstn_length; nlia).
  assert (Dw0 : digs w0) by (apply below_firstn, Dw).
  assert (Zw0 : val work = 0 -> val w0 = 0) by (intros E; apply (zero_parts B D OK work); auto; nlia).
  set (r1' := firstn (2 * b + 3) w0).
  set (w1 := skipn (2 * b + 3) w0).
  assert (Zr1 : val work = 0 -> val r1' = 0 /\ val w1 = 0)
    by (intros E; apply (zero_parts B D OK w0); auto; nlia).
  assert (Lr1' : length r1' = (2 * b + 3)%nat) by (unfold r1'; rewrite firstn_length; nlia).
  assert (Lw1 : length w1 = (4 * b + 7)%nat) by (unfold w1; rewrite skipn_length; nlia).
  assert (Dr1' : digs r1') by (apply below_firstn, Dw0).
  assert (Dw1 : digs w1) by (apply below_skipn, Dw0).
  set (rm1' := firstn (2 * b + 3) w1).
  set (rm2' := skipn (2 * b + 3) w1).
  assert (Zrm : val work = 0 -> val rm1' = 0 /\ val rm2' = 0)
    by (intros E; apply (zero_parts B D OK w1); auto; [apply Zr1, E|nlia]).
  assert (Lrm1' : length rm1' = (2 * b + 3)%nat) by (unfold rm1'; rewrite firstn_length; nlia).
  assert (Lrm2' : length rm2' = (2 * b + 4)%nat) by (unfold rm2'; rewrite skipn_length; nlia).
  assert (Drm1' : digs rm1') by (apply below_firstn, Dw1).
  assert (Drm2' : digs rm2') by (apply below_skipn, Dw1).
  clearbody r1' rm1' rm2'. clear Lw0 Dw0 Zw0 Lw1 Dw1.
  assert (Zr1' : val work = 0 -> val r1' = 0) by (intros E; apply Zr1, E). clear Zr1. clear w1. clear w0.
  set (nw0 := skipn (6 * b + 10) work).
  assert (Dnw : digs nw0) by (apply below_skipn, Dw).
  assert (Lnw : (length nw0 + (6 * b + 10) = length work)%nat) by (unfold nw0; rewrite skipn_length; nlia).
  assert (Hneed : forall x, (x <= b + 2)%nat -> (need x x <= length nw0)%nat).
  { intros x Hx. etransitivity; [apply (need_le x x (b + 2)); nlia|]. nlia. }
  clearbody nw0.
  (* parts and evaluation *)
  tstep (parts_exact B D OK nr0 b); auto. fold n0.
  intros [[p0 m1] pinf] (Dp0 & Dp1 & Dpi & Lp0 & Lp1 & Lp0' & Lpi & Vp & Sp0 & Sp1 & Sp2).
  eapply spec_bind_weak.
  { apply (eval_exact B D OK b p0 m1 pinf); auto; nlia. }
  { intros w. apply stop_weaken. rewrite Sp0, Sp1, Sp2. intros Hc. apply jam_first; [exact Hbig|].
    fold n0. rewrite Eb. exact Hc. }
  rewrite Sp0, Sp1, Sp2.
  intros [[[p1 l1] [pm1 [s1 lm1]]] [pm2 [s2 lm2]]]
    (Kp1 & Ep1 & Hl1 & Kpm1 & Hlm1 & Kpm2 & Hlm2 & NL0 & El1 & V1 & SV1 & Sm1 & Bm1 & Em1 & Sm2 & Bm2 & Em2).
  change (at_one B (piece0 B (val nr0) b) (piece1 B (val nr0) b) (piece2 B n0 (val nr0) b))
    with (sample_at B n0 (val nr0) b One) in *.
  change (at_minus_one B (piece0 B (val nr0) b) (piece1 B (val nr0) b) (piece2 B n0 (val nr0) b))
    with (sample_at B n0 (val nr0) b MinusOne) in *.
  change (at_minus_two B (piece0 B (val nr0) b) (piece1 B (val nr0) b) (piece2 B n0 (val nr0) b))
    with (sample_at B n0 (val nr0) b MinusTwo) in *.
  change (piece0 B (val nr0) b) with (sample_at B n0 (val nr0) b Zero) in Sp0.
  change (piece2 B n0 (val nr0) b) with (sample_at B n0 (val nr0) b Infinity) in Sp2.
  change (~ goes_wrong B n0 (val nr0) b) in NL0.
  set (vm1 := size (sample_at B n0 (val nr0) b MinusOne)) in *.
  set (vm2 := size (sample_at B n0 (val nr0) b MinusTwo)) in *.
  assert (Hin : forall z x, length x = count (sample_at B n0 (val nr0) b z) ->
    val x = size (sample_at B n0 (val nr0) b z) -> jams B x x -> jams B nr0 nr0).
  { intros z x X1 X2 Hj. apply jam_inside with z; [exact Hbig|]. fold n0. rewrite Eb. cbv zeta.
    rewrite <- X1, <- X2. exact Hj. }
  assert (Hnin : forall z x, length x = count (sample_at B n0 (val nr0) b z) ->
    val x = size (sample_at B n0 (val nr0) b z) -> ~ jams B x x ->
    ~ jam B (count (sample_at B n0 (val nr0) b z)) (size (sample_at B n0 (val nr0) b z))
      (count (sample_at B n0 (val nr0) b z)) (size (sample_at B n0 (val nr0) b z))).
  { intros z x X1 X2 Hj. rewrite <- X1, <- X2. exact Hj. }
  (* r1 *)
  rewrite (prefix_ok p1) by nlia. cbn [bind].
  assert (Ll1 : length (firstn l1 p1) = l1) by (rewrite firstn_length; nlia).
  eapply spec_bind_weak.
  { apply Hrec; auto; try (apply below_firstn; assumption); rewrite ?Ll1; try nlia.
    - apply Hneed; nlia.
    - apply Hsub; [nlia|auto]. }
  { intros w. apply stop_weaken, (Hin One); [rewrite Ll1; exact El1|exact V1]. }
  intros [[r1 nw1] lr1] [Hp HJ].
  apply (Hnin One) in HJ; [|rewrite Ll1; exact El1|exact V1]. rename HJ into Jr1. pose proof (mpost_w B _ _ _ _ _ _ _ Hp) as Br1.
  destruct Hp as (Lr1 & Dr1 & Lnw1 & Dnw1 & Hr1 & _ & _ & Nr1 & _).
  rewrite V1, SV1 in Br1. rewrite Ll1 in Hr1.
  (* rm1 *)
  rewrite (prefix_ok pm1) by apply Bm1. cbn [bind].
  assert (Llm1 : length (firstn lm1 pm1) = lm1) by apply (buf_firstn_digs B _ _ _ Bm1).
  eapply spec_bind_weak.
  { apply (Hrec (firstn lm1 pm1) rm1' nw1); auto;
      try (apply (buf_firstn_digs B _ _ _ Bm1)); rewrite ?Llm1; try nlia.
    - rewrite Lnw1. apply Hneed; nlia.
    - apply Hsub; [nlia|apply Zrm]. }
  { intros w. apply stop_weaken, (Hin MinusOne); [rewrite Llm1, <- Sm1; reflexivity|apply (buf_first B D OK _ _ _ Bm1)]. }
  intros [[rm1 nw2] lrm1] [Hp HJ].
  apply (Hnin MinusOne) in HJ; [|rewrite Llm1, <- Sm1; reflexivity|apply (buf_first B D OK _ _ _ Bm1)]. rename HJ into Jrm1. pose proof (mpost_w B _ _ _ _ _ _ _ Hp) as Wrm1.
  destruct Hp as (Lrm1 & _ & Lnw2 & Dnw2 & Hrm1 & _ & _ & Nrm1 & _).
  rewrite (buf_first B D OK _ _ _ Bm1) in Wrm1. rewrite Llm1 in Hrm1.
  pose proof (wbuf_places B D OK _ _ _ Wrm1 Nrm1) as Plm1.
  tstep (clear_ok B D OK _ _ _ Wrm1). clear Wrm1. intros rm1c (Lrm1c & Brm1).
  (* rm2 *)
  rewrite (prefix_ok pm2) by apply Bm2. cbn [bind].
  assert (Llm2 : length (firstn lm2 pm2) = lm2) by apply (buf_firstn_digs B _ _ _ Bm2).
  eapply spec_bind_weak.
  { apply (Hrec (firstn lm2 pm2) rm2' nw2); auto;
      try (apply (buf_firstn_digs B _ _ _ Bm2)); rewrite ?Llm2; try nlia.
    - rewrite Lnw2, Lnw1. apply Hneed; nlia.
    - apply Hsub; [nlia|apply Zrm]. }
  { intros w. apply stop_weaken, (Hin MinusTwo); [rewrite Llm2, <- Sm2; reflexivity|apply (buf_first B D OK _ _ _ Bm2)]. }
  intros [[rm2 nw3] lrm2] [Hp HJ].
  apply (Hnin MinusTwo) in HJ; [|rewrite Llm2, <- Sm2; reflexivity|apply (buf_first B D OK _ _ _ Bm2)]. rename HJ into Jrm2. pose proof (mpost_w B _ _ _ _ _ _ _ Hp) as Wrm2.
  destruct Hp as (Lrm2 & _ & Lnw3 & Dnw3 & Hrm2 & _ & _ & Nrm2 & _).
  rewrite (buf_first B D OK _ _ _ Bm2) in Wrm2. rewrite Llm2 in Hrm2.
  pose proof (wbuf_places B D OK _ _ _ Wrm2 Nrm2) as Plm2.
  tstep (clear_ok B D OK _ _ _ Wrm2). clear Wrm2. intros rm2c (Lrm2c & Brm2).
  (* the result buffer is zero again *)
  set (n := (2 * n0)%nat) in *.
  assert (En : n = (2 * n0)%nat) by reflexivity. clearbody n.
  rewrite fill_zero_ok by (rewrite ?app_length; nlia). cbn [bind].
  rewrite firstn_O, Nat.sub_0_r. cbn [app].
  assert (Htail : val (skipn n (p1 ++ pm1 ++ pm2)) = 0).
  { rewrite skipn_app_ge by nlia. rewrite skipn_app_ge by nlia. rewrite Kp1, Kpm1, Lp1', Lpm1'.
    assert (Cm2' : buf pm2 (n - (b + 1) - (b + 1)) vm2) by (apply (buf_more B D OK _ _ _ _ Bm2); nlia).
    apply (buf_split B D OK _ _ _ Cm2'). }
  set (res0 := zeros n ++ skipn n (p1 ++ pm1 ++ pm2)).
  assert (Lres0 : length res0 = length result).
  { unfold res0. rewrite app_length, zeros_length, skipn_length, !app_length. nlia. }
  assert (Dres0 : digs res0).
  { apply below_app. split; [apply below_zeros; auto|]. apply below_skipn, below_app. split; auto.
    apply below_app. split; [apply Bm1|apply Bm2]. }
  assert (Vres0 : val res0 = 0).
  { unfold res0. rewrite value_app, value_zeros, Htail. zlia. }
  clearbody res0. rewrite Lres0.
  set (h := Nat.min (4 * b) (length result)).
  assert (Hh : (h <= length result)%nat) by (unfold h; nlia).
  assert (Hh4 : (h <= 4 * b)%nat) by (unfold h; nlia).
  assert (Hh4' : h = length result \/ h = (4 * b)%nat) by (unfold h; nlia).
  assert (Hh2 : (2 * b <= h)%nat) by (unfold h; nlia).
  rewrite split_at_ok by nlia. cbn [bind].
  destruct (zero_parts B D OK res0 h Dres0 Vres0 ltac:(nlia)) as [Z0 Z4].
  (* r0 *)
  assert (Lf : length (firstn h res0) = h) by (rewrite firstn_length; nlia).
  assert (Ls : length (skipn h res0) = (length result - h)%nat) by (rewrite skipn_length; nlia).
  eapply spec_bind_weak.
  { apply (Hrec p0 (firstn h res0) nw3); auto; try (apply below_firstn; assumption); rewrite ?Lf; try nlia.
    - rewrite Lnw3, Lnw2, Lnw1. apply Hneed; nlia.
    - apply Hsub; [nlia|auto]. }
  { intros w. apply stop_weaken, (Hin Zero); [rewrite <- Sp0; reflexivity|rewrite <- Sp0; reflexivity]. }
  intros [[r0 nw4] lr0] [Hp HJ].
  apply (Hnin Zero) in HJ; [|rewrite <- Sp0; reflexivity|rewrite <- Sp0; reflexivity]. rename HJ into Jr0.
  assert (Br0 : buf r0 lr0 (val p0 * val p0)).
  { eapply (mpost_zero B D OK); [| |exact Hp|assumption]; [apply below_firstn; auto|intros _ _; nlia]. }
  destruct Hp as (Lr0 & Dr0 & Lnw4 & Dnw4 & Hr0 & _ & _ & Nr0 & _).
  (* r4 *)
  eapply spec_bind_weak.
  { apply (Hrec pinf (skipn h res0) nw4); auto; try (apply below_skipn; assumption); rewrite ?Ls; try nlia.
    - rewrite Lnw4, Lnw3, Lnw2, Lnw1. apply Hneed; nlia.
    - apply Hsub; [nlia|auto]. }
  { intros w. apply stop_weaken, (Hin Infinity); [rewrite <- Sp2; reflexivity|rewrite <- Sp2; reflexivity]. }
  intros [[r4 nw5] lr4] [Hp HJ].
  apply (Hnin Infinity) in HJ; [|rewrite <- Sp2; reflexivity|rewrite <- Sp2; reflexivity]. rename HJ into Jr4.
  assert (Br4 : buf r4 lr4 (val pinf * val pinf)).
  { eapply (mpost_zero B D OK); [| |exact Hp|assumption]; [apply below_skipn; auto|intros _ _; nlia]. }
  destruct Hp as (Lr4 & Dr4 & Lnw5 & Dnw5 & Hr4 & Hr4' & _ & Nr4 & _).
  (* interpolation *)
  destruct (coef_bounds B D OK (p b) (val p0) (val m1) (val pinf) (val p0) (val m1) (val pinf)) as
    (K0 & K1 & K2 & K3 & K4); try (apply (value_lt_pw B D OK); auto; nlia).
  replace (p b * p b) with (p (2 * b)) in * by (rewrite <- pw_add; f_equal; nlia).
  set (c0 := val p0 * val p0) in *. set (c4 := val pinf * val pinf) in *.
  set (c1 := val p0 * val m1 + val m1 * val p0) in *.
  set (c2 := val p0 * val pinf + val m1 * val m1 + val pinf * val p0) in *.
  set (c3 := val m1 * val pinf + val pinf * val m1) in *.
  assert (EXY : val nr0 * val nr0 =
    c0 + p b * c1 + p (2 * b) * c2 + p (3 * b) * c3 + p (4 * b) * c4).
  { rewrite Vp. unfold c0, c1, c2, c3, c4.
    replace (p (4 * b)) with (p b * p b * p b * p b) by (rewrite <- !pw_add; f_equal; nlia).
    replace (p (3 * b)) with (p b * p b * p b) by (rewrite <- !pw_add; f_equal; nlia).
    replace (p (2 * b)) with (p b * p b) by (rewrite <- !pw_add; f_equal; nlia). ring. }
  pose proof (product_bound B D OK nr0 nr0 D0 D0) as HXY. fold n0 in HXY.
  replace (n0 + n0)%nat with n in HXY by nlia.
  assert (Hc4 : c4 <> 0 -> (4 * b + 2 <= n)%nat).
  { intros Hc. assert (pinf <> []) as A0.
    { intros ->; apply Hc; unfold c4; cbn [value]; ring. }
    apply length_zero_iff_nil' in A0. nlia. }
  assert (ET : not_together B n0 (val nr0) n0 (val nr0)
    = together_lost B c0 (size (sample_at B n0 (val nr0) b One) * size (sample_at B n0 (val nr0) b One))
        (vm1 * vm1) (vm2 * vm2) false false).
  { unfold not_together, product_at, sign_at. rewrite Eb. rewrite !xorb_nilpotent. rewrite <- Sp0, <- Sm1, <- Sm2.
    reflexivity. }
  assert (ER1 : (val p0 + val m1 + val pinf) * (val p0 + val m1 + val pinf) = c0 + c1 + c2 + c3 + c4)
    by (unfold c0, c1, c2, c3, c4; ring).
  assert (ERm1 : sgv false (vm1 * vm1) = c0 - c1 + c2 - c3 + c4).
  { rewrite <- (xorb_nilpotent s1), sgv_mul, Em1. unfold c0, c1, c2, c3, c4; ring. }
  assert (ERm2 : sgv false (vm2 * vm2) = c0 - 2 * c1 + 4 * c2 - 8 * c3 + 16 * c4).
  { rewrite <- (xorb_nilpotent s2), sgv_mul, Em2. unfold c0, c1, c2, c3, c4; ring. }
  rewrite ER1 in Br1. rewrite SV1, ER1 in ET. rewrite EXY in HXY.
  pose proof (wbuf_places B D OK _ _ _ Br1 Nr1) as Pl1. pose proof (buf_places B D OK _ _ _ Br0 Nr0) as Pl0.
  pose proof (buf_places B D OK _ _ _ Br4 Nr4) as Pl4.
  assert (Lr04 : length (r0 ++ r4) = length result) by (rewrite app_length, Lr0, Lr4, Lf, Ls; nlia).
  assert (Hmin : Nat.min (4 * b) (length (r0 ++ r4)) = h) by (rewrite Lr04; reflexivity).
  clearbody c0 c1 c2 c3 c4.
  eapply spec_bind_weak.
  { apply (interpolate_exact B D OK b n (r0 ++ r4) r1 rm1c rm2c lr1 lrm1 lrm2 lr0 lr4 false false
      c0 c1 c2 c3 c4 (vm1 * vm1) (vm2 * vm2));
      try apply K0; try apply K1; try apply K2; try apply K3; try apply K4.
    - apply below_app; auto.
    - nlia.
    - exact Hc4.
    - nlia.
    - nlia.
    - nlia.
    - nlia.
    - rewrite Hmin. rewrite <- Lf, <- Lr0. apply Br0.
    - nlia.
    - nlia.
    - rewrite Hmin, Lr04. nlia.
    - nlia.
    - nlia.
    - nlia.
    - rewrite Hmin. rewrite (firstn_exact h) by nlia. apply (buf_first B D OK _ _ _ Br0).
    - rewrite Hmin. rewrite (skipn_exact h) by nlia. apply (buf_first B D OK _ _ _ Br4).
    - rewrite Hmin. rewrite (skipn_exact h) by nlia. assumption.
    - exact Br1.
    - discriminate.
    - exact Brm1.
    - exact ERm1.
    - exact Brm2.
    - exact ERm2.
    - exact Pl1.
    - exact Plm1.
    - exact Plm2.
    - exact Pl0.
    - exact Pl4.
    - destruct Br0 as (_ & _ & E0 & _), Br4 as (_ & _ & E4 & _). rewrite value_app, E0, E4, Lr0, Lf.
      destruct Hh4' as [E|E]; [|rewrite E; reflexivity].
      assert (r4 = []) by (apply length_zero_iff_nil; nlia). subst r4. cbn in E4. subst c4. lia.
    - apply HXY. }
  { intros w. apply stop_weaken. rewrite <- ET. intros Hc. apply jam_together; [exact Hbig|exact Hc]. }
  rewrite <- EXY in *. rewrite <- ET.
  intros [[r [[ra rb] rc]] nres] (Lr & Drr & La & Da & Lb & Db & Lc & Dc & Vr & Hnr & Vn & Nn & NT). ret.
  rewrite Lr04 in Lr. split; cycle 1.
  { apply (not_jam B nr0 nr0 Hbig); fold n0; rewrite ?Eb; auto. cbv zeta. intros []; assumption. }
  unfold mpost. fold n0. conj; auto; try nlia.
  - rewrite !app_length. nlia.
  - repeat (apply below_app; split); auto.
  - intros [E|E]; exfalso; (assert (n0 = 0%nat) by (unfold n0; rewrite E; reflexivity)); nlia.
  - intros _ _. exists 0. rewrite Vr. clear. conj; auto; lia.
Qed.

Lemma srec_jam_exact N rec : srec_jam N rec -> srec_exact B N rec.
Proof.
  intros H x prod work D0 D2 D3 HN Hmin HL HW.
  assert (Hm : (Nat.min (length x) (length x) < 128)%nat) by lia.
  eapply spec_weaken; [apply H; auto; left; assumption| |].
  - intros w [A C]. split; [exact A|apply (jams_below B x x Hm), C].
  - intros r [A C]. split; [exact A|]. intros K. apply C, (jams_below B x x Hm), K.
Qed.
Lemma srec_jam_le N M rec : (M <= N)%nat -> srec_jam N rec -> srec_jam M rec.
Proof. intros H Hr x prod work D0 D2 D3 HL. apply Hr; auto. lia. Qed.

Lemma sdispatch_jam rec x prod work :
  digs x -> digs prod -> digs work -> srec_jam (length x) rec -> (2 * length x <= length prod)%nat ->
  (need (length x) (length x) <= length work)%nat -> sqpre B (length x) prod work ->
  spec (halt B x x) (square_dispatch D rec x prod work) (fun r => mpost B x x prod work r /\ ~ jams B x x).
Proof.
  intros D0 Dp Dw Hrec HL HW Hpre.
  destruct (Nat.le_gt_cases 128 (length x)) as [Hmin|Hmin].
  - unfold square_dispatch.
    destruct (Nat.eqb_spec (length x) 0) as [E|N0]; [exfalso; lia|].
    tstep total_guard; [apply Nat.leb_le; lia|]. intros _ _.
    unfold TOOM3_CUTOFF, KARATSUBA_CUTOFF. unfold need in HW.
    unfold TOOM3_CUTOFF, KARATSUBA_CUTOFF in HW.
    destruct (Nat.leb_spec 128 (length x)) as [A0|A0]; [|exfalso; lia]. cbn [andb] in *.
    apply stoom_exact; auto. rewrite Nat.max_id in HW. exact HW.
  - assert (Hm : (Nat.min (length x) (length x) < 128)%nat) by lia.
    eapply spec_weaken; [apply (sdispatch_exact B D OK); auto using srec_jam_exact| |].
    + intros w [A C]. split; [exact A|apply (jams_below B x x Hm), C].
    + intros r [A C]. split; [exact A|]. intros K. apply C, (jams_below B x x Hm), K.
Qed.

Lemma square_fuel_jam f : srec_jam f (square_fuel D f).
Proof.
  induction f as [|f IH]; intros x prod work D0 Dp Dw HN HL HW Hp; [lia|].
  cbn [square_fuel]. apply sdispatch_jam; auto. apply (srec_jam_le f); auto. lia.
Qed.

Lemma square_into_jam x prod :
  digs x -> digs prod -> (2 * length x <= length prod)%nat ->
  (length x < 128)%nat \/ (val prod = 0 /\ (length x <= 1131)%nat) ->
  spec (halt B x x) (square_into D x prod) (fun r => ipost B x x prod r /\ ~ jams B x x).
Proof.
  intros D0 Dp HL Hlen.
  destruct (Nat.le_gt_cases 128 (length x)) as [Hmin|Hmin].
  - unfold square_into.
    destruct (Nat.eqb_spec (length x) 0) as [E|N0]; [exfalso; lia|].
    tstep total_guard; [apply Nat.leb_le; lia|]. intros _ _.
    assert (Hz : forall k, digs (zeros k)) by (intros; apply below_zeros; auto).
    pose proof (square_fuel_jam (length x)) as Hrec.
    unfold TOOM3_CUTOFF, KARATSUBA_CUTOFF.
    destruct (Nat.leb_spec 128 (length x)) as [A0|A0]; [|exfalso; lia].
    eapply spec_bind.
    + apply stoom_exact; auto; [rewrite zeros_length; reflexivity|].
      right. destruct Hlen as [H|[H1 H2]]; [lia|]. split; auto. right. split; auto. apply value_zeros.
    + intros [[pr wk] n] [H Hf]. ret. split; [eapply mpost_ipost, H|exact Hf].
  - assert (Hm : (Nat.min (length x) (length x) < 128)%nat) by lia.
    eapply spec_weaken; [apply (square_into_exact B D OK); auto| |].
    + intros w [A C]. split; [exact A|apply (jams_below B x x Hm), C].
    + intros r [A C]. split; [exact A|]. intros K. apply C, (jams_below B x x Hm), K.
Qed.
End ToomSquare.
