(** * ToomMain: mul_big_toom3_into and square_toom3_into (mul/toom3.rs) as a whole. *)
From Coq Require Import ZArith List Bool Lia.
From Verif Require Import Base Digit Spec Hoare DigitOK Slice Mul ListLemmas SliceProof MulProof
  BufProof WorkSize KaratsubaProof ToomProof.
Import ListNotations.
Open Scope Z_scope.
Open Scope m_scope.

Section ToomMain.
Variables (B : Z) (D : digit).
Hypothesis OK : digit_ok B D.
Notation val := (value B).
Notation digs := (below B).
Notation "'p' n" := (pw B n) (at level 10, n at level 9).
Notation buf := (buf B).
Notation wbuf := (wbuf B).
Let HB : 1 < B := SliceProof.HB B D OK.
Hint Resolve HB : core.

(** ** The whole algorithm *)
Lemma firstn_zeros k n : firstn k (zeros n) = zeros (Nat.min k n).
Proof.
  unfold zeros. revert n. induction k as [|k IH]; intros [|n]; try reflexivity.
  cbn. f_equal. apply IH.
Qed.
Lemma skipn_zeros k n : skipn k (zeros n) = zeros (n - k).
Proof.
  unfold zeros. revert n. induction k as [|k IH]; intros [|n]; try reflexivity. cbn. apply IH.
Qed.

Lemma clear_ok l n v : wbuf l n v ->
  total (clear_from l n) (fun l' => length l' = length l /\ buf l' n v).
Proof.
  intros H. destruct (buf_of_wbuf B D OK _ _ _ H) as [Hb HL]. destruct H as (Hd & Hn & HV).
  unfold clear_from. rewrite fill_zero_ok by lia. ret.
  rewrite skipn_all, app_nil_r. split; [len|].
  destruct Hb as (_ & _ & _ & Hb). unfold BufProof.buf. conj.
  - apply below_app. split; [apply below_firstn, Hd|apply below_zeros; auto].
  - len.
  - rewrite value_app, value_zeros. lia.
  - assumption.
Qed.

Lemma zero_parts l k : digs l -> val l = 0 -> (k <= length l)%nat ->
  val (firstn k l) = 0 /\ val (skipn k l) = 0.
Proof.
  intros Hd H0 Hk. apply (buf_split B D OK). unfold BufProof.buf. conj; auto. apply pw_pos; auto.
Qed.

Lemma mpost_w x y prod work pr wk n : mpost B x y prod work (pr, wk, n) -> wbuf pr n (val x * val y).
Proof.
  intros (L & Dp & _ & _ & _ & Hn & V & _). unfold BufProof.wbuf. conj; auto. lia.
Qed.

Lemma sgv_mul s t v w : sgv (xorb s t) (v * w) = sgv s v * sgv t w.
Proof. destruct s, t; cbn; ring. Qed.

Lemma coef_bounds P a0 a1 a2 q0 q1 q2 :
  0 <= a0 < P -> 0 <= a1 < P -> 0 <= a2 < P -> 0 <= q0 < P -> 0 <= q1 < P -> 0 <= q2 < P ->
  0 <= a0 * q0 < P * P /\ 0 <= a0 * q1 + a1 * q0 < 2 * (P * P)
  /\ 0 <= a0 * q2 + a1 * q1 + a2 * q0 < 3 * (P * P)
  /\ 0 <= a1 * q2 + a2 * q1 < 2 * (P * P) /\ 0 <= a2 * q2 < P * P.
Proof.
  intros A0 A1 A2 Q0 Q1 Q2.
  assert (H : forall x y, 0 <= x < P -> 0 <= y < P -> 0 <= x * y < P * P) by (intros; nia).
  pose proof (H _ _ A0 Q0). pose proof (H _ _ A0 Q1). pose proof (H _ _ A0 Q2).
  pose proof (H _ _ A1 Q0). pose proof (H _ _ A1 Q1). pose proof (H _ _ A1 Q2).
  pose proof (H _ _ A2 Q0). pose proof (H _ _ A2 Q1). pose proof (H _ _ A2 Q2).
  clear A0 A1 A2 Q0 Q1 Q2.
  generalize dependent (a0 * q0). generalize dependent (a0 * q1). generalize dependent (a0 * q2).
  generalize dependent (a1 * q0). generalize dependent (a1 * q1). generalize dependent (a1 * q2).
  generalize dependent (a2 * q0). generalize dependent (a2 * q1). generalize dependent (a2 * q2).
  generalize dependent (P * P). intros u _; intros. conj; lia.
Qed.

Lemma value_lt_pw l n : digs l -> (length l <= n)%nat -> 0 <= val l < p n.
Proof.
  intros Hd HL. pose proof (value_bound B HB l Hd). pose proof (pw_le B _ _ HB HL). lia.
Qed.

Lemma spec_bind_weak {A C} (P P' : panic -> Prop) (e : M A) (k : A -> M C) (Q : A -> Prop) (R : C -> Prop) :
  spec P e Q -> (forall w, P w -> P' w) -> (forall a, Q a -> spec P' (k a) R) -> spec P' (bind e k) R.
Proof. destruct e; cbn; auto. Qed.

Lemma t_allowed w : tpanic w -> allowed false w.
Proof. intros H. split; [reflexivity|assumption]. Qed.

Lemma length_zero_iff_nil' (l : digits) : l <> [] -> length l <> 0%nat.
Proof. destruct l; [congruence|discriminate]. Qed.

Lemma toom_ok rec nr0 nr1 result work :
  let n0 := length nr0 in let n1 := length nr1 in let nmax := Nat.max n0 n1 in
  (128 <= n0)%nat -> (128 <= n1)%nat ->
  rec_ok B false nmax rec ->
  digs nr0 -> digs nr1 -> digs result -> digs work ->
  (n0 + n1 <= length result)%nat -> (calc_toom3_work_size nmax <= length work)%nat ->
  spec (allowed false) (mul_big_toom3_into D rec nr0 nr1 result work) (mpost B nr0 nr1 result work).
Proof.
  intros n0 n1 nmax Hc0 Hc1 Hrec D0 D1 Dr Dw HL HW.
  unfold mul_big_toom3_into. fold n0 n1 nmax.
  tstep total_guard; [apply andb_true_iff; split; apply Nat.leb_le; lia|]. intros _ _.
  tstep total_guard; [apply Nat.leb_le; lia|]. intros _ _.
  set (b := ((nmax + 2) / 3)%nat) in *. pose proof (third_bounds nmax) as Hb. fold b in Hb.
  pose proof (t_step nmax ltac:(lia)) as Ht. fold b in Ht. rewrite Ht in HW. clear Ht.
  assert (Hm0 : (n0 <= 3 * b)%nat) by nlia. assert (Hm1 : (n1 <= 3 * b)%nat) by nlia.
  assert (Hm2 : (3 * b + 126 <= n0 + n1)%nat) by nlia.
  assert (Hm3 : (b + 2 < nmax)%nat) by nlia. assert (Hm4 : (43 <= b)%nat) by nlia.
  assert (Hgood : forall x y, good false x y) by (intros x y Ht; discriminate).
  clearbody b nmax. clear Hb.
  rewrite split_at_ok by (rewrite zeros_length; nlia). cbn [bind].
  rewrite split_at_ok by nlia. cbn [bind].
  replace (length (firstn (6 * b + 10) work)) with (6 * b + 10)%nat by (rewrite firstn_length; nlia).
  rewrite split_at_ok by (rewrite zeros_length; nlia). cbn [bind].
  rewrite !firstn_zeros, !skipn_zeros.
  replace (Nat.min (b + 2) (length result)) with (b + 2)%nat by nlia.
  replace (Nat.min (2 * b + 3) (6 * b + 10)) with (2 * b + 3)%nat by nlia.
  rewrite split_at_ok by (rewrite zeros_length; nlia). cbn [bind].
  rewrite !firstn_zeros, !skipn_zeros.
  replace (Nat.min (2 * b + 3) (6 * b + 10 - (2 * b + 3))) with (2 * b + 3)%nat by nlia.
  replace (6 * b + 10 - (2 * b + 3) - (2 * b + 3))%nat with (2 * b + 4)%nat by nlia.
  rewrite split_at_ok by (rewrite zeros_length; nlia). cbn [bind].
  rewrite split_at_ok by (rewrite zeros_length; nlia). cbn [bind].
  rewrite !firstn_zeros, !skipn_zeros.
  replace (Nat.min (b + 1) (2 * b + 3)) with (b + 1)%nat by nlia.
  replace (Nat.min (b + 1) (2 * b + 4)) with (b + 1)%nat by nlia.
  set (rest := (length result - (b + 2))%nat).
  assert (Hrest : (rest + (b + 2) = length result)%nat) by (unfold rest; nlia). clearbody rest.
  (* parts and evaluation *)
  assert (Hz : forall k, digs (zeros k)) by (intros k; apply below_zeros; auto).
  tstep (parts_ok B nr0 b); auto. fold n0.
  intros [[p0 m1] pinf] (Dp0 & Dp1 & Dpi & Lp0 & Lp1 & Lp0' & Lpi & Vp).
  eapply (spec_bind_weak tpanic (allowed false)).
  { apply (eval_ok B D OK b p0 m1 pinf); auto; try apply value_zeros; try (rewrite zeros_length; nlia); nlia. }
  { apply t_allowed. }
  intros [[[p1 l1] [pm1 [s1 lm1]]] [pm2 [s2 lm2]]]
    (Kp1 & Ep1 & Hl1 & V1 & Kpm1 & Hlm1 & (vm1 & Bm1 & Em1) & Kpm2 & Hlm2 & (vm2 & Bm2 & Em2)).
  rewrite zeros_length in Kp1, Kpm1, Kpm2.
  tstep (parts_ok B nr1 b); auto. fold n1.
  intros [[q0 e1] qinf] (Dq0 & Dq1 & Dqi & Lq0 & Lq1 & Lq0' & Lqi & Vq).
  eapply (spec_bind_weak tpanic (allowed false)).
  { apply (eval_ok B D OK b q0 e1 qinf); auto; try apply value_zeros; try (rewrite zeros_length; nlia); nlia. }
  { apply t_allowed. }
  intros [[[q1 k1] [qm1 [t1 km1]]] [qm2 [t2 km2]]]
    (Kq1 & Eq1 & Hk1 & W1 & Kqm1 & Hkm1 & (wm1 & Cm1 & Fm1) & Kqm2 & Hkm2 & (wm2 & Cm2 & Fm2)).
  rewrite zeros_length in Kq1, Kqm1, Kqm2.
  replace (2 * b + 3 - (b + 1))%nat with (b + 2)%nat in Kq1 by nlia.
  replace (2 * b + 4 - (b + 1))%nat with (b + 3)%nat in Kqm1 by nlia.
  set (nw0 := skipn (6 * b + 10) work).
  assert (Dnw : digs nw0) by (apply below_skipn, Dw).
  assert (Lnw : (length nw0 + (6 * b + 10) = length work)%nat) by (unfold nw0; rewrite skipn_length; nlia).
  assert (Hneed : forall x y, (x <= b + 2)%nat -> (y <= b + 2)%nat -> (need x y <= length nw0)%nat).
  { intros x y Hx Hy. etransitivity; [apply (need_le x y (b + 2)); nlia|]. nlia. }
  clearbody nw0.
  (* r1 *)
  rewrite (prefix_ok p1) by nlia. cbn [bind]. rewrite (prefix_ok q1) by nlia. cbn [bind].
  assert (Ll1 : length (firstn l1 p1) = l1) by (rewrite firstn_length; nlia).
  assert (Lk1 : length (firstn k1 q1) = k1) by (rewrite firstn_length; nlia).
  eapply spec_bind.
  { apply Hrec; auto; try (apply below_firstn; assumption); rewrite ?Ll1, ?Lk1, ?zeros_length; try nlia.
    apply Hneed; nlia. }
  intros [[r1 nw1] lr1] Hp.
  assert (Br1 : buf r1 lr1 (val (firstn l1 p1) * val (firstn k1 q1))).
  { eapply (mpost_zero B D OK); [| |exact Hp|apply value_zeros]; auto. intros _ _. rewrite zeros_length. nlia. }
  destruct Hp as (Lr1 & Dr1 & Lnw1 & Dnw1 & Hr1 & _). rewrite zeros_length in Lr1.
  rewrite V1, W1 in Br1. rewrite Ll1, Lk1 in Hr1.
  (* rm1 *)
  rewrite (prefix_ok pm1) by apply Bm1. cbn [bind]. rewrite (prefix_ok qm1) by apply Cm1. cbn [bind].
  assert (Llm1 : length (firstn lm1 pm1) = lm1) by apply (buf_firstn_digs B _ _ _ Bm1).
  assert (Lkm1 : length (firstn km1 qm1) = km1) by apply (buf_firstn_digs B _ _ _ Cm1).
  assert (Dpq : digs (p1 ++ q1)) by (apply below_app; auto).
  eapply spec_bind.
  { apply (Hrec (firstn lm1 pm1) (firstn km1 qm1) (p1 ++ q1) nw1); auto;
      try (apply (buf_firstn_digs B _ _ _ Bm1)); try (apply (buf_firstn_digs B _ _ _ Cm1));
      rewrite ?Llm1, ?Lkm1, ?app_length; try nlia.
    rewrite Lnw1. apply Hneed; nlia. }
  intros [[rm1 nw2] lrm1] Hp. pose proof (mpost_w _ _ _ _ _ _ _ Hp) as Wrm1.
  destruct Hp as (Lrm1 & _ & Lnw2 & Dnw2 & Hrm1 & _). rewrite app_length in Lrm1.
  rewrite (buf_first B D OK _ _ _ Bm1), (buf_first B D OK _ _ _ Cm1) in Wrm1.
  rewrite Llm1, Lkm1 in Hrm1.
  tstep (clear_ok _ _ _ Wrm1). clear Wrm1. intros rm1' (Lrm1' & Brm1).
  (* rm2 *)
  rewrite (prefix_ok pm2) by apply Bm2. cbn [bind]. rewrite (prefix_ok qm2) by apply Cm2. cbn [bind].
  assert (Llm2 : length (firstn lm2 pm2) = lm2) by apply (buf_firstn_digs B _ _ _ Bm2).
  assert (Lkm2 : length (firstn km2 qm2) = km2) by apply (buf_firstn_digs B _ _ _ Cm2).
  assert (Dpq2 : digs (pm1 ++ qm1)) by (apply below_app; split; [apply Bm1|apply Cm1]).
  eapply spec_bind.
  { apply (Hrec (firstn lm2 pm2) (firstn km2 qm2) (pm1 ++ qm1) nw2); auto;
      try (apply (buf_firstn_digs B _ _ _ Bm2)); try (apply (buf_firstn_digs B _ _ _ Cm2));
      rewrite ?Llm2, ?Lkm2, ?app_length; try nlia.
    rewrite Lnw2, Lnw1. apply Hneed; nlia. }
  intros [[rm2 nw3] lrm2] Hp. pose proof (mpost_w _ _ _ _ _ _ _ Hp) as Wrm2.
  destruct Hp as (Lrm2 & _ & Lnw3 & Dnw3 & Hrm2 & _). rewrite app_length in Lrm2.
  rewrite (buf_first B D OK _ _ _ Bm2), (buf_first B D OK _ _ _ Cm2) in Wrm2.
  rewrite Llm2, Lkm2 in Hrm2.
  tstep (clear_ok _ _ _ Wrm2). clear Wrm2. intros rm2' (Lrm2' & Brm2).
  (* the result buffer is zero again *)
  set (n := (n0 + n1)%nat) in *.
  rewrite fill_zero_ok by (rewrite ?app_length; nlia). cbn [bind].
  rewrite firstn_O, Nat.sub_0_r. cbn [app].
  assert (Htail : val (skipn n (pm2 ++ qm2)) = 0).
  { rewrite skipn_app_ge by nlia. rewrite Kpm2.
    assert (Cm2' : buf qm2 (n - (b + 2)) wm2) by (apply (buf_more B D OK _ _ _ _ Cm2); nlia).
    apply (buf_split B D OK _ _ _ Cm2'). }
  set (res0 := zeros n ++ skipn n (pm2 ++ qm2)).
  assert (Lres0 : length res0 = length result).
  { unfold res0. rewrite app_length, zeros_length, skipn_length, app_length. nlia. }
  assert (Dres0 : digs res0).
  { apply below_app. split; auto. apply below_skipn, below_app. split; [apply Bm2|apply Cm2]. }
  assert (Vres0 : val res0 = 0).
  { unfold res0. rewrite value_app, value_zeros, Htail. lia. }
  clearbody res0. rewrite Lres0.
  set (h := Nat.min (4 * b) (length result)).
  assert (Hh : (h <= length result)%nat) by (unfold h; nlia).
  assert (Hh4 : (h <= 4 * b)%nat) by (unfold h; nlia).
  assert (Hh4' : h = length result \/ h = (4 * b)%nat) by (unfold h; nlia).
  assert (Hh2 : (2 * b <= h)%nat) by (unfold h; nlia).
  rewrite split_at_ok by nlia. cbn [bind].
  destruct (zero_parts res0 h Dres0 Vres0 ltac:(nlia)) as [Z0 Z4].
  (* r0 *)
  assert (Lf : length (firstn h res0) = h) by (rewrite firstn_length; nlia).
  assert (Ls : length (skipn h res0) = (length result - h)%nat) by (rewrite skipn_length; nlia).
  eapply spec_bind.
  { apply (Hrec p0 q0 (firstn h res0) nw3); auto; try (apply below_firstn; assumption); rewrite ?Lf; try nlia.
    rewrite Lnw3, Lnw2, Lnw1. apply Hneed; nlia. }
  intros [[r0 nw4] lr0] Hp.
  assert (Br0 : buf r0 lr0 (val p0 * val q0)).
  { eapply (mpost_zero B D OK); [| |exact Hp|assumption]; [apply below_firstn; auto|intros _ _; nlia]. }
  destruct Hp as (Lr0 & Dr0 & Lnw4 & Dnw4 & Hr0 & _).
  (* r4 *)
  assert (Hsp4 : pinf <> [] -> qinf <> [] -> (length pinf + length qinf <= length (skipn h res0))%nat).
  { intros A0 A1. apply length_zero_iff_nil' in A0, A1. rewrite Ls. nlia. }
  eapply spec_bind.
  { apply (Hrec pinf qinf (skipn h res0) nw4); auto; try (apply below_skipn; assumption); try nlia.
    rewrite Lnw4, Lnw3, Lnw2, Lnw1. apply Hneed; nlia. }
  intros [[r4 nw5] lr4] Hp.
  assert (Br4 : buf r4 lr4 (val pinf * val qinf)).
  { eapply (mpost_zero B D OK); [| |exact Hp|assumption]; [apply below_skipn; auto|assumption]. }
  destruct Hp as (Lr4 & Dr4 & Lnw5 & Dnw5 & Hr4 & Hr4' & _ & Nr4 & _).
  (* interpolation *)
  destruct (coef_bounds (p b) (val p0) (val m1) (val pinf) (val q0) (val e1) (val qinf)) as
    (K0 & K1 & K2 & K3 & K4); try (apply value_lt_pw; auto; nlia).
  replace (p b * p b) with (p (2 * b)) in * by (rewrite <- pw_add; f_equal; nlia).
  set (c0 := val p0 * val q0) in *. set (c4 := val pinf * val qinf) in *.
  set (c1 := val p0 * val e1 + val m1 * val q0) in *.
  set (c2 := val p0 * val qinf + val m1 * val e1 + val pinf * val q0) in *.
  set (c3 := val m1 * val qinf + val pinf * val e1) in *.
  assert (EXY : val nr0 * val nr1 =
    c0 + p b * c1 + p (2 * b) * c2 + p (3 * b) * c3 + p (4 * b) * c4).
  { rewrite Vp, Vq. unfold c0, c1, c2, c3, c4.
    replace (p (4 * b)) with (p b * p b * p b * p b) by (rewrite <- !pw_add; f_equal; nlia).
    replace (p (3 * b)) with (p b * p b * p b) by (rewrite <- !pw_add; f_equal; nlia).
    replace (p (2 * b)) with (p b * p b) by (rewrite <- !pw_add; f_equal; nlia). ring. }
  pose proof (product_bound B D OK nr0 nr1 D0 D1) as HXY. fold n0 n1 in HXY. fold n in HXY.
  assert (ER1 : (val p0 + val m1 + val pinf) * (val q0 + val e1 + val qinf) = c0 + c1 + c2 + c3 + c4)
    by (unfold c0, c1, c2, c3, c4; ring).
  assert (ERm1 : sgv (xorb s1 t1) (vm1 * wm1) = c0 - c1 + c2 - c3 + c4).
  { rewrite sgv_mul, Em1, Fm1. unfold c0, c1, c2, c3, c4; ring. }
  assert (ERm2 : sgv (xorb s2 t2) (vm2 * wm2) = c0 - 2 * c1 + 4 * c2 - 8 * c3 + 16 * c4).
  { rewrite sgv_mul, Em2, Fm2. unfold c0, c1, c2, c3, c4; ring. }
  rewrite ER1 in Br1. rewrite EXY in HXY.
  assert (Lr04 : length (r0 ++ r4) = length result) by (rewrite app_length, Lr0, Lr4, Lf, Ls; nlia).
  assert (Hmin : Nat.min (4 * b) (length (r0 ++ r4)) = h) by (rewrite Lr04; reflexivity).
  clearbody c0 c1 c2 c3 c4.
  eapply (spec_bind_weak tpanic (allowed false)).
  { apply (interpolate_ok B D OK b n (r0 ++ r4) r1 rm1' rm2' lr1 lrm1 lrm2 lr0 lr4 _ _ c0 c1 c2 c3 c4);
      try apply K0; try apply K1; try apply K2; try apply K3; try apply K4.
    - apply below_app; auto.
    - nlia.
    - nlia.
    - nlia.
    - nlia.
    - nlia.
    - rewrite Hmin. rewrite <- Lf, <- Lr0. apply Br0.
    - nlia.
    - nlia.
    - rewrite Hmin, Lr04. nlia.
    - nlia.
    - nlia.
    - nlia.
    - rewrite Hmin. rewrite (firstn_exact h) by nlia. apply (buf_first B D OK _ _ _ Br0).
    - rewrite Hmin. rewrite (skipn_exact h) by nlia. apply (buf_first B D OK _ _ _ Br4).
    - rewrite Hmin. rewrite (skipn_exact h) by nlia. assumption.
    - apply (wbuf_of_buf B D OK), Br1.
    - intros _. exact Br1.
    - exists (vm1 * wm1). split; [exact Brm1|exact ERm1].
    - exists (vm2 * wm2). split; [exact Brm2|exact ERm2].
    - destruct Br0 as (_ & _ & E0 & _), Br4 as (_ & _ & E4 & _). rewrite value_app, E0, E4, Lr0, Lf.
      destruct Hh4' as [E|E]; [|rewrite E; reflexivity].
      assert (r4 = []) by (apply length_zero_iff_nil; nlia). subst r4. cbn in E4. subst c4. lia.
    - apply HXY. }
  { apply t_allowed. }
  rewrite <- EXY in *.
  intros [[r [[ra rb] rc]] nres] (Lr & Drr & La & Da & Lb & Db & Lc & Dc & Vr & Hnr & Vn & Nn). ret.
  rewrite Lr04 in Lr. unfold mpost. fold n0 n1. fold n. conj; auto; try nlia.
  - rewrite !app_length. nlia.
  - repeat (apply below_app; split); auto.
  - intros [E|E]; exfalso; [assert (n0 = 0%nat) by (unfold n0; rewrite E; reflexivity)
        |assert (n1 = 0%nat) by (unfold n1; rewrite E; reflexivity)]; nlia.
  - intros _ _. exists 0. conj; auto; lia.
Qed.

Lemma stoom_ok rec nr0 result work :
  let n0 := length nr0 in
  (128 <= n0)%nat ->
  srec_ok B false n0 rec ->
  digs nr0 -> digs result -> digs work ->
  (2 * n0 <= length result)%nat -> (calc_toom3_work_size n0 <= length work)%nat ->
  sqpre B n0 result work ->
  spec (allowed false) (square_toom3_into D rec nr0 result work) (mpost B nr0 nr0 result work).
Proof.
  intros n0 Hc0 Hrec D0 Dr Dw HL HW Hpre.
  unfold square_toom3_into. fold n0.
  tstep total_guard; [apply Nat.leb_le; lia|]. intros _ _.
  tstep total_guard; [apply Nat.leb_le; lia|]. intros _ _.
  set (b := ((n0 + 2) / 3)%nat) in *. pose proof (third_bounds n0) as Hb. fold b in Hb.
  pose proof (t_step n0 ltac:(lia)) as Ht. fold b in Ht. rewrite Ht in HW. clear Ht.
  assert (Hm0 : (n0 <= 3 * b)%nat) by nlia.
  assert (Hm2 : (3 * b + 126 <= n0 + n0)%nat) by nlia.
  assert (Hm3 : (b + 2 < n0)%nat) by nlia. assert (Hm4 : (43 <= b)%nat) by nlia.
  assert (Hgood : forall x y, good false x y) by (intros x y Ht; discriminate).
  assert (Hz0 : val result = 0) by (destruct Hpre as [E|[E _]]; [nlia|exact E]).
  assert (Hsub : forall k prod nw, (k <= b + 1)%nat -> (val work = 0 -> val prod = 0) -> sqpre B k prod nw).
  { intros k prod nw Hk Hp. unfold sqpre. destruct Hpre as [E|[_ [E|[E Ew]]]].
    - exfalso. nlia.
    - left. nlia.
    - right. split; [auto|]. left. nlia. }
  clear Hpre. clearbody b. clear Hb.
  rewrite split_at_ok by nlia. cbn [bind].
  rewrite split_at_ok by (rewrite skipn_length; nlia). cbn [bind].
  rewrite split_at_ok by nlia. cbn [bind].
  rewrite split_at_ok by (rewrite firstn_length; nlia). cbn [bind].
  rewrite split_at_ok by (rewrite skipn_length, firstn_length; nlia). cbn [bind].
  destruct (zero_parts result (b + 1) Dr Hz0 ltac:(nlia)) as [Zp1 Zq].
  assert (Dsk : digs (skipn (b + 1) result)) by (apply below_skipn, Dr).
  destruct (zero_parts (skipn (b + 1) result) (b + 1) Dsk Zq ltac:(rewrite skipn_length; nlia)) as [Zpm1 Zpm2].
  assert (Dp1' : digs (firstn (b + 1) result)) by (apply below_firstn, Dr).
  assert (Dpm1' : digs (firstn (b + 1) (skipn (b + 1) result))) by (apply below_firstn, Dsk).
  assert (Dpm2' : digs (skipn (b + 1) (skipn (b + 1) result))) by (apply below_skipn, Dsk).
  assert (Lp1' : length (firstn (b + 1) result) = (b + 1)%nat) by (rewrite firstn_length; nlia).
  assert (Lpm1' : length (firstn (b + 1) (skipn (b + 1) result)) = (b + 1)%nat)
    by (rewrite firstn_length, skipn_length; nlia).
  assert (Lpm2' : (length (skipn (b + 1) (skipn (b + 1) result)) + (2 * b + 2) = length result)%nat)
    by (rewrite !skipn_length; nlia).
  set (p1' := firstn (b + 1) result) in *.
  set (pm1' := firstn (b + 1) (skipn (b + 1) result)) in *.
  set (pm2' := skipn (b + 1) (skipn (b + 1) result)) in *.
  clearbody p1' pm1' pm2'. clear Dsk Zq Zp1.
  (* scratch *)
  set (w0 := firstn (6 * b + 10) work).
  assert (Lw0 : length w0 = (6 * b + 10)%nat) by (unfold w0; rewrite firstn_length; nlia).
  assert (Dw0 : digs w0) by (apply below_firstn, Dw).
  assert (Zw0 : val work = 0 -> val w0 = 0) by (intros E; apply (zero_parts work); auto; nlia).
  set (r1' := firstn (2 * b + 3) w0).
  set (w1 := skipn (2 * b + 3) w0).
  assert (Zr1 : val work = 0 -> val r1' = 0 /\ val w1 = 0)
    by (intros E; apply (zero_parts w0); auto; nlia).
  assert (Lr1' : length r1' = (2 * b + 3)%nat) by (unfold r1'; rewrite firstn_length; nlia).
  assert (Lw1 : length w1 = (4 * b + 7)%nat) by (unfold w1; rewrite skipn_length; nlia).
  assert (Dr1' : digs r1') by (apply below_firstn, Dw0).
  assert (Dw1 : digs w1) by (apply below_skipn, Dw0).
  set (rm1' := firstn (2 * b + 3) w1).
  set (rm2' := skipn (2 * b + 3) w1).
  assert (Zrm : val work = 0 -> val rm1' = 0 /\ val rm2' = 0)
    by (intros E; apply (zero_parts w1); auto; [apply Zr1, E|nlia]).
  assert (Lrm1' : length rm1' = (2 * b + 3)%nat) by (unfold rm1'; rewrite firstn_length; nlia).
  assert (Lrm2' : length rm2' = (2 * b + 4)%nat) by (unfold rm2'; rewrite skipn_length; nlia).
  assert (Drm1' : digs rm1') by (apply below_firstn, Dw1).
  assert (Drm2' : digs rm2') by (apply below_skipn, Dw1).
  clearbody r1' rm1' rm2'. clear Lw0 Dw0 Zw0 Lw1 Dw1.
  assert (Zr1' : val work = 0 -> val r1' = 0) by (intros E; apply Zr1, E). clear Zr1. clear w1. clear w0.
  set (nw0 := skipn (6 * b + 10) work).
  assert (Dnw : digs nw0) by (apply below_skipn, Dw).
  assert (Lnw : (length nw0 + (6 * b + 10) = length work)%nat) by (unfold nw0; rewrite skipn_length; nlia).
  assert (Hneed : forall x, (x <= b + 2)%nat -> (need x x <= length nw0)%nat).
  { intros x Hx. etransitivity; [apply (need_le x x (b + 2)); nlia|]. nlia. }
  clearbody nw0.
  (* parts and evaluation *)
  tstep (parts_ok B nr0 b); auto. fold n0.
  intros [[p0 m1] pinf] (Dp0 & Dp1 & Dpi & Lp0 & Lp1 & Lp0' & Lpi & Vp).
  eapply (spec_bind_weak tpanic (allowed false)).
  { apply (eval_ok B D OK b p0 m1 pinf); auto; nlia. }
  { apply t_allowed. }
  intros [[[p1 l1] [pm1 [s1 lm1]]] [pm2 [s2 lm2]]]
    (Kp1 & Ep1 & Hl1 & V1 & Kpm1 & Hlm1 & (vm1 & Bm1 & Em1) & Kpm2 & Hlm2 & (vm2 & Bm2 & Em2)).
  (* r1 *)
  rewrite (prefix_ok p1) by nlia. cbn [bind].
  assert (Ll1 : length (firstn l1 p1) = l1) by (rewrite firstn_length; nlia).
  eapply spec_bind.
  { apply Hrec; auto; try (apply below_firstn; assumption); rewrite ?Ll1; try nlia.
    - apply Hneed; nlia.
    - apply Hsub; [nlia|auto]. }
  intros [[r1 nw1] lr1] Hp. pose proof (mpost_w _ _ _ _ _ _ _ Hp) as Br1.
  destruct Hp as (Lr1 & Dr1 & Lnw1 & Dnw1 & Hr1 & _).
  rewrite V1 in Br1. rewrite Ll1 in Hr1.
  (* rm1 *)
  rewrite (prefix_ok pm1) by apply Bm1. cbn [bind].
  assert (Llm1 : length (firstn lm1 pm1) = lm1) by apply (buf_firstn_digs B _ _ _ Bm1).
  eapply spec_bind.
  { apply (Hrec (firstn lm1 pm1) rm1' nw1); auto;
      try (apply (buf_firstn_digs B _ _ _ Bm1)); rewrite ?Llm1; try nlia.
    - rewrite Lnw1. apply Hneed; nlia.
    - apply Hsub; [nlia|apply Zrm]. }
  intros [[rm1 nw2] lrm1] Hp. pose proof (mpost_w _ _ _ _ _ _ _ Hp) as Wrm1.
  destruct Hp as (Lrm1 & _ & Lnw2 & Dnw2 & Hrm1 & _).
  rewrite (buf_first B D OK _ _ _ Bm1) in Wrm1. rewrite Llm1 in Hrm1.
  tstep (clear_ok _ _ _ Wrm1). clear Wrm1. intros rm1c (Lrm1c & Brm1).
  (* rm2 *)
  rewrite (prefix_ok pm2) by apply Bm2. cbn [bind].
  assert (Llm2 : length (firstn lm2 pm2) = lm2) by apply (buf_firstn_digs B _ _ _ Bm2).
  eapply spec_bind.
  { apply (Hrec (firstn lm2 pm2) rm2' nw2); auto;
      try (apply (buf_firstn_digs B _ _ _ Bm2)); rewrite ?Llm2; try nlia.
    - rewrite Lnw2, Lnw1. apply Hneed; nlia.
    - apply Hsub; [nlia|apply Zrm]. }
  intros [[rm2 nw3] lrm2] Hp. pose proof (mpost_w _ _ _ _ _ _ _ Hp) as Wrm2.
  destruct Hp as (Lrm2 & _ & Lnw3 & Dnw3 & Hrm2 & _).
  rewrite (buf_first B D OK _ _ _ Bm2) in Wrm2. rewrite Llm2 in Hrm2.
  tstep (clear_ok _ _ _ Wrm2). clear Wrm2. intros rm2c (Lrm2c & Brm2).
  (* the result buffer is zero again *)
  set (n := (2 * n0)%nat) in *.
  assert (En : n = (2 * n0)%nat) by reflexivity. clearbody n.
  rewrite fill_zero_ok by (rewrite ?app_length; nlia). cbn [bind].
  rewrite firstn_O, Nat.sub_0_r. cbn [app].
  assert (Htail : val (skipn n (p1 ++ pm1 ++ pm2)) = 0).
  { rewrite skipn_app_ge by nlia. rewrite skipn_app_ge by nlia. rewrite Kp1, Kpm1, Lp1', Lpm1'.
    assert (Cm2' : buf pm2 (n - (b + 1) - (b + 1)) vm2) by (apply (buf_more B D OK _ _ _ _ Bm2); nlia).
    apply (buf_split B D OK _ _ _ Cm2'). }
  set (res0 := zeros n ++ skipn n (p1 ++ pm1 ++ pm2)).
  assert (Lres0 : length res0 = length result).
  { unfold res0. rewrite app_length, zeros_length, skipn_length, !app_length. nlia. }
  assert (Dres0 : digs res0).
  { apply below_app. split; [apply below_zeros; auto|]. apply below_skipn, below_app. split; auto.
    apply below_app. split; [apply Bm1|apply Bm2]. }
  assert (Vres0 : val res0 = 0).
  { unfold res0. rewrite value_app, value_zeros, Htail. zlia. }
  clearbody res0. rewrite Lres0.
  set (h := Nat.min (4 * b) (length result)).
  assert (Hh : (h <= length result)%nat) by (unfold h; nlia).
  assert (Hh4 : (h <= 4 * b)%nat) by (unfold h; nlia).
  assert (Hh4' : h = length result \/ h = (4 * b)%nat) by (unfold h; nlia).
  assert (Hh2 : (2 * b <= h)%nat) by (unfold h; nlia).
  rewrite split_at_ok by nlia. cbn [bind].
  destruct (zero_parts res0 h Dres0 Vres0 ltac:(nlia)) as [Z0 Z4].
  (* r0 *)
  assert (Lf : length (firstn h res0) = h) by (rewrite firstn_length; nlia).
  assert (Ls : length (skipn h res0) = (length result - h)%nat) by (rewrite skipn_length; nlia).
  eapply spec_bind.
  { apply (Hrec p0 (firstn h res0) nw3); auto; try (apply below_firstn; assumption); rewrite ?Lf; try nlia.
    - rewrite Lnw3, Lnw2, Lnw1. apply Hneed; nlia.
    - apply Hsub; [nlia|auto]. }
  intros [[r0 nw4] lr0] Hp.
  assert (Br0 : buf r0 lr0 (val p0 * val p0)).
  { eapply (mpost_zero B D OK); [| |exact Hp|assumption]; [apply below_firstn; auto|intros _ _; nlia]. }
  destruct Hp as (Lr0 & Dr0 & Lnw4 & Dnw4 & Hr0 & _).
  (* r4 *)
  eapply spec_bind.
  { apply (Hrec pinf (skipn h res0) nw4); auto; try (apply below_skipn; assumption); rewrite ?Ls; try nlia.
    - rewrite Lnw4, Lnw3, Lnw2, Lnw1. apply Hneed; nlia.
    - apply Hsub; [nlia|auto]. }
  intros [[r4 nw5] lr4] Hp.
  assert (Br4 : buf r4 lr4 (val pinf * val pinf)).
  { eapply (mpost_zero B D OK); [| |exact Hp|assumption]; [apply below_skipn; auto|intros _ _; nlia]. }
  destruct Hp as (Lr4 & Dr4 & Lnw5 & Dnw5 & Hr4 & Hr4' & _ & Nr4 & _).
  (* interpolation *)
  destruct (coef_bounds (p b) (val p0) (val m1) (val pinf) (val p0) (val m1) (val pinf)) as
    (K0 & K1 & K2 & K3 & K4); try (apply value_lt_pw; auto; nlia).
  replace (p b * p b) with (p (2 * b)) in * by (rewrite <- pw_add; f_equal; nlia).
  set (c0 := val p0 * val p0) in *. set (c4 := val pinf * val pinf) in *.
  set (c1 := val p0 * val m1 + val m1 * val p0) in *.
  set (c2 := val p0 * val pinf + val m1 * val m1 + val pinf * val p0) in *.
  set (c3 := val m1 * val pinf + val pinf * val m1) in *.
  assert (EXY : val nr0 * val nr0 =
    c0 + p b * c1 + p (2 * b) * c2 + p (3 * b) * c3 + p (4 * b) * c4).
  { rewrite Vp. unfold c0, c1, c2, c3, c4.
    replace (p (4 * b)) with (p b * p b * p b * p b) by (rewrite <- !pw_add; f_equal; nlia).
    replace (p (3 * b)) with (p b * p b * p b) by (rewrite <- !pw_add; f_equal; nlia).
    replace (p (2 * b)) with (p b * p b) by (rewrite <- !pw_add; f_equal; nlia). ring. }
  pose proof (product_bound B D OK nr0 nr0 D0 D0) as HXY. fold n0 in HXY.
  replace (n0 + n0)%nat with n in HXY by nlia.
  assert (ER1 : (val p0 + val m1 + val pinf) * (val p0 + val m1 + val pinf) = c0 + c1 + c2 + c3 + c4)
    by (unfold c0, c1, c2, c3, c4; ring).
  assert (ERm1 : sgv false (vm1 * vm1) = c0 - c1 + c2 - c3 + c4).
  { rewrite <- (xorb_nilpotent s1), sgv_mul, Em1. unfold c0, c1, c2, c3, c4; ring. }
  assert (ERm2 : sgv false (vm2 * vm2) = c0 - 2 * c1 + 4 * c2 - 8 * c3 + 16 * c4).
  { rewrite <- (xorb_nilpotent s2), sgv_mul, Em2. unfold c0, c1, c2, c3, c4; ring. }
  rewrite ER1 in Br1. rewrite EXY in HXY.
  assert (Lr04 : length (r0 ++ r4) = length result) by (rewrite app_length, Lr0, Lr4, Lf, Ls; nlia).
  assert (Hmin : Nat.min (4 * b) (length (r0 ++ r4)) = h) by (rewrite Lr04; reflexivity).
  clearbody c0 c1 c2 c3 c4.
  eapply (spec_bind_weak tpanic (allowed false)).
  { apply (interpolate_ok B D OK b n (r0 ++ r4) r1 rm1c rm2c lr1 lrm1 lrm2 lr0 lr4 _ _ c0 c1 c2 c3 c4);
      try apply K0; try apply K1; try apply K2; try apply K3; try apply K4.
    - apply below_app; auto.
    - nlia.
    - nlia.
    - nlia.
    - nlia.
    - nlia.
    - rewrite Hmin. rewrite <- Lf, <- Lr0. apply Br0.
    - nlia.
    - nlia.
    - rewrite Hmin, Lr04. nlia.
    - nlia.
    - nlia.
    - nlia.
    - rewrite Hmin. rewrite (firstn_exact h) by nlia. apply (buf_first B D OK _ _ _ Br0).
    - rewrite Hmin. rewrite (skipn_exact h) by nlia. apply (buf_first B D OK _ _ _ Br4).
    - rewrite Hmin. rewrite (skipn_exact h) by nlia. assumption.
    - exact Br1.
    - discriminate.
    - exists (vm1 * vm1). split; [exact Brm1|exact ERm1].
    - exists (vm2 * vm2). split; [exact Brm2|exact ERm2].
    - destruct Br0 as (_ & _ & E0 & _), Br4 as (_ & _ & E4 & _). rewrite value_app, E0, E4, Lr0, Lf.
      destruct Hh4' as [E|E]; [|rewrite E; reflexivity].
      assert (r4 = []) by (apply length_zero_iff_nil; nlia). subst r4. cbn in E4. subst c4. lia.
    - apply HXY. }
  { apply t_allowed. }
  rewrite <- EXY in *.
  intros [[r [[ra rb] rc]] nres] (Lr & Drr & La & Da & Lb & Db & Lc & Dc & Vr & Hnr & Vn & Nn). ret.
  rewrite Lr04 in Lr. unfold mpost. fold n0. conj; auto; try nlia.
  - rewrite !app_length. nlia.
  - repeat (apply below_app; split); auto.
  - intros [E|E]; exfalso; (assert (n0 = 0%nat) by (unfold n0; rewrite E; reflexivity)); nlia.
  - intros _ _. exists 0. rewrite Vr. clear. conj; auto; lia.
Qed.
End ToomMain.
