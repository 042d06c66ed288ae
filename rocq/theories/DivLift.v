(** * DivLift: decimal division by numbers with a leading zero.

    The leading zero is shifted by the largest amount, 2^s above the base, and the
    digit below it becomes the leading digit of the divisor. *)
From Coq Require Import ZArith List Bool Lia.
From Verif Require Import Base Digit Slice Mul Div UBig Spec SpecMul SpecDiv Hoare DigitOK ListLemmas Gives
  SliceProof MulProof UBigProof DivProof DivWide DivPairProof DivLongProof DivTopProof DivSize DivBzProof
  TypedProof Cases ClaimsBasic ClaimsDiv ClaimsDivBig DivTie DivScale DivDebug DivPad.
Import ListNotations.
Open Scope Z_scope.
Open Scope m_scope.

Section Lift.
Variables (B : Z) (D : digit).
Hypothesis OK : digit_ok B D.
Hypothesis DV : digit_div B D 1.
Variable s : Z.
Hypothesis Hs1 : 1 <= s.
Hypothesis Hz : d_max_shift D 0 = Ret s.
Hypothesis Hshl : forall d c, 0 <= d < B -> 0 <= c < 2 ^ s ->
  total (d_shl_carry D d s c) (fun '(r, c') => 0 <= r < B /\ 0 <= c' < 2 ^ s /\ r + B * c' = d * 2 ^ s + c).
Hypothesis Hshr : forall d c, 0 <= d < B -> 0 <= c < 2 ^ s ->
  total (d_shr_carry D d s c) (fun '(r, c') => 0 <= r < B /\ 0 <= c' < 2 ^ s /\ r * 2 ^ s + c' = d + B * c).
Notation val := (value B).
Notation digs := (below B).
Notation p n := (pw B n).
Let HB : 1 < B := SliceProof.HB B D OK.
Let H2s : 0 < 2 ^ s.
Proof. apply Z.pow_pos_nonneg; lia. Qed.

Lemma lift_shl_loop nr carry : digs nr -> 0 <= carry < 2 ^ s ->
  total (shl_loop D nr s carry) (fun '(r, c) =>
    length r = length nr /\ digs r /\ 0 <= c < 2 ^ s /\ val r + p (length nr) * c = val nr * 2 ^ s + carry).
Proof.
  intros H. revert carry. induction nr as [|d t IH]; intros carry Hc; cbn [shl_loop].
  - ret. conj; auto; try lia. cbn [length value]. rewrite pw_0. lia.
  - apply below_cons in H. destruct H as [Hd Ht].
    tstep Hshl; [exact Hd|exact Hc|]. intros [d' c] (Hr & Hc' & HE).
    tstep IH; [exact Ht|exact Hc'|]. intros [t' c'] (HL & Hdt & Hc'' & HV). ret.
    conj; [cbn; lia|apply below_cons; auto|lia|lia|].
    cbn [value length]. rewrite pw_S. clear -HE HV. nia.
Qed.
Lemma lift_shl nr : digs nr ->
  total (shl_carry_assign_within_digit D nr s 0) (fun '(r, c) =>
    length r = length nr /\ digs r /\ 0 <= c < 2 ^ s /\ val r + p (length nr) * c = val nr * 2 ^ s).
Proof.
  intros H. unfold shl_carry_assign_within_digit. destruct (Z.eqb_spec s 0); [lia|].
  eapply total_post; [apply lift_shl_loop; auto; lia|]. intros [r c] (? & ? & ? & ?). conj; auto; lia.
Qed.
Lemma lift_shr_loop nr carry : digs nr -> 0 <= carry < 2 ^ s ->
  total (shr_loop D nr s carry) (fun '(r, c) =>
    length r = length nr /\ digs r /\ 0 <= c < 2 ^ s /\ val r * 2 ^ s + c = val nr + p (length nr) * carry).
Proof.
  intros H Hc. induction nr as [|d t IH]; cbn [shr_loop].
  - ret. conj; auto; try lia. cbn [length value]. rewrite pw_0. lia.
  - apply below_cons in H. destruct H as [Hd Ht].
    tstep IH; [exact Ht|]. intros [t' c'] (HL & Hdt & Hc'' & HV).
    tstep Hshr; [exact Hd|exact Hc''|]. intros [d' c] (Hr & Hc' & HE). ret.
    conj; [cbn; lia|apply below_cons; auto|lia|lia|].
    cbn [value length]. rewrite pw_S. clear -HE HV. nia.
Qed.
Lemma lift_shr nr : digs nr ->
  total (shr_carry_assign_within_digit D nr s 0) (fun '(r, (n, c)) =>
    length r = length nr /\ digs r /\ 0 <= c < 2 ^ s /\ val r * 2 ^ s + c = val nr
    /\ (n <= length nr)%nat /\ val (firstn n r) = val r /\ normal (firstn n r)).
Proof.
  intros H. unfold shr_carry_assign_within_digit. destruct (Z.eqb_spec s 0); [lia|].
  tstep lift_shr_loop; [exact H|lia|]. intros [r c] (? & ? & ? & ?).
  tstep (drop_val B); [lia|]. intros n' (N1 & N2 & N3). ret.
  rewrite (firstn_all2 (n := length r) r) in N2 by lia. conj; auto; lia.
Qed.

(** the shifted divisor *)
Lemma lifted_top y sden c : digs y -> length sden = S (length y) -> digs sden ->
  val sden + p (S (length y)) * c = val (y ++ [0]) * 2 ^ s ->
  nth (length y) sden 0 = (val y * 2 ^ s / p (length y)) mod B.
Proof.
  intros Dy Ls Ds V. pose proof (pw_pos B (length y) HB) as Hp.
  assert (E : val (y ++ [0]) = val y) by (rewrite value_app; cbn [value]; lia). rewrite E in V.
  pose proof (split_last sden (length y) ltac:(lia)) as SL.
  set (T := nth (length y) sden 0) in *. rewrite SL in V. rewrite value_app in V.
  rewrite firstn_length_le in V by lia. cbn [value] in V.
  assert (Hb := value_bound B HB _ (below_firstn B (length y) sden Ds)). rewrite firstn_length_le in Hb by lia.
  assert (HT : 0 <= T < B). { apply (below_nth B sden (length y)); [exact Ds|]. apply nth_error_nth'. lia. }
  apply Z.mod_unique with c; [left; exact HT|].
  symmetry. apply Z.div_unique with (val (firstn (length y) sden)); [left; exact Hb|].
  rewrite pw_S in V. clear -V. nia.
Qed.

Lemma padded_get y : get (y ++ [0]) (length (y ++ [0]) - 1) = Ret 0.
Proof.
  unfold get. rewrite app_length. cbn [length]. rewrite nth_error_app2 by lia.
  replace (length y + 1 - 1 - length y)%nat with 0%nat by lia. reflexivity.
Qed.

(** ** Right results *)
Lemma lift_long num y quot work : let n := S (length y) in let k := (length num - n)%nat in
  (2 <= length y)%nat -> (n <= length num)%nat -> digs num -> digs y -> digs quot -> digs work ->
  (S n <= length work)%nat -> (k + 1 <= length quot)%nat ->
  val y * 2 ^ s < p n -> B <= 2 * (val y * 2 ^ s / p (length y)) ->
  val num * 2 ^ s / p (length num) < val y * 2 ^ s / p (length y) ->
  total (div_big_long D num (y ++ [0]) quot work)
    (div_post B num quot work k (val num / val y) (val num mod val y)).
Proof.
  intros n k Ly Hnum Dn Dy Dq Dw Lw Hq Hfit Hbig Hmsd.
  assert (Ln : length (y ++ [0]) = n) by (rewrite app_length; cbn; lia).
  assert (Dd : digs (y ++ [0])) by (apply below_app; split; [exact Dy|apply below_cons; split; [lia|apply below_nil]]).
  assert (Ev : val (y ++ [0]) = val y) by (rewrite value_app; cbn [value]; lia).
  pose proof (pw_pos B (length y) HB) as Hp.
  assert (Hy0 : 0 < val y).
  { pose proof (value_nonneg B HB y Dy). destruct (Z.eq_dec (val y) 0) as [E|]; [|lia].
    rewrite E, Z.mul_0_l, Z.div_0_l in Hbig by lia. lia. }
  unfold div_big_long. rewrite Ln. fold k.
  tstep total_debug_assert; [apply Nat.ltb_lt; lia|]. intros _ _.
  tstep total_debug_assert; [apply Nat.leb_le; lia|]. intros _ _.
  tstep total_debug_assert; [apply orb_true_intro; left; apply Nat.leb_le; lia|]. intros _ _.
  tstep total_debug_work; [apply Nat.leb_le; unfold calc_div_long_work_size; lia|]. intros _ _.
  rewrite <- Ln at 1. rewrite padded_get. cbn [bind]. rewrite Hz. cbn [bind].
  destruct (Z.eqb_spec s 0) as [E0|_]; [lia|].
  tstep lift_shl; [exact Dd|]. intros [sden c] (Ls & Ds & Hc & Vs). rewrite Ln in Ls, Vs.
  assert (Et := lifted_top y sden c Dy Ls Ds Vs).
  rewrite Ev in Vs. destruct (unshift (val num) (val y) s ltac:(lia) Hy0) as [U1 U2].
  set (N := val num * 2 ^ s) in *. set (E := val y * 2 ^ s) in *.
  assert (HE : 0 < E) by (unfold E; apply Z.mul_pos_pos; lia).
  assert (c = 0) as ->.
  { pose proof (value_nonneg B HB sden Ds). destruct (Z.le_gt_cases 1 c); [|lia].
    pose proof (pw_pos B n HB). assert (p n * 1 <= p n * c) by (apply Z.mul_le_mono_nonneg_l; lia). lia. }
  rewrite Z.mul_0_r, Z.add_0_r in Vs.
  assert (Hlt : E / p (length y) < B) by (apply Z.div_lt_upper_bound; [lia|]; rewrite <- (Z.mul_comm B), <- pw_S; exact Hfit).
  rewrite Z.mod_small in Et by (split; [apply Z.div_pos; lia|exact Hlt]).
  tstep lift_shl; [exact Dn|]. intros [snum msd] (Lsn & Dsn & Hm & Vsn). fold N in Vsn.
  assert (Em : msd = N / p (length num)).
  { apply Z.div_unique with (val snum); [left|lia].
    pose proof (value_bound B HB snum Dsn) as Hb. rewrite Lsn in Hb. exact Hb. }
  rewrite prefix_ok by lia. cbn [bind].
  assert (Ek : (length snum - n)%nat = k) by (unfold k; lia).
  assert (HDS : total (div_big_long_scaled D snum msd sden quot (firstn (n + 1) work))
            (div_post B snum quot (firstn (n + 1) work) k (N / E) (N mod E))).
  { pose proof (div_big_long_scaled_ok B D 1 OK DV snum msd sden quot (firstn (n + 1) work)) as X.
    cbv zeta in X. rewrite Ls, Ek, Lsn, Vsn, Vs in X. replace (n - 1)%nat with (length y) in X by lia.
    eapply spec_weaken; [apply X; clear X; auto; try lia| |].
    - apply below_firstn; exact Dw.
    - len.
    - intros i Hi. rewrite Et.
      assert (Hr := Z.mod_pos_bound (N / p i) E HE).
      assert (((N / p i) mod E) / p (length y) <= E / p (length y)) by (apply Z.div_le_mono; lia). lia.
    - intros w (_ & H & _). lia.
    - intros a Ha. exact Ha. }
  tstep HDS. clear HDS.
  rewrite U1, U2.
  intros [[[num1 quot1] work1] [nq nr]]
    (L1 & D1 & V1 & LQ & DQ & LW & DW & N1 & N2 & VQ & NQ & N3 & VR & NR & QZ).
  eapply step_prefix; [exact N3| |].
  { eapply total_post; [apply lift_shr; apply below_firstn; exact D1|].
    intros [r [nr' c]] (Lr & Dr & Hc' & Vr & Hn' & Vn' & Nn').
    instantiate (1 := fun '(r, (nr', _)) => length r = nr /\ digs r /\ (nr' <= nr)%nat
      /\ val r = val num mod val y /\ val (firstn nr' r) = val r /\ normal (firstn nr' r)).
    cbv beta iota. rewrite firstn_length_le in * by exact N3. conj; auto.
    rewrite VR in Vr. apply exact_shift with (2 ^ s) c; assumption. }
  intros r [nr' c] (Lr & Dr & Hn' & Vr & Vn' & Nn'). ret.
  assert (Hrest : val (skipn nr num1) = 0).
  { pose proof (value_split B nr num1 N3) as Vsp. rewrite VR, V1 in Vsp.
    pose proof (pw_pos B nr HB).
    assert (p nr * val (skipn nr num1) = 0) as Ez by lia. apply Z.mul_eq_0 in Ez. lia. }
  unfold div_post. conj; auto; try lia.
  + len.
  + apply below_app. split; [exact Dr|apply below_skipn; exact D1].
  + rewrite value_app, Hrest, Vr. lia.
  + len.
  + apply below_app. split; [exact DW|apply below_skipn; exact Dw].
  + len.
  + rewrite firstn_app_le by lia. congruence.
  + rewrite firstn_app_le by lia. assumption.
Qed.

Lemma lift_div_big x y : (2 <= length y < 19)%nat -> digs x -> digs y -> num_lt x (y ++ [0]) = false ->
  val y * 2 ^ s < p (S (length y)) -> B <= 2 * (val y * 2 ^ s / p (length y)) ->
  val x * 2 ^ s / p (length x) < val y * 2 ^ s / p (length y) ->
  total (div_big D x (y ++ [0]) (zeros (length x - length (y ++ [0]) + 1))) (fun '(num', quot', r) =>
    exists nq nr, r = ROk (nq, nr)
    /\ digs num' /\ digs quot'
    /\ val (firstn nq quot') = val x / val y /\ normal (firstn nq quot')
    /\ val (firstn nr num') = val x mod val y /\ normal (firstn nr num')).
Proof.
  intros Ly Dx Dy Elt H1 H2 H3. pose proof (num_lt_false_len _ _ Elt) as Hlen.
  assert (Ln : length (y ++ [0]) = S (length y)) by (rewrite app_length; cbn; lia).
  unfold div_big, div_big_with_work. rewrite Elt. set (nd := length (y ++ [0])) in *.
  destruct (Nat.leb_spec nd 2); [lia|]. cbn [orb].
  destruct (Nat.ltb_spec nd BZ_CUTOFF) as [Hc|Hc]; [|unfold BZ_CUTOFF in Hc; lia].
  unfold div_big_with_work_gen. fold nd. rewrite Elt.
  destruct (Nat.eqb_spec nd 0); [lia|]. destruct (Nat.eqb_spec nd 1); [lia|]. destruct (Nat.eqb_spec nd 2); [lia|].
  rewrite zeros_length, Nat.ltb_irrefl. cbn [andb].
  destruct (Nat.ltb_spec nd BZ_CUTOFF) as [_|?]; [|lia].
  rewrite bind_assoc.
  tstep total_debug_work.
  { apply Nat.leb_le. unfold calc_div_long_work_size. len. }
  intros _ _. rewrite bind_assoc. tstep lift_long; auto; try lia; try (apply below_zeros; lia); try len.
  intros [[[num' quot'] work'] [nq nr]]
    (L1 & D1 & V1 & LQ & DQ & LW & DW & N1 & N2 & VQ & NQ & N3 & VR & NR & QZ).
  cbn [bind]. ret. exists nq, nr. conj; auto.
Qed.

(** ** Debug builds notice a leading digit below half the base *)
Hypothesis Hdbg : d_dbg D = true.
Variable W : panic -> Prop.
Hypothesis Hms : forall d, 0 <= d -> 2 * d < B ->
  fails W (s <- d_max_shift D d ;; debug_assert true (s =? 0)).

Lemma lift_long_debug num y quot work : let n := S (length y) in
  (2 <= length y)%nat -> (n <= length num)%nat -> digs num -> digs y ->
  (S n <= length work)%nat -> (length num - n + 1 <= length quot)%nat ->
  2 * ((val y * 2 ^ s / p (length y)) mod B) < B -> fails W (div_big_long D num (y ++ [0]) quot work).
Proof.
  intros n Ly Hnum Dn Dy Lw Hq HT.
  assert (Ln : length (y ++ [0]) = n) by (rewrite app_length; cbn; lia).
  assert (Dd : digs (y ++ [0])) by (apply below_app; split; [exact Dy|apply below_cons; split; [lia|apply below_nil]]).
  unfold fails, div_big_long. rewrite Ln.
  tstep total_debug_assert; [apply Nat.ltb_lt; lia|]. intros _ _.
  tstep total_debug_assert; [apply Nat.leb_le; lia|]. intros _ _.
  tstep total_debug_assert; [apply orb_true_intro; left; apply Nat.leb_le; lia|]. intros _ _.
  tstep total_debug_work; [apply Nat.leb_le; unfold calc_div_long_work_size; lia|]. intros _ _.
  rewrite <- Ln at 1. rewrite padded_get. cbn [bind]. rewrite Hz. cbn [bind].
  destruct (Z.eqb_spec s 0) as [E0|_]; [lia|].
  tstep lift_shl; [exact Dd|]. intros [sden c] (Ls & Ds & Hc & Vs). rewrite Ln in Ls, Vs.
  assert (Et := lifted_top y sden c Dy Ls Ds Vs).
  tstep lift_shl; [exact Dn|]. intros [snum msd] (Lsn & Dsn & Hm & Vsn).
  rewrite prefix_ok by lia. cbn [bind].
  apply fails_bind. unfold fails, div_big_long_scaled. rewrite Ls, Hdbg.
  rewrite get_ok by lia. cbn [bind]. replace (n - 1)%nat with (length y) by lia. rewrite Et.
  assert (T1 : 0 <= (val y * 2 ^ s / p (length y)) mod B) by (apply Z.mod_pos_bound; lia).
  pose proof (fails_bind W _ (fun _ => qden <- prefix (firstn (n + 1) work) (n + 1) ;;
    '(num, quot, qden, nquot) <- div_long_first D snum msd sden quot qden ;;
    '(num, quot, qden) <- div_long_loop D (length snum - n) num sden quot qden ;;
    nquot <- drop_leading_zeros quot nquot ;;
    nrem <- drop_leading_zeros num n ;;
    Ret (num, quot, qden ++ skipn (n + 1) (firstn (n + 1) work), (nquot, nrem))) (Hms _ T1 HT)) as HF.
  rewrite bind_assoc in HF. exact HF.
Qed.

Lemma lift_bz_debug num y quot work : let nd := S (length y) in
  (20 <= nd)%nat -> digs num -> digs y -> num_lt num (y ++ [0]) = false ->
  (length num - nd + 1 <= length quot)%nat -> (calc_div_bz_work_size nd <= length work)%nat ->
  2 * ((val y * 2 ^ s / p (length y)) mod B) < B -> fails W (div_big_bz D num (y ++ [0]) quot work).
Proof.
  intros nd Hnd Dn Dy Hge Lq Lw HT.
  set (den := y ++ [0]) in *.
  assert (Ln : length den = nd) by (unfold den; rewrite app_length; cbn; lia).
  assert (Dd : digs den) by (apply below_app; split; [exact Dy|apply below_cons; split; [lia|apply below_nil]]).
  assert (Hlen : (nd <= length num)%nat) by (rewrite <- Ln; apply num_lt_false_len; exact Hge).
  unfold fails, div_big_bz. rewrite Ln.
  tstep total_debug_assert; [apply Nat.ltb_lt; lia|]. intros _ _.
  tstep total_debug_assert; [rewrite Hge; reflexivity|]. intros _ _.
  tstep total_debug_assert; [apply Nat.leb_le; lia|]. intros _ _.
  tstep total_debug_work; [apply Nat.leb_le; lia|]. intros _ _.
  destruct (block_size_ok nd Hnd) as [Hh Hn].
  set (n := block_size nd) in *. set (off := (n - nd)%nat) in *.
  assert (Dz : forall m, digs (zeros m)) by (intros m; apply below_zeros; lia).
  assert (Hfz : forall a m, (a <= m)%nat -> firstn a (zeros m) = zeros a).
  { intros a m Ha. unfold zeros. replace m with (a + (m - a))%nat by lia.
    rewrite repeat_app. apply firstn_exact, repeat_length. }
  assert (Hsz : forall a m, (a <= m)%nat -> skipn a (zeros m) = zeros (m - a)).
  { intros a m Ha. unfold zeros. replace m with (a + (m - a))%nat at 1 by lia.
    rewrite repeat_app. apply skipn_exact, repeat_length. }
  rewrite copy_into_ok by (len; lia). cbn [bind].
  rewrite Hfz, Hsz by lia. rewrite Nat.sub_diag. change (zeros 0) with (@nil Z). rewrite app_nil_r.
  set (y' := zeros off ++ y).
  assert (Ey : zeros off ++ den = y' ++ [0]) by (unfold y', den; apply app_assoc). rewrite Ey.
  assert (Ly' : length y' = (n - 1)%nat) by (unfold y'; len; lia).
  assert (Lz : length (y' ++ [0]) = n) by (rewrite app_length; cbn [length]; lia).
  rewrite <- Lz at 1. rewrite padded_get. cbn [bind]. rewrite Hz. cbn [bind].
  pose proof (pw_pos B off HB) as Hpo. pose proof (pw_pos B (length y) HB) as Hpy.
  assert (Vz : val y' = p off * val y).
  { unfold y'. rewrite value_app, value_zeros. replace (length (zeros off)) with off by len. lia. }
  assert (Dy' : digs y') by (apply below_app; split; [apply Dz|exact Dy]).
  assert (Dd' : digs (y' ++ [0])) by (rewrite <- Ey; apply below_app; split; [apply Dz|exact Dd]).
  tstep lift_shl; [exact Dd'|].
  intros [sden c] (Lsd & Dsd & Hc & Vsd). rewrite Lz in Lsd, Vsd.
  assert (Et := lifted_top y' sden c Dy' ltac:(lia) Dsd ltac:(replace (S (length y')) with n by lia; exact Vsd)).
  assert (ET : val y' * 2 ^ s / p (length y') = val y * 2 ^ s / p (length y)).
  { rewrite Vz. replace (length y') with (off + length y)%nat by lia. rewrite pw_add, <- Z.mul_assoc.
    apply Z.div_mul_cancel_l; lia. }
  rewrite ET, Ly' in Et.
  assert (T1 : 0 <= (val y * 2 ^ s / p (length y)) mod B) by (apply Z.mod_pos_bound; lia).
  set (nn := length num) in *. set (t1 := ((nn - nd) / n)%nat) in *.
  assert (Ht1 : (nn - nd < n * t1 + n)%nat).
  { pose proof (Nat.div_mod (nn - nd) n ltac:(lia)) as X. pose proof (Nat.mod_upper_bound (nn - nd) n ltac:(lia)).
    fold t1 in X. lia. }
  set (T := ((2 + t1) * n)%nat).
  assert (HT1 : (off + nn + 1 <= T)%nat) by (unfold T, off; nia).
  rewrite copy_into_ok by (try (len; lia); fold nn; lia). cbn [bind].
  rewrite Hfz, Hsz by lia.
  set (sn0 := zeros off ++ num ++ zeros (T - (off + nn))).
  assert (Lsn0 : length sn0 = T) by (unfold sn0; len; fold nn; lia).
  assert (Dsn0 : digs sn0) by (unfold sn0; apply below_app; split; [apply Dz|]; apply below_app; split; [exact Dn|apply Dz]).
  eapply step_slice; [lia|lia| |].
  { apply total_spec. apply lift_shl; apply below_firstn, below_skipn; exact Dsn0. }
  cbv beta. intros sl0 c2.
  assert (Lsl0 : length (firstn (off + nn + 1 - off) (skipn off sn0)) = (nn + 1)%nat) by len.
  rewrite Lsl0. intros (Lsl & _).
  set (snum := firstn off sn0 ++ sl0 ++ skipn (off + nn + 1) sn0).
  assert (Lsn : length snum = T) by (unfold snum; len).
  replace (2 + t1 - 1)%nat with (S t1) by lia.
  apply fails_bind. cbn [bz_blocks].
  assert (E2 : ((t1 + 2) * n = T)%nat) by (unfold T; lia).
  rewrite sub_slice_ok by (rewrite ?Lsn; unfold T; nia). cbn [bind].
  rewrite sub_slice_ok by (len; nia). cbn [bind].
  apply fails_bind. unfold div_big_bz_2n_n. cbn [bz_fuel].
  unfold fails, div_big_bz_2n_n_step. rewrite Lsd.
  tstep total_debug_assert.
  { unfold BZ_CUTOFF. clear - Hh. destruct Hh as [n Hn|n Hh Hn].
    - destruct (Nat.ltb_spec n 20); [reflexivity|lia].
    - rewrite Nat.even_mul. apply orb_true_r. }
  intros _ _.
  tstep total_debug_assert.
  { apply Nat.eqb_eq. rewrite firstn_length, skipn_length, Lsn. unfold T. nia. }
  intros _ _.
  tstep total_debug_assert.
  { apply Nat.eqb_eq. rewrite firstn_length, skipn_length. unfold zeros. rewrite repeat_length. nia. }
  intros _ _. rewrite Hdbg. rewrite get_ok by lia. cbn [bind].
  apply fails_bind. unfold debug_max_shift_zero. rewrite Hdbg, Et. apply Hms; assumption.
Qed.

Lemma lift_div_debug x y : digs x -> digs y -> (2 <= length y)%nat -> num_lt x (y ++ [0]) = false ->
  2 * ((val y * 2 ^ s / p (length y)) mod B) < B ->
  fails W (div_big D x (y ++ [0]) (zeros (length x - length (y ++ [0]) + 1))).
Proof.
  intros Dx Dy Hl Elt HT. pose proof (num_lt_false_len _ _ Elt) as Hlen.
  assert (Ln : length (y ++ [0]) = S (length y)) by (rewrite app_length; cbn; lia).
  unfold div_big, div_big_with_work. rewrite Elt. set (nd := length (y ++ [0])) in *.
  destruct (Nat.leb_spec nd 2); [lia|]. cbn [orb].
  apply fails_bind. unfold div_big_with_work_gen. fold nd.
  destruct (Nat.eqb_spec nd 0) as [|_]; [lia|]. rewrite Elt.
  rewrite zeros_length, Nat.ltb_irrefl. cbn [andb].
  destruct (Nat.eqb_spec nd 1) as [|_]; [lia|]. destruct (Nat.eqb_spec nd 2) as [|_]; [lia|].
  destruct (Nat.ltb_spec nd BZ_CUTOFF) as [H20|H20].
  - unfold fails. tstep total_debug_work.
    { apply Nat.leb_le. unfold calc_div_long_work_size. len. }
    intros _ _. apply fails_bind. apply lift_long_debug; auto; try lia; len.
  - unfold BZ_CUTOFF in H20. apply fails_bind.
    unfold fails. tstep total_debug_work; [apply Nat.leb_le; len|]. intros _ _.
    apply lift_bz_debug; auto; try lia; len. rewrite <- Ln. fold nd. lia.
Qed.
End Lift.

(** ** The decimal types with digits of 8, 16 and 32 bits *)
Definition small_decimal (t : dty) : Prop := t = D8 \/ t = D16 \/ t = D32.

Section Types.
Variable dbg : bool.
Variable t : dty.
Hypothesis Ht : small_decimal t.
Variable s : Z.
Hypothesis Hs : radix t < 2 ^ s < 2 * radix t.

Lemma lift_shift : s = match t with D8 => 7 | D16 => 14 | _ => 30 end.
Proof using Ht Hs.
  assert (H0 : 0 <= s).
  { destruct (Z.le_gt_cases 0 s) as [H|H]; [exact H|]. rewrite Z.pow_neg_r in Hs by lia.
    pose proof (radix_gt t). lia. }
  assert (G : forall b, radix t < 2 ^ b < 2 * radix t -> 0 <= b -> s = b).
  { intros b Hb Hb0. destruct (Z.lt_trichotomy s b) as [H|[H|H]]; [exfalso|exact H|exfalso].
    - assert (2 ^ (s + 1) <= 2 ^ b) by (apply Z.pow_le_mono_r; lia). rewrite Z.pow_add_r in H1 by lia. lia.
    - assert (2 ^ (b + 1) <= 2 ^ s) by (apply Z.pow_le_mono_r; lia). rewrite Z.pow_add_r in H1 by lia. lia. }
  destruct Ht as [->|[->| ->]]; apply G; try lia; split; reflexivity.
Qed.
Lemma lift_zero : d_max_shift (impl dbg t) 0 = Ret s.
Proof. rewrite lift_shift. destruct dbg; destruct Ht as [->|[->| ->]]; reflexivity. Qed.
Lemma lift_pos : 1 <= s.
Proof. rewrite lift_shift. destruct t; lia. Qed.
Lemma lift_facts : exists w, 8 <= w <= 32 /\ 0 < s < w /\ 100 <= radix t /\ 2 * radix t <= 2 ^ w
  /\ impl dbg t = dec_digit dbg w (radix t) false.
Proof.
  exists (bits t). rewrite lift_shift.
  destruct Ht as [->|[->| ->]]; (repeat split; try lia; try (vm_compute; congruence)).
Qed.
Lemma lift_shl_carry d c : 0 <= d < radix t -> 0 <= c < 2 ^ s ->
  total (d_shl_carry (impl dbg t) d s c) (fun '(r, c') =>
    0 <= r < radix t /\ 0 <= c' < 2 ^ s /\ r + radix t * c' = d * 2 ^ s + c).
Proof.
  destruct lift_facts as (w & Hw & Hsw & HR & HRw & ->). generalize dependent (radix t). intros R Hs' HR HRw Hd Hc.
  cbn [d_shl_carry dec_digit]. unfold dec_shl_carry.
  assert (WW : 2 ^ (2 * w) = 2 ^ w * 2 ^ w) by (rewrite <- Z.pow_add_r by lia; f_equal; lia).
  assert (H2 : 2 ^ s < 2 ^ w) by (apply Z.pow_lt_mono_r; lia).
  assert (B0 : 0 <= d * 2 ^ s + c < R * 2 ^ s) by nia.
  rewrite w_shl_ok by nia. cbn [bind]. rewrite w_add_ok by nia. cbn [bind].
  unfold dec_split_wide.
  pose proof (Z.mod_pos_bound (d * 2 ^ s + c) R ltac:(lia)) as B1.
  pose proof (Z.div_mod (d * 2 ^ s + c) R ltac:(lia)) as B2.
  assert (B3 : 0 <= (d * 2 ^ s + c) / R) by (apply Z.div_pos; lia).
  assert (B4 : (d * 2 ^ s + c) / R < 2 ^ s) by (apply Z.div_lt_upper_bound; lia).
  cbn [bind]. rewrite !wrap_id by lia. ret. lia.
Qed.
Lemma lift_shr_carry d c : 0 <= d < radix t -> 0 <= c < 2 ^ s ->
  total (d_shr_carry (impl dbg t) d s c) (fun '(r, c') =>
    0 <= r < radix t /\ 0 <= c' < 2 ^ s /\ r * 2 ^ s + c' = d + radix t * c).
Proof.
  destruct lift_facts as (w & Hw & Hsw & HR & HRw & ->). generalize dependent (radix t). intros R Hs' HR HRw Hd Hc.
  cbn [d_shr_carry dec_digit]. unfold dec_shr_carry.
  assert (WW : 2 ^ (2 * w) = 2 ^ w * 2 ^ w) by (rewrite <- Z.pow_add_r by lia; f_equal; lia).
  assert (H2 : 2 ^ s < 2 ^ w) by (apply Z.pow_lt_mono_r; lia).
  assert (Hp1 : 0 < 2 ^ (s - 1)) by (apply Z.pow_pos_nonneg; lia).
  assert (Hp2 : 2 ^ (s - 1) < 2 ^ (2 * w)) by (apply Z.pow_lt_mono_r; lia).
  rewrite (w_shl_ok dbg (2 * w) 1 (s - 1)) by lia. cbn [bind].
  rewrite w_sub_ok by lia. cbn [bind].
  rewrite w_mul_ok by nia. cbn [bind].
  rewrite w_add_ok by nia. cbn [bind].
  rewrite w_shr_ok by lia. cbn [bind].
  rewrite Z.mul_1_l, mask_ones, land_ones' by lia.
  assert (Hm := div_mod_eq (c * R + d) (2 ^ s) ltac:(lia)).
  assert (0 <= (c * R + d) / 2 ^ s) by (apply Z.div_pos; nia).
  assert ((c * R + d) / 2 ^ s < R) by (apply Z.div_lt_upper_bound; nia).
  rewrite !wrap_id by lia. ret. lia.
Qed.
Lemma lift_dec : is_binary t = false.
Proof using Ht. clear Hs. destruct Ht as [->|[->| ->]]; reflexivity. Qed.

Lemma lifted_claim x y : valid t x -> valid t y -> (2 <= length y < 19)%nat ->
  precedes (length x) (num t x) (S (length y)) (num t y) = false ->
  num t y * 2 ^ s < radix t ^ Z.of_nat (S (length y)) ->
  radix t <= 2 * (num t y * 2 ^ s / radix t ^ Z.of_nat (length y)) ->
  num t x * 2 ^ s / radix t ^ Z.of_nat (length x) < num t y * 2 ^ s / radix t ^ Z.of_nat (length y) ->
  divided dbg t x (y ++ [0]).
Proof.
  intros Vx Vy Ly Hp H1 H2 H3. pose proof (radix_gt t) as HB.
  assert (V0 : valid t (y ++ [0])) by (apply below_app; split; [exact Vy|]; apply below_cons; split; [lia|apply below_nil]).
  assert (Ln : length (y ++ [0]) = S (length y)) by (rewrite app_length; cbn; lia).
  assert (Nn : num t (y ++ [0]) = num t y) by (unfold num; rewrite push_val; lia).
  assert (Elt : num_lt x (y ++ [0]) = false).
  { rewrite <- (precedes_lt t) by assumption. rewrite Ln, Nn. exact Hp. }
  pose proof (num_lt_false_len _ _ Elt) as Hlen.
  pose proof (lift_div_big (radix t) (impl dbg t) (impl_ok dbg t) (dec_slack dbg t lift_dec) s lift_pos lift_zero
    lift_shl_carry lift_shr_carry x y Ly Vx Vy Elt H1 H2 H3) as HD.
  apply total_inv in HD. destruct HD as ([[num' quot'] r] & E & nq & nr & -> & D1 & D2 & Q1 & Q2 & Q3 & Q4).
  pose proof (new_ok (radix t) (firstn nr num') (below_firstn _ _ _ D1)) as HN.
  apply total_inv in HN. destruct HN as (r & E3 & R1 & R2 & R3).
  assert (Py : 0 < num t y).
  { destruct (Z.le_gt_cases (num t y) 0) as [K|K]; [exfalso|exact K].
    assert (0 <= num t y) by (apply value_nonneg; [lia|exact Vy]). replace (num t y) with 0 in H2 by lia.
    rewrite Z.mul_0_l, Z.div_0_l in H2 by (apply Z.pow_nonzero; lia). lia. }
  assert (E1 : div_assign_big (impl dbg t) x (y ++ [0]) = Ret (firstn nq quot', ROk r)).
  { unfold div_assign_big. destruct (Nat.ltb_spec (length x) (length (y ++ [0]))); [lia|]. rewrite E. cbn [bind].
    unfold truncate. rewrite E3. reflexivity. }
  assert (E2 : rem_assign_big (impl dbg t) x (y ++ [0]) = Ret (firstn nr num', ROk tt)).
  { unfold rem_assign_big. destruct (Nat.leb_spec (length (y ++ [0])) (length x)); [|lia]. rewrite E. reflexivity. }
  unfold num in *.
  eapply (divided_intro dbg t x (y ++ [0]) _ _ _ E1 E2); unfold num; rewrite ?Nn; auto.
  - split; [apply below_firstn; exact D2|exact Q2].
  - split; [exact R1|exact R2].
  - split; [apply below_firstn; exact D1|exact Q4].
  - rewrite R3. exact Q3.
Qed.
End Types.

Lemma lifted_debug_claim t s x y : small_decimal t -> radix t < 2 ^ s < 2 * radix t ->
  valid t x -> valid t y -> (2 <= length y)%nat ->
  precedes (length x) (num t x) (S (length y)) (num t y) = false ->
  2 * ((num t y * 2 ^ s / radix t ^ Z.of_nat (length y)) mod radix t) < radix t ->
  stops true t x (y ++ [0]) PDebug.
Proof.
  intros Ht Hs Vx Vy Ly Hp H2. pose proof (radix_gt t) as HB.
  assert (V0 : valid t (y ++ [0])) by (apply below_app; split; [exact Vy|]; apply below_cons; split; [lia|apply below_nil]).
  assert (Ln : length (y ++ [0]) = S (length y)) by (rewrite app_length; cbn; lia).
  assert (Nn : num t (y ++ [0]) = num t y) by (unfold num; rewrite push_val; lia).
  assert (Elt : num_lt x (y ++ [0]) = false).
  { rewrite <- (precedes_lt t) by assumption. rewrite Ln, Nn. exact Hp. }
  pose proof (num_lt_false_len _ _ Elt) as Hlen.
  assert (Hd := lift_dec t Ht).
  assert (HF : fails (debug_stop t) (div_big (impl true t) x (y ++ [0]) (zeros (length x - length (y ++ [0]) + 1)))).
  { apply (lift_div_debug (radix t) (impl true t) (impl_ok true t) s (lift_pos t Ht s Hs) (lift_zero true t Ht s Hs)
      (lift_shl_carry true t Ht s Hs)); auto.
    - unfold impl. rewrite Hd. reflexivity.
    - apply dec_debug. exact Hd. }
  unfold fails in HF. destruct (div_big (impl true t) x (y ++ [0]) _) as [a|w|] eqn:E; cbn in HF; try contradiction.
  destruct HF as [->|[-> _]]; [apply stops_intro; auto|]. destruct Ht as [K|[K|K]]; discriminate K.
Qed.
