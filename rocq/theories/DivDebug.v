(** * DivDebug: in debug builds a decimal divisor that does not scale is noticed.

    Dropping the carry leaves a divisor whose leading digit can still be doubled,
    and the debug assertions on the leading digit stop the program. *)
From Coq Require Import ZArith List Bool Lia.
From Verif Require Import Base Digit Slice Mul Div UBig Spec SpecDiv Hoare DigitOK ListLemmas Gives
  SliceProof MulProof KaratsubaProof UBigProof DivProof DivWide DivPairProof DivLongProof DivTopProof DivSize DivBzProof
  TypedProof Cases ClaimsBasic ClaimsDiv ClaimsDivBig DivTie DivScale DivBzTie DivBzOpen.
Import ListNotations.
Open Scope Z_scope.
Open Scope m_scope.

Section DivDebug.
Variables (B : Z) (D : digit).
Hypothesis OK : digit_ok B D.
Hypothesis Hdbg : d_dbg D = true.
(** the ways to stop *)
Variable W : panic -> Prop.
Definition fails {A} (e : M A) : Prop := spec W e (fun _ => False).
Hypothesis Hms : forall d, 0 <= d -> 2 * d < B ->
  fails (s <- d_max_shift D d ;; debug_assert true (s =? 0)).
Notation val := (value B).
Notation digs := (below B).
Notation p n := (pw B n).
Let HB : 1 < B := SliceProof.HB B D OK.

Lemma fails_bind {A C} (e : M A) (f : A -> M C) : fails e -> fails (bind e f).
Proof. intros H. eapply spec_bind; [exact H|]. intros a []. Qed.

(** room for the carry below half the base *)
Definition bounded (top : Z) : Prop := forall s, is_shift B top s -> 2 * ((top + 1) * 2 ^ s) <= 3 * B.

Lemma dropped den n s sden c : length den = n -> (1 <= n)%nat -> digs den -> 0 < nth (n - 1) den 0 ->
  is_shift B (nth (n - 1) den 0) s -> bounded (nth (n - 1) den 0) -> grows B (val den) (nth (n - 1) den 0) n ->
  length sden = n -> digs sden -> 0 <= c -> val sden + p n * c = val den * 2 ^ s ->
  s <> 0 /\ 0 <= nth (n - 1) sden 0 /\ 2 * nth (n - 1) sden 0 < B.
Proof.
  intros Ld Hn Dd Ht HS HM HG Ls Ds Hc E. set (top := nth (n - 1) den 0) in *.
  pose proof (top_bound B D OK den n Ld Hn Dd) as Hb. fold top in Hb.
  pose proof (value_bound B HB sden Ds) as Bs. rewrite Ls in Bs.
  destruct (carry_one B D OK (val den) top n s (val sden) c) as [-> Hne]; auto.
  split; [exact Hne|]. specialize (HM s HS). destruct HS as (Hs0 & Hs1 & Hs2).
  assert (Hnn : 0 <= nth (n - 1) sden 0 < B).
  { apply (below_nth B sden (n - 1)); [exact Ds|]. apply nth_error_nth'. lia. }
  split; [lia|].
  pose proof (pw_pos B (n - 1) HB) as Hp1.
  assert (Epn : p n = B * p (n - 1)) by (rewrite <- pw_S; f_equal; lia).
  assert (V1 : nth (n - 1) sden 0 * p (n - 1) <= val sden).
  { rewrite (split_last sden (n - 1)) at 2 by lia. rewrite value_app, firstn_length_le by lia. cbn [value].
    pose proof (value_nonneg B HB _ (below_firstn B (n - 1) sden Ds)). lia. }
  assert (H2s : 0 < 2 ^ s) by (apply Z.pow_pos_nonneg; lia).
  assert (V2 : val den * 2 ^ s < (top + 1) * p (n - 1) * 2 ^ s) by (apply Z.mul_lt_mono_pos_r; lia).
  set (d := nth (n - 1) sden 0) in *. set (T := (top + 1) * 2 ^ s) in *.
  assert (V3 : (d + B) * p (n - 1) < T * p (n - 1)).
  { replace (T * p (n - 1)) with ((top + 1) * p (n - 1) * 2 ^ s) by (unfold T; ring).
    rewrite Epn in E. lia. }
  apply Z.mul_lt_mono_pos_r in V3; [lia|exact Hp1].
Qed.

Lemma long_debug num den quot work : let n := length den in let top := nth (n - 1) den 0 in
  (3 <= n)%nat -> (n <= length num)%nat -> digs num -> digs den -> 0 < top ->
  (S n <= length work)%nat -> (length num - n + 1 <= length quot)%nat ->
  bounded top -> grows B (val den) top n -> fails (div_big_long D num den quot work).
Proof.
  intros n top Hn Hnum Dn Dd Htop Lw Hq HM HG.
  assert (Hmb : 0 <= top < B).
  { apply (below_nth B den (n - 1)); [exact Dd|]. apply nth_error_nth'. fold n. lia. }
  unfold fails, div_big_long. fold n.
  tstep total_debug_assert; [apply Nat.ltb_lt; lia|]. intros _ _.
  tstep total_debug_assert; [apply Nat.leb_le; lia|]. intros _ _.
  tstep total_debug_assert; [apply orb_true_intro; left; apply Nat.leb_le; lia|]. intros _ _.
  tstep total_debug_work; [apply Nat.leb_le; unfold calc_div_long_work_size; lia|]. intros _ _.
  rewrite get_ok by (fold n; lia). cbn [bind]. fold top.
  tstep (ok_max_shift _ _ OK); [lia|]. intros s Hs.
  assert (HS : is_shift B top s) by exact Hs.
  destruct (shift_bound B top s ltac:(lia) HS) as [Hs2 Hs3]. destruct Hs as [Hs0 Hs1].
  destruct (Z.eqb_spec s 0) as [E0|Hne].
  { exfalso. pose proof (HG s HS) as H. rewrite E0, Z.mul_1_r in H.
    pose proof (value_bound B HB den Dd) as H0. fold n in H0. lia. }
  tstep (shl_within_ok B D OK); [exact Dd|lia|lia|]. intros [sden c] (Ls & Ds & Hc & Vs). fold n in Ls, Vs.
  tstep (shl_within_ok B D OK); [exact Dn|lia|lia|]. intros [snum msd] (Lsn & Dsn & Hmsd & Vsn).
  rewrite prefix_ok by lia. cbn [bind].
  destruct (dropped den n s sden c) as (_ & T1 & T2); auto; try lia.
  apply fails_bind. unfold fails, div_big_long_scaled. rewrite Ls, Hdbg.
  rewrite get_ok by lia. cbn [bind].
  pose proof (fails_bind _ (fun _ => qden <- prefix (firstn (n + 1) work) (n + 1) ;;
    '(num, quot, qden, nquot) <- div_long_first D snum msd sden quot qden ;;
    '(num, quot, qden) <- div_long_loop D (length snum - n) num sden quot qden ;;
    nquot <- drop_leading_zeros quot nquot ;;
    nrem <- drop_leading_zeros num n ;;
    Ret (num, quot, qden ++ skipn (n + 1) (firstn (n + 1) work), (nquot, nrem))) (Hms _ T1 T2)) as HF.
  rewrite bind_assoc in HF. exact HF.
Qed.

Lemma bz_debug num den quot work : let nd := length den in let top := nth (nd - 1) den 0 in
  (20 <= nd)%nat -> digs num -> digs den -> normal den -> num_lt num den = false ->
  (length num - nd + 1 <= length quot)%nat -> (calc_div_bz_work_size nd <= length work)%nat ->
  bounded top -> grows B (val den) top nd -> fails (div_big_bz D num den quot work).
Proof.
  intros nd top Hnd Dn Dd Nd Hge Lq Lw HM HG.
  assert (Hlen : (nd <= length num)%nat) by (apply num_lt_false_len; exact Hge).
  unfold fails, div_big_bz. fold nd.
  tstep total_debug_assert; [apply Nat.ltb_lt; lia|]. intros _ _.
  tstep total_debug_assert; [rewrite Hge; reflexivity|]. intros _ _.
  tstep total_debug_assert; [apply Nat.leb_le; lia|]. intros _ _.
  tstep total_debug_work; [apply Nat.leb_le; lia|]. intros _ _.
  destruct (block_size_ok nd Hnd) as [Hh Hn].
  set (n := block_size nd) in *. set (off := (n - nd)%nat) in *.
  assert (Dz : forall m, digs (zeros m)) by (intros m; apply below_zeros; lia).
  assert (Hfz : forall a m, (a <= m)%nat -> firstn a (zeros m) = zeros a).
  { intros a m Ha. unfold zeros. replace m with (a + (m - a))%nat by lia.
    rewrite repeat_app. apply firstn_exact, repeat_length. }
  assert (Hsz : forall a m, (a <= m)%nat -> skipn a (zeros m) = zeros (m - a)).
  { intros a m Ha. unfold zeros. replace m with (a + (m - a))%nat at 1 by lia.
    rewrite repeat_app. apply skipn_exact, repeat_length. }
  rewrite copy_into_ok by (len; lia). cbn [bind].
  rewrite Hfz, Hsz by lia. rewrite Nat.sub_diag. change (zeros 0) with (@nil Z). rewrite app_nil_r.
  assert (Lz : length (zeros off ++ den) = n) by (len; fold nd; lia).
  rewrite get_ok by lia. cbn [bind].
  assert (Et : nth (n - 1) (zeros off ++ den) 0 = top).
  { unfold top. rewrite app_nth2 by (len; lia). f_equal. len. }
  rewrite Et.
  assert (Htop : 0 < top < B) by (apply top_pos; auto; fold nd; lia).
  tstep (ok_max_shift _ _ OK); [lia|]. intros s Hs.
  assert (HS : is_shift B top s) by exact Hs.
  destruct (shift_bound B top s ltac:(lia) HS) as [Hs2 Hs3]. destruct Hs as [Hs0 Hs1].
  pose proof (pw_pos B off HB) as Hpo.
  assert (Pn : p n = p off * p nd) by (rewrite <- pw_add; f_equal; lia).
  assert (Vz : val (zeros off ++ den) = p off * val den).
  { rewrite value_app, value_zeros. replace (length (zeros off)) with off by len. lia. }
  assert (Dzd : digs (zeros off ++ den)) by (apply below_app; split; [apply Dz|exact Dd]).
  tstep (shl_within_ok B D OK); [exact Dzd|lia|lia|].
  intros [sden c] (Lsd & Dsd & Hc & Vsd). rewrite Lz in Lsd, Vsd.
  destruct (dropped (zeros off ++ den) n s sden c) as (_ & T1 & T2); rewrite ?Et; auto; try lia.
  { intros s' HS'. rewrite Vz, Pn. pose proof (HG s' HS').
    rewrite <- Z.mul_assoc. apply Z.mul_le_mono_nonneg_l; lia. }
  set (nn := length num) in *. set (t1 := ((nn - nd) / n)%nat) in *.
  assert (Ht1 : (nn - nd < n * t1 + n)%nat).
  { pose proof (Nat.div_mod (nn - nd) n ltac:(lia)) as X. pose proof (Nat.mod_upper_bound (nn - nd) n ltac:(lia)).
    fold t1 in X. lia. }
  set (T := ((2 + t1) * n)%nat).
  assert (HT1 : (off + nn + 1 <= T)%nat) by (unfold T, off; nia).
  rewrite copy_into_ok by (try (len; lia); fold nn; lia). cbn [bind].
  rewrite Hfz, Hsz by lia.
  set (sn0 := zeros off ++ num ++ zeros (T - (off + nn))).
  assert (Lsn0 : length sn0 = T) by (unfold sn0; len; fold nn; lia).
  assert (Dsn0 : digs sn0) by (unfold sn0; apply below_app; split; [apply Dz|]; apply below_app; split; [exact Dn|apply Dz]).
  eapply step_slice; [lia|lia| |].
  { apply total_spec. apply (shl_within_ok B D OK); [apply below_firstn, below_skipn; exact Dsn0|lia|lia]. }
  cbv beta. intros sl0 c2. 
  assert (Lsl0 : length (firstn (off + nn + 1 - off) (skipn off sn0)) = (nn + 1)%nat) by len.
  rewrite Lsl0. intros (Lsl & _).
  set (snum := firstn off sn0 ++ sl0 ++ skipn (off + nn + 1) sn0).
  assert (Lsn : length snum = T) by (unfold snum; len).
  replace (2 + t1 - 1)%nat with (S t1) by lia.
  apply fails_bind. cbn [bz_blocks].
  assert (E2 : ((t1 + 2) * n = T)%nat) by (unfold T; lia).
  rewrite sub_slice_ok by (rewrite ?Lsn; unfold T; nia). cbn [bind].
  rewrite sub_slice_ok by (len; nia). cbn [bind].
  apply fails_bind. unfold div_big_bz_2n_n. cbn [bz_fuel].
  unfold fails, div_big_bz_2n_n_step. rewrite Lsd.
  tstep total_debug_assert.
  { unfold BZ_CUTOFF. clear - Hh. destruct Hh as [n Hn|n Hh Hn].
    - destruct (Nat.ltb_spec n 20); [reflexivity|lia].
    - rewrite Nat.even_mul. apply orb_true_r. }
  intros _ _.
  tstep total_debug_assert.
  { apply Nat.eqb_eq. rewrite firstn_length, skipn_length, Lsn. unfold T. nia. }
  intros _ _.
  tstep total_debug_assert.
  { apply Nat.eqb_eq. rewrite firstn_length, skipn_length. unfold zeros. rewrite repeat_length. nia. }
  intros _ _. rewrite Hdbg. rewrite get_ok by lia. cbn [bind].
  apply fails_bind. unfold debug_max_shift_zero. rewrite Hdbg. apply Hms; assumption.
Qed.

Lemma div_big_debug x y : digs x -> digs y -> normal y -> (3 <= length y)%nat -> num_lt x y = false ->
  bounded (nth (length y - 1) y 0) -> grows B (val y) (nth (length y - 1) y 0) (length y) ->
  fails (div_big D x y (zeros (length x - length y + 1))).
Proof.
  intros Dx Dy Ny Hl Elt HM HG.
  pose proof (num_lt_false_len _ _ Elt) as Hlen.
  assert (Htop : 0 < nth (length y - 1) y 0 < B) by (apply top_pos; auto; lia).
  unfold div_big, div_big_with_work. rewrite Elt.
  destruct (Nat.leb_spec (length y) 2); [lia|]. cbn [orb].
  apply fails_bind. unfold div_big_with_work_gen.
  destruct (Nat.eqb_spec (length y) 0) as [|_]; [lia|]. rewrite Elt.
  assert (Lq : length (zeros (length x - length y + 1)) = (length x - length y + 1)%nat) by len.
  destruct (Nat.ltb_spec (length (zeros (length x - length y + 1))) (length x - length y + 1)) as [|_]; [lia|].
  cbn [andb].
  destruct (Nat.eqb_spec (length y) 1) as [|_]; [lia|]. destruct (Nat.eqb_spec (length y) 2) as [|_]; [lia|].
  destruct (Nat.ltb_spec (length y) BZ_CUTOFF) as [H20|H20].
  - unfold fails. tstep total_debug_work.
    { apply Nat.leb_le. unfold calc_div_long_work_size. len. }
    intros _ _. apply fails_bind. apply long_debug; auto; try lia.
  - unfold BZ_CUTOFF in H20. apply fails_bind.
    unfold fails. tstep total_debug_work; [apply Nat.leb_le; len|]. intros _ _.
    apply bz_debug; auto; try lia; len.
Qed.
End DivDebug.

(** ** Decimal types *)
Section Decimal.
Variable t : dty.
Hypothesis Hd : is_binary t = false.
Notation B := (radix t).
Notation D := (impl true t).

Definition debug_stop (w : panic) : Prop := w = PDebug \/ t = D64 /\ w = POverflow.

Lemma dec_debug d : 0 <= d -> 2 * d < B ->
  fails debug_stop (s <- d_max_shift D d ;; debug_assert true (s =? 0)).
Proof.
  intros H0 H1. unfold fails, debug_stop. assert (HB : 1 < B) by (exact (SliceProof.HB _ _ (impl_ok true t))).
  destruct (Z.eq_dec d 0) as [->|Hne].
  - destruct t; try discriminate Hd; vm_compute; first [left; reflexivity|right; split; reflexivity].
  - eapply spec_bind; [apply total_spec, (ok_max_shift _ _ (impl_ok true t)); lia|].
    intros s (Hs0 & Hs1 & Hs2). destruct (Z.eqb_spec s 0) as [->|_].
    + exfalso. change (2 ^ (0 + 1)) with 2 in Hs2. lia.
    + left. reflexivity.
Qed.

(** leading digits for which the assertions notice it *)
Definition noticed (top : Z) : Prop := t = D8 \/ t = D32 \/ 2 <= top.

Lemma noticed_bounded top : 0 < top -> noticed top -> bounded B top.
Proof.
  intros H0 HN s (Hs0 & Hs1 & Hs2).
  assert (Hp : 0 < 2 ^ s) by (apply Z.pow_pos_nonneg; lia).
  destruct (Z.le_gt_cases 2 top) as [H2|H2].
  { assert (2 * 2 ^ s <= top * 2 ^ s) by (apply Z.mul_le_mono_nonneg_r; lia). lia. }
  assert (E : top = 1) by lia. subst top. rewrite Z.mul_1_l in Hs1.
  assert (H3 : 4 * 2 ^ s <= 3 * B).
  { destruct HN as [->|[->|HN]]; [| |lia].
    - change (radix D8) with 100 in *. assert (s <= 6) by (destruct (Z.le_gt_cases s 6); [assumption|];
        assert (2 ^ 7 <= 2 ^ s) by (apply Z.pow_le_mono_r; lia); lia).
      assert (2 ^ s <= 2 ^ 6) by (apply Z.pow_le_mono_r; lia). lia.
    - change (radix D32) with (10 ^ 9) in *. assert (s <= 29) by (destruct (Z.le_gt_cases s 29); [assumption|];
        assert (2 ^ 30 <= 2 ^ s) by (apply Z.pow_le_mono_r; lia); lia).
      assert (2 ^ s <= 2 ^ 29) by (apply Z.pow_le_mono_r; lia). lia. }
  lia.
Qed.

Lemma debug_claim x y : well_formed t x -> well_formed t y -> (3 <= length y)%nat ->
  noticed (leading t (length y) (num t y)) -> ~ scales t (length y) (num t y) -> num t y <= num t x ->
  stops true t x y PDebug \/ t = D64 /\ stops true t x y POverflow.
Proof.
  intros [Vx Nx] [Vy Ny] Hl HN HS Hle. pose proof (SliceProof.HB _ _ (impl_ok true t)) as HB.
  pose proof (leading_top t y Vy ltac:(lia)) as EL.
  pose proof (top_pos B y Vy Ny ltac:(lia)) as Ht.
  assert (HG : grows B (value B y) (nth (length y - 1) y 0) (length y)).
  { rewrite <- EL. apply grows_intro; [lia|apply value_nonneg; auto|rewrite EL; lia|exact HS]. }
  assert (Elt : num_lt x y = false) by (rewrite (num_lt_value B HB) by auto; apply Z.ltb_ge; exact Hle).
  assert (HF : fails debug_stop (div_big D x y (zeros (length x - length y + 1)))).
  { apply (div_big_debug B D (impl_ok true t)); auto.
    - unfold impl. rewrite Hd. reflexivity.
    - apply dec_debug.
    - apply noticed_bounded; [lia|]. rewrite <- EL. exact HN. }
  pose proof (num_lt_false_len _ _ Elt) as Hlen.
  unfold fails in HF. destruct (div_big D x y _) as [a|w|] eqn:E; cbn in HF; try contradiction.
  destruct HF as [->|[H ->]]; [left|right; split; [exact H|]]; apply stops_intro; auto.
Qed.

Lemma stops_not_divided dbg x y w : stops dbg t x y w -> ~ divided dbg t x y.
Proof. intros (E & _) (q & r & E' & _). rewrite E in E'. discriminate E'. Qed.

Lemma scales_dec y : well_formed t y -> (1 <= length y)%nat ->
  scales t (length y) (num t y) \/ ~ scales t (length y) (num t y).
Proof.
  intros [Vy Ny] Hl. pose proof (SliceProof.HB _ _ (impl_ok true t)) as HB.
  pose proof (leading_top t y Vy ltac:(lia)) as EL.
  pose proof (top_pos B y Vy Ny ltac:(lia)) as Ht.
  pose proof (ok_max_shift _ _ (impl_ok true t) (leading t (length y) (num t y)) ltac:(rewrite EL; lia)) as Hm.
  apply total_inv in Hm. destruct Hm as (s & _ & Hs).
  destruct (Z.le_gt_cases (pw B (length y)) (num t y * 2 ^ s)) as [Hge|Hlt].
  - right. intros HN. apply (Z.lt_irrefl (pw B (length y))).
    apply Z.le_lt_trans with (num t y * 2 ^ s); [exact Hge|].
    apply HN; [exact (proj1 Hs)|exact (proj1 (proj2 Hs))].
  - left. apply (scales_check t _ _ s); [rewrite EL; lia|exact Hs|apply value_nonneg; auto|exact Hlt].
Qed.

(** the exact condition, in debug builds *)
Lemma debug_exact_claim x y : well_formed t x -> well_formed t y -> (3 <= length y <= 80)%nat ->
  noticed (leading t (length y) (num t y)) ->
  ((num t x < num t y \/ scales t (length y) (num t y) /\ ((length y < 20)%nat \/ ~ recursive_open t x y))
   -> divided true t x y)
  /\ (~ (num t x < num t y \/ scales t (length y) (num t y) /\ ((length y < 20)%nat \/ ~ recursive_open t x y))
   -> stops true t x y PDebug \/ stops true t x y PIndex \/ t = D64 /\ stops true t x y POverflow).
Proof.
  intros Wx Wy Hl HN. split.
  - intros [H|[HS H]]; [apply div_smaller_claim; auto|].
    destruct (Nat.lt_ge_cases (length y) 20) as [H20|H20].
    + apply div_decimal_claim; auto. intros ->. cbn in Hl. lia.
    + destruct H as [H|H]; [lia|]. apply (bz_decimal_claim true t Hd x y); auto. lia.
  - intros H. assert (Hle : num t y <= num t x).
    { destruct (Z.le_gt_cases (num t y) (num t x)); [assumption|exfalso; apply H; left; lia]. }
    destruct (scales_dec y Wy ltac:(lia)) as [HS|HS].
    + right. left. destruct (Nat.lt_ge_cases (length y) 20) as [H20|H20]; [exfalso; apply H; auto|].
      apply (bz_decimal_claim true t Hd x y); auto; [lia|].
      destruct (recursive_open_dec true t x y Wy H20) as [HO|HO]; [exact HO|exfalso; apply H; auto].
    + destruct (debug_claim x y Wx Wy ltac:(lia) HN HS Hle) as [H1|H1]; auto.
Qed.
End Decimal.
