(** * DivPairProof: division by a two-digit number. *)
From Coq Require Import ZArith List Bool Lia.
From Verif Require Import Base Digit Slice Mul Div UBig Spec Hoare DigitOK ListLemmas SliceProof
  MulProof UBigProof DivProof DivWide.
Import ListNotations.
Open Scope Z_scope.
Open Scope m_scope.

Section DivPairProof.
Variables (B : Z) (D : digit) (sl : Z).
Hypothesis OK : digit_ok B D.
Hypothesis DV : digit_div B D sl.
Notation val := (value B).
Notation digs := (below B).
Notation p n := (pw B n).
Let HB : 1 < B := SliceProof.HB B D OK.

Lemma top_nonneg e1 e2 x : 0 <= e1 < B -> 0 <= e2 < B -> 0 <= e1 + B * (e2 + B * x) -> 0 <= x.
Proof.
  intros H1 H2 H. destruct (Z.le_gt_cases 0 x); [assumption|].
  assert (B * (x + 1) <= 0) by (apply Z.mul_nonneg_nonpos; lia).
  assert (B * (e2 + B * x + 1) <= 0) by (apply Z.mul_nonneg_nonpos; lia). lia.
Qed.

Lemma pos_factor q E W : 0 < E -> 0 <= W -> W < q * E -> 1 <= q.
Proof.
  intros. destruct (Z.le_gt_cases q 0); [|lia].
  assert (q * E <= 0) by (apply Z.mul_nonpos_nonneg; lia). lia.
Qed.

Lemma two_digits a b : 0 <= a < B -> 0 <= b < B -> 0 <= a + B * b < B * B.
Proof.
  intros. assert (0 <= B * b) by (apply Z.mul_nonneg_nonneg; lia).
  assert (B * (b + 1) <= B * B) by (apply Z.mul_le_mono_nonneg_l; lia). lia.
Qed.

Lemma same_class a b j N : 0 <= a < N -> 0 <= b < N -> a = b + j * N -> a = b.
Proof.
  intros Ha Hb E.
  assert (a mod N = b mod N) by (rewrite E, Z_mod_plus_full; reflexivity).
  rewrite !Z.mod_small in H by assumption. exact H.
Qed.

(** one quotient digit *)
Lemma div_pair_step_ok dl dh d rh rl :
  0 <= dl < B -> 0 < dh < B -> B <= 2 * dh -> 0 <= d < B -> 0 <= rl < B ->
  0 <= rh < dh + sl -> rl + B * rh < dl + B * dh ->
  total (div_pair_step D dl dh d rh rl) (fun '(q, (rh', rl')) =>
    let W := d + B * (rl + B * rh) in let E := dl + B * dh in
    0 <= q < B /\ 0 <= rh' < B /\ 0 <= rl' < B
    /\ q = W / E /\ rl' + B * rh' = W mod E).
Proof.
  intros Hdl Hdh H2 Hd Hrl Hrh HR. cbv zeta.
  remember (d + B * (rl + B * rh)) as W eqn:EW. remember (dl + B * dh) as E eqn:EE.
  assert (Hsl : 0 <= sl <= 1) by (destruct (dv_slack _ _ _ DV); lia).
  assert (HE : 0 < E) by (subst E; nia).
  assert (HW : 0 <= W) by (subst W; nia).
  assert (HQ : 0 <= W / E < B).
  { split; [apply Z.div_pos; lia|]. apply Z.div_lt_upper_bound; [lia|]. assert (B * (rl + B * rh + 1) <= B * E) by (apply Z.mul_le_mono_nonneg_l; lia). lia. }
  assert (Hdm := div_mod_eq W E HE).
  unfold div_pair_step.
  tstep (dv_div _ _ _ DV); [exact Hrl|exact Hdh|exact H2|exact Hrh|].
  intros [q r] (Hq & Hr & Hqr).
  destruct (estimate B B dh dl (rl + B * rh) d q r W E) as [U L]; auto; try lia.
  pose proof (corrected q W E HE HW U L) as HC.
  tstep (dv_mul _ _ _ DV); [exact Hdl|exact Hq|lia|]. intros [d1 c1] (Hd1 & Hc1 & E1).
  tstep (dv_mul _ _ _ DV); [split; [lia|apply Hdh]|exact Hq|exact Hc1|].
  intros [d2 d3] (Hd2 & Hd3 & E2).
  assert (EP : d1 + B * (d2 + B * d3) = q * E).
  { rewrite EE. replace (d2 + B * d3) with (dh * q + c1) by lia. lia. }
  (* the state after the corrections *)
  assert (Hcor : total
    (if array_gt [d3; d2; d1] [rh; rl; d] then
       '(quot, _) <- d_dec D q ;;
       '(d1, carry) <- d_sub_carry D d1 dl false ;;
       '(d2, u) <- d_sub_carry D d2 dh carry ;;
       d3 <- (if u then '(x, _) <- d_dec D d3 ;; Ret x else Ret d3) ;;
       if array_gt [d3; d2; d1] [rh; rl; d] then
         '(quot, _) <- d_dec D quot ;;
         '(d1, carry) <- d_sub_carry D d1 dl false ;;
         '(d2, _) <- d_sub_carry D d2 dh carry ;;
         Ret (quot, d1, d2)
       else Ret (quot, d1, d2)
     else Ret (q, d1, d2))
    (fun '(q', d1, d2) => q' = W / E /\ 0 <= d1 < B /\ 0 <= d2 < B
       /\ exists k, d1 + B * d2 = q' * E + k * (B * B))).
  { rewrite (array_gt_value B HB) by lia. rewrite <- EW, EP.
    destruct (Z.leb_spec (q * E) W) as [Hle|Hgt].
    - destruct (Z.ltb_spec W (q * E)); [lia|]. ret. conj; try lia. exists (- d3). lia.
    - destruct (Z.ltb_spec W (q * E)); [|lia].
      assert (Hq1 : 1 <= q) by (apply pos_factor with E W; assumption).
      tstep (dv_dec _ _ _ DV); [lia|]. intros [q1 u0] (-> & _). clear u0.
      tstep (ok_sub _ _ OK); [exact Hd1|exact Hdl|]. intros [e1 u1] (He1 & Eu1).
      change (of_bool false) with 0 in Eu1.
      tstep (ok_sub _ _ OK); [exact Hd2|lia|]. intros [e2 u2] (He2 & Eu2).
      assert (Hpos : 0 <= (q - 1) * E) by (apply Z.mul_nonneg_nonneg; lia).
      assert (HV : e1 + B * (e2 + B * (d3 - of_bool u2)) = (q - 1) * E).
      { replace e1 with (d1 - dl + B * of_bool u1) by lia.
        replace e2 with (d2 - dh - of_bool u1 + B * of_bool u2) by lia. rewrite EE in *. lia. }
      assert (Hd3' : 0 <= d3 - of_bool u2) by (apply (top_nonneg e1 e2); lia).
      assert (Hdd : total (if u2 then '(x, _) <- d_dec D d3 ;; Ret x else Ret d3)
                      (fun x => x = d3 - of_bool u2)).
      { destruct u2; cbn [of_bool] in *; [|ret; lia].
        tstep (dv_dec _ _ _ DV); [lia|]. intros [x u] (-> & _). ret. reflexivity. }
      tstep Hdd. intros x ->. clear Hdd.
      rewrite (array_gt_value B HB) by lia. rewrite <- EW, HV.
      destruct (Z.leb_spec ((q - 1) * E) W) as [Hle1|Hgt1].
      + destruct (Z.ltb_spec W ((q - 1) * E)); [lia|]. ret. conj; try lia.
        exists (- (d3 - of_bool u2)). lia.
      + destruct (Z.ltb_spec W ((q - 1) * E)); [|lia].
        assert (1 <= q - 1) by (apply pos_factor with E W; assumption).
        tstep (dv_dec _ _ _ DV); [lia|]. intros [q2 u0] (-> & _). clear u0.
        tstep (ok_sub _ _ OK); [exact He1|exact Hdl|]. intros [g1 v1] (Hg1 & Ev1).
        change (of_bool false) with 0 in Ev1.
        tstep (ok_sub _ _ OK); [exact He2|lia|]. intros [g2 v2] (Hg2 & Ev2).
        ret. conj; try lia.
        exists (- (d3 - of_bool u2 - of_bool v2)). 
        replace g1 with (e1 - dl + B * of_bool v1) by lia.
        replace g2 with (e2 - dh - of_bool v1 + B * of_bool v2) by lia. rewrite EE in *. lia. }
  tstep Hcor. clear Hcor. intros [[q' e1] e2] (-> & He1 & He2 & k & Ek).
  tstep (ok_sub _ _ OK); [exact Hd|exact He1|]. intros [d' u] (Hd' & Eu).
  change (of_bool false) with 0 in Eu.
  tstep (ok_sub _ _ OK); [exact Hrl|exact He2|]. intros [rl' v] (Hrl' & Ev).
  ret. conj; try lia.
  (* equal modulo B*B and both below B*B *)
  assert (HEB : 0 <= E < B * B) by (subst E; apply two_digits; lia).
  apply same_class with (- rh + of_bool v - k) (B * B); [apply two_digits; assumption|lia|].
  replace d' with (d - e1 + B * of_bool u) by lia.
  replace rl' with (rl - e2 - of_bool u + B * of_bool v) by lia. lia.
Qed.

Lemma div_pair_loop_ok nr dl dh rh rl :
  digs nr -> 0 <= dl < B -> 0 < dh < B -> B <= 2 * dh -> 0 <= rl < B -> 0 <= rh ->
  rl + B * rh < dl + B * dh ->
  let V := val nr + p (length nr) * (rl + B * rh) in let E := dl + B * dh in
  (forall i, (1 <= i <= length nr)%nat -> ((V / p i) mod E) / B < dh + sl) ->
  total (div_pair_loop D nr dl dh rh rl) (fun '(q, (rh', rl')) =>
    length q = length nr /\ digs q /\ 0 <= rh' < B /\ 0 <= rl' < B
    /\ val q = V / E /\ rl' + B * rh' = V mod E).
Proof.
  intros Hn Hdl Hdh H2 Hrl Hrh HR. cbv zeta.
  remember (dl + B * dh) as E eqn:EE.
  assert (HE : 0 < E) by (subst E; nia).
  assert (Hrh' : rh < B) by (subst E; nia).
  induction nr as [|d t IH]; intros G; cbn [div_pair_loop].
  - ret. cbn [length value]. rewrite pw_0. rewrite Z.add_0_l, Z.mul_1_l.
    assert (0 <= B * rh) by (apply Z.mul_nonneg_nonneg; lia).
    rewrite Z.div_small, Z.mod_small by lia. conj; auto; lia.
  - apply below_cons in Hn. destruct Hn as [Hd Ht]. cbn [length value] in *.
    remember (val t + p (length t) * (rl + B * rh)) as V eqn:EV.
    assert (HV : d + B * val t + p (S (length t)) * (rl + B * rh) = d + B * V)
      by (rewrite pw_S; lia).
    rewrite HV in G |- *.
    assert (GV : forall i, (d + B * V) / p (S i) = V / p i).
    { intros i. rewrite pw_S, <- Z.div_div by (try apply (pw_pos B i HB); lia). f_equal.
      symmetry. apply Z.div_unique with d; [left|]; lia. }
    tstep IH; [exact Ht| |].
    { intros i Hi. rewrite <- (GV i). apply G. lia. }
    intros [q [rh1 rl1]] (L & Dq & Hrh1 & Hrl1 & Vq & R1).
    assert (Hm := div_mod_eq V E HE).
    assert (Hrhd : rh1 < dh + sl).
    { specialize (G 1%nat ltac:(lia)). rewrite (GV 0%nat), pw_0, Z.div_1_r, <- R1 in G.
      replace ((rl1 + B * rh1) / B) with rh1 in G; [exact G|].
      apply Z.div_unique with rl1; lia. }
    tstep div_pair_step_ok; [exact Hdl|exact Hdh|exact H2|exact Hd|exact Hrl1|lia|lia|].
    cbv zeta. rewrite <- EE.
    intros [q0 [rh2 rl2]] (Hq0 & Hrh2 & Hrl2 & Eq0 & Er). ret.
    cbn [length value]. rewrite R1 in *.
    assert (Hm2 := div_mod_eq (d + B * (V mod E)) E HE).
    conj; [lia|apply below_cons; auto|lia|lia|lia|lia| |].
    + rewrite Eq0, Vq. apply Z.div_unique with ((d + B * (V mod E)) mod E); [left|]; lia.
    + rewrite Er. apply Z.mod_unique with (val q0 + 0) || idtac.
      rewrite <- (Z_mod_plus_full (d + B * (V mod E)) (B * (V / E)) E). f_equal. lia.
Qed.

(** the whole function *)
Lemma div_assign_digit_pair_ok nr fl fh : digs nr -> 0 <= fl < B -> 0 < fh < B ->
  let F := fl + B * fh in
  divides_well B sl (val nr) F fh 2 (length nr - 2) ->
  total (div_assign_digit_pair D nr fl fh) (fun '(q, res) =>
    length q = length nr /\ digs q /\ val q = val nr / F
    /\ exists n rl rh, res = ROk (n, rl, rh) /\ 0 <= rl < B /\ 0 <= rh < B
       /\ rl + B * rh = val nr mod F /\ (n <= length nr)%nat /\ val (firstn n q) = val q
       /\ normal (firstn n q)).
Proof.
  intros Hn Hfl Hfh. cbv zeta. remember (fl + B * fh) as F eqn:EF. intros HG.
  assert (HF : B <= F) by nia.
  unfold div_assign_digit_pair. destruct (Z.eqb_spec fh 0) as [|_]; [lia|].
  destruct nr as [|d [|d' t]].
  - ret. cbn [value]. rewrite Z.div_small, Z.mod_small by lia. conj; auto.
    exists 0%nat, 0, 0. conj; auto; try lia. apply normal_nil.
  - apply below_cons in Hn. destruct Hn as [Hd _]. ret. cbn [value length].
    rewrite Z.mul_0_r, Z.add_0_r. rewrite Z.div_small, Z.mod_small by lia.
    conj; [reflexivity|apply below_cons; split; [lia|apply below_nil]|lia|].
    exists 0%nat, d, 0. conj; auto; try lia. apply normal_nil.
  - set (nr := d :: d' :: t) in *. assert (Ln : (2 <= length nr)%nat) by (cbn; lia).
    set (n := length nr) in *. clearbody nr. clear d d' t.
    tstep (ok_max_shift _ _ OK); [exact Hfh|]. intros s Hs.
    assert (HS : is_shift B fh s) by exact Hs.
    destruct (HG s HS) as [HF2 HT]. clear HG.
    destruct (shift_bound B fh s ltac:(lia) HS) as [Hs2 Hs3]. destruct Hs as [Hs0 Hs1].
    set (N := val nr * 2 ^ s). set (E := F * 2 ^ s).
    assert (Hsc : total
      (if 0 <? s then
         '(den_low, carry) <- d_shl_carry D fl s 0 ;;
         '(den_high, _) <- d_shl_carry D fh s carry ;;
         '(nr, rem_high) <- shl_carry_assign_within_digit D nr s 0 ;;
         Ret (nr, den_low, den_high, rem_high)
       else Ret (nr, fl, fh, 0))
      (fun '(nr', dl, dh, rh) => length nr' = n /\ digs nr' /\ 0 <= dl < B /\ 0 < dh < B
         /\ B <= 2 * dh /\ 0 <= rh < dh /\ dl + B * dh = E /\ val nr' + p n * rh = N)).
    { destruct (Z.ltb_spec 0 s) as [Hpos|Hz].
      - tstep (ok_shl _ _ OK); [exact Hfl|lia|lia|lia|]. intros [dl c] (Hdl & Hc & Edl).
        tstep (ok_shl _ _ OK); [split; [lia|apply Hfh]|lia|lia|exact Hc|].
        intros [dh c2] (Hdh & Hc2 & Edh).
        tstep (shl_within_ok B D OK); [exact Hn|lia|lia|]. intros [nr' rh] (L & Dn & Hrh & Vn).
        ret.
        assert (EE : dl + B * dh + B * B * c2 = E).
        { unfold E. rewrite EF. replace dl with (fl * 2 ^ s - B * c) by lia.
          replace dh with (fh * 2 ^ s + c - B * c2) by lia. ring. }
        assert (Hc20 : c2 = 0).
        { assert (p 2 = B * B) as Ep by (rewrite pw_S, pw_1; reflexivity). rewrite Ep in HF2.
          fold E in HF2. pose proof (two_digits dl dh Hdl Hdh) as Hdd.
          assert (0 < B * B) by lia.
          destruct (Z.le_gt_cases 1 c2); [|lia].
          assert (B * B * 1 <= B * B * c2) by (apply Z.mul_le_mono_nonneg_l; lia). lia. }
        rewrite Hc20 in *. rewrite Z.mul_0_r, Z.add_0_r in *.
        assert (2 ^ (s + 1) = 2 * 2 ^ s) as E2 by (rewrite Z.pow_add_r by lia; lia).
        rewrite E2 in Hs1. conj; auto; try lia.
      - assert (s = 0) as E0 by lia. ret. unfold N, E. rewrite E0 in *. change (2 ^ 0) with 1 in *.
        change (2 ^ (0 + 1)) with 2 in *. conj; auto; lia. }
    tstep Hsc. clear Hsc.
    intros [[[nr' dl] dh] rh] (Ln' & Dn' & Hdl & Hdh & H2 & Hrh & EE & VN).
    rewrite get_ok by lia. cbn [bind]. rewrite set_ok by lia. cbn [bind].
    set (rl := nth (n - 1) nr' 0).
    assert (Enr : nr' = firstn (n - 1) nr' ++ [rl]) by (apply split_last; lia).
    assert (Hrl : 0 <= rl < B).
    { rewrite Enr in Dn'. apply below_app in Dn'. destruct Dn' as [_ H].
      apply below_cons in H. apply H. }
    assert (Lf : length (firstn (n - 1) nr') = (n - 1)%nat) by len.
    assert (EN : val (firstn (n - 1) nr') + p (n - 1) * (rl + B * rh) = N).
    { rewrite <- VN. rewrite Enr at 2. rewrite value_app, Lf. cbn [value].
      rewrite (pw_sub B n (n - 1) HB) by lia. replace (n - (n - 1))%nat with 1%nat by lia.
      rewrite pw_1. ring. }
    assert (HE : 0 < E) by (unfold E; apply Z.mul_pos_pos; lia).
    assert (HRE : rl + B * rh < E).
    { rewrite <- EE. assert (B * (rh + 1) <= B * dh) by (apply Z.mul_le_mono_nonneg_l; lia). lia. }
    eapply step_prefix; [len| |].
    { rewrite firstn_exact by len.
      apply div_pair_loop_ok; [apply below_firstn; exact Dn'|exact Hdl|exact Hdh|exact H2|exact Hrl
        |lia|lia|].
      rewrite Lf, EN, EE. intros i Hi.
      destruct (Nat.eq_dec i (n - 1)) as [->|Hne].
      - assert (N / p (n - 1) = rl + B * rh) as ->.
        { symmetry. pose proof (value_bound B HB _ (below_firstn B (n - 1) nr' Dn')) as Hb.
          rewrite Lf in Hb. apply Z.div_unique with (val (firstn (n - 1) nr')); [left|]; lia. }
        rewrite Z.mod_small by (assert (0 <= B * rh) by (apply Z.mul_nonneg_nonneg; lia); lia).
        replace ((rl + B * rh) / B) with rh by (apply Z.div_unique with rl; lia).
        destruct (dv_slack _ _ _ DV); lia.
      - assert (Hg := guard_slack B HB sl N E 2 (n - 2) i (dv_slack _ _ _ DV) HT HE ltac:(lia)).
        replace (2 - 1)%nat with 1%nat in Hg by lia. rewrite pw_1 in Hg.
        replace (E / B) with dh in Hg; [exact Hg|].
        apply Z.div_unique with dl; lia. }
    rewrite Lf, EN, EE. intros q [rh1 rl1] (Lq & Dq & Hrh1 & Hrl1 & Vq & Er).
    destruct (unshift (val nr) F s Hs0 ltac:(lia)) as [U1 U2]. fold N E in U1, U2.
    rewrite U1 in Vq. rewrite U2 in Er.
    assert (Hshr : total
      (if 0 <? s then
         '(rem_high, carry) <- d_shr_carry D rh1 s 0 ;;
         '(rem_low, _) <- d_shr_carry D rl1 s carry ;;
         Ret (rem_high, rem_low)
       else Ret (rh1, rl1))
      (fun '(rh2, rl2) => 0 <= rh2 < B /\ 0 <= rl2 < B /\ rl2 + B * rh2 = val nr mod F)).
    { destruct (Z.ltb_spec 0 s) as [Hpos|Hz].
      - tstep (ok_shr _ _ OK); [exact Hrh1|lia|lia|lia|]. intros [rh2 c] (Hrh2 & Hc & E1).
        tstep (ok_shr _ _ OK); [exact Hrl1|lia|lia|exact Hc|]. intros [rl2 c2] (Hrl2 & Hc2 & E2).
        ret. conj; try lia.
        apply exact_shift with (2 ^ s) c2; lia.
      - replace s with 0 in Er by lia. rewrite Z.mul_1_r in Er. ret. conj; auto; lia. }
    tstep Hshr. clear Hshr. intros [rh2 rl2] (Hrh2 & Hrl2 & Er2).
    set (q' := q ++ skipn (n - 1) (firstn (n - 1) nr' ++ 0 :: skipn (S (n - 1)) nr')).
    assert (Eq' : q' = q ++ [0]).
    { unfold q'. f_equal. rewrite skipn_exact by len. f_equal. apply skipn_all2. lia. }
    clearbody q'. subst q'.
    assert (Lq' : length (q ++ [0]) = n) by len.
    tstep (drop_val B); [lia|]. intros k (K1 & K2 & K3). ret.
    rewrite (firstn_all2 (n := n)) in K2 by lia.
    conj; [exact Lq'|apply below_app; split; [exact Dq|apply below_cons; split; [lia|apply below_nil]]| |].
    + rewrite value_app. cbn [value]. rewrite Vq. lia.
    + exists k, rl2, rh2. conj; auto; lia.
Qed.
End DivPairProof.
