(** * DivScale: a decimal divisor that does not scale is not even divided
    correctly by itself.

    Scaling such a divisor drops a carry, so the divisor the code works with is
    less than half the real one.  The scaled dividend keeps the carry. *)
From Coq Require Import ZArith List Bool Lia.
From Verif Require Import Base Digit Slice Mul Div UBig Spec Hoare DigitOK ListLemmas Gives
  SliceProof MulProof UBigProof DivProof DivWide DivPairProof DivLongProof DivTopProof TypedProof Cases SpecDiv ClaimsDiv DivTie.
Import ListNotations.
Open Scope Z_scope.
Open Scope m_scope.

Section DivScale.
Variables (B : Z) (D : digit).
Hypothesis OK : digit_ok B D.
Hypothesis DV : digit_div B D 1.
(** the first estimate *)
Hypothesis Hone : forall f, 0 <= f < B ->
  gives (d_div_carry D f f 1) (fun '(q, _) => 0 < f /\ q = 1 + B / f).
Notation val := (value B).
Notation digs := (below B).
Notation p n := (pw B n).
Let HB : 1 < B := SliceProof.HB B D OK.

(** the value kept of the divisor, and the dividend *)
Lemma estimate_high P f l d : 0 < P -> 0 < f < B -> 0 <= l < P -> d = f * P + l ->
  let q := 1 + B / f in
  2 <= q <= B + 1 /\ B * P + d < (q + 1) * d /\ 2 * d <= B * P + d.
Proof.
  intros HP Hf Hl Ed q. assert (HQ : 1 <= B / f <= B).
  { split; [apply Z.div_le_lower_bound; lia|]. apply Z.div_le_upper_bound; [lia|].
    assert (1 * B <= f * B) by (apply Z.mul_le_mono_nonneg_r; lia). lia. }
  split; [unfold q; lia|]. split.
  - pose proof (Z.mul_succ_div_gt B f ltac:(lia)) as H. unfold q.
    assert (B * P < (f * Z.succ (B / f)) * P) by (apply Z.mul_lt_mono_pos_r; lia).
    assert (0 <= (B / f + 1) * l) by (apply Z.mul_nonneg_nonneg; lia).
    replace ((1 + B / f + 1) * d) with ((B / f + 1) * d + d) by lia.
    replace ((B / f + 1) * d) with ((f * Z.succ (B / f)) * P + (B / f + 1) * l) by (rewrite Ed; unfold Z.succ; ring).
    lia.
  - assert ((f + 1) * P <= B * P) by (apply Z.mul_le_mono_nonneg_r; lia). lia.
Qed.

(** ** Long division *)
Lemma correct_high (test : digits -> M bool) den q low top W :
  digs den -> 0 < val den -> 2 * val den <= W ->
  (forall l t, length l = length den -> digs l -> 0 <= t <= B + 1 ->
     total (test (l ++ [t])) (fun b => b = (W <? val (l ++ [t])))) ->
  length low = length den -> digs low -> 0 <= top <= B + 1 -> 2 <= q <= B + 1 ->
  val (low ++ [top]) = q * val den ->
  gives
    (big <- test (low ++ [top]) ;;
     if big : bool then
       '(q, _) <- d_dec D q ;;
       qden <- sub_ignore D (low ++ [top]) den ;;
       big <- test qden ;;
       if big : bool then
         '(q, _) <- d_dec D q ;;
         qden <- sub_ignore D qden den ;;
         Ret (q, qden)
       else Ret (q, qden)
     else Ret (q, low ++ [top]))
    (fun '(q', _) => 2 <= q').
Proof.
  intros Dd Hden HW Ht Ll Dl Htop Hq HV.
  eapply gives_bind; [apply gives_total, Ht; auto|]. intros b ->. rewrite HV.
  destruct (Z.ltb_spec W (q * val den)) as [H1|H1]; [|apply gives_ret; lia].
  assert (Hq3 : 3 <= q).
  { destruct (Z.le_gt_cases 3 q); [assumption|exfalso; assert (E : q = 2) by lia; rewrite E in H1; lia]. }
  eapply gives_bind; [apply gives_total, (dv_dec _ _ _ DV); lia|]. intros [q1 u] (-> & _). clear u.
  eapply gives_bind.
  { apply gives_total, (sub_ignore_wide B D 1 OK DV); auto; [lia|]. rewrite HV.
    assert (1 * val den <= q * val den) by (apply Z.mul_le_mono_nonneg_r; lia). lia. }
  intros r (low1 & top1 & -> & L1 & D1 & T1 & V1). rewrite HV in V1.
  assert (V1' : val (low1 ++ [top1]) = (q - 1) * val den) by lia. clear V1.
  eapply gives_bind; [apply gives_total, Ht; auto; lia|]. intros b ->. rewrite V1'.
  destruct (Z.ltb_spec W ((q - 1) * val den)) as [H2|H2]; [|apply gives_ret; lia].
  assert (Hq4 : 3 <= q - 1) by (destruct (Z.le_gt_cases 3 (q - 1)); [assumption|exfalso; assert (q - 1 = 2) as E by lia; rewrite E in H2; lia]).
  eapply gives_bind; [apply gives_total, (dv_dec _ _ _ DV); lia|]. intros [q2 u] (-> & _). clear u.
  apply gives_any. intros r. apply gives_ret. lia.
Qed.

Lemma long_scaled_self den quot work : let n := length den in
  (1 <= n)%nat -> digs den -> (S n <= length work)%nat -> (1 <= length quot)%nat ->
  gives (div_big_long_scaled D den 1 den quot work) (fun '((_, quot', _), (nq, _)) =>
    (nq <= length quot')%nat /\ val (firstn nq quot') <> 1).
Proof.
  intros n Hn Dd Lw Lq. unfold div_big_long_scaled. fold n.
  rewrite get_ok by (fold n; lia). cbn [bind]. apply gives_any. intros s. apply gives_any. intros _.
  rewrite prefix_ok by lia. cbn [bind]. rewrite Nat.sub_diag.
  eapply gives_bind with (R := fun '(_, quot1, _, nq) => exists q, nq = 1%nat /\ 2 <= q /\ quot1 = q :: skipn 1 quot).
  2:{ intros [[[num1 quot1] qden1] nq] (q & -> & Hq & ->). cbn [div_long_loop bind].
      eapply gives_bind; [apply gives_total, (drop_val B); cbn [length]; lia|]. intros nq2 (Q1 & Q2 & Q3).
      apply gives_any. intros nr. apply gives_ret. split; [cbn [length]; lia|].
      rewrite Q2. cbn [firstn value]. lia. }
  destruct (cut_last den) as (dl & m & Ed & Ldl); [exact Hn|]. fold n in Ldl.
  assert (Ddl : digs dl /\ 0 <= m < B).
  { rewrite Ed in Dd. apply below_app in Dd. rewrite below_cons in Dd. tauto. }
  destruct Ddl as (Ddl & Hmb).
  assert (Vd : val den = m * p (n - 1) + val dl).
  { rewrite Ed, value_app, Ldl. cbn [value]. lia. }
  pose proof (value_bound B HB dl Ddl) as Bdl. rewrite Ldl in Bdl.
  pose proof (pw_pos B (n - 1) HB) as Hp1.
  assert (Epn : p n = B * p (n - 1)) by (rewrite <- pw_S; f_equal; lia).
  unfold div_long_first. fold n.
  assert (Eg : get den (n - 1) = Ret m) by (rewrite Ed; apply get_app; exact Ldl).
  rewrite Eg. cbn [bind]. rewrite Nat.sub_diag.
  eapply gives_bind; [apply Hone; exact Hmb|]. intros [q r] [Hm ->].
  destruct (estimate_high (p (n - 1)) m (val dl) (val den) Hp1 ltac:(lia) Bdl Vd) as (Hq & HU & HW).
  rewrite <- Epn in HU, HW. set (q := 1 + B / m) in *. clearbody q.
  destruct (Z.eqb_spec q 0) as [|_]; [lia|].
  assert (Hden : 0 < val den).
  { rewrite Vd. assert (0 < m * p (n - 1)) by (apply Z.mul_pos_pos; lia). lia. }
  eapply gives_bind; [apply gives_total, (mul_digit_into_wide B D 1 OK DV); [exact Dd|lia|len]|].
  intros r0 (low & top & -> & Llow & Dlow & Htop & Vlow).
  rewrite <- bind_assoc.
  eapply gives_bind.
  { apply (correct_high (fun qd => first_too_big den den qd 1) den q low top (p n + val den)); auto; try lia.
    intros l t Ll Dl Ht.
    eapply total_post; [apply (first_too_big_ok B D OK den den n 1 l t); auto|].
    intros b ->. fold n. rewrite Nat.sub_diag. cbn [skipn]. rewrite Z.mul_1_r, Z.add_comm. reflexivity. }
  intros [q' qd'] Hq'. apply gives_any. intros pr. apply gives_any. intros [num' u].
  cbn [Nat.add Nat.sub]. rewrite set_ok by lia. cbn [bind]. apply gives_ret.
  exists q'. split; [reflexivity|]. split; [exact Hq'|]. reflexivity.
Qed.

(** the scaled value needs one digit more *)
Definition grows (d top : Z) (n : nat) : Prop := forall s, is_shift B top s -> p n <= d * 2 ^ s.

Lemma carry_one d top n s V c : (1 <= n)%nat -> 0 < top -> d < (top + 1) * p (n - 1) -> is_shift B top s ->
  grows d top n -> 0 <= V < p n -> 0 <= c -> V + p n * c = d * 2 ^ s -> c = 1 /\ s <> 0.
Proof.
  intros Hn Ht Hd HS HG HV Hc E. destruct (shift_bound B top s Ht HS) as [H1 H2].
  pose proof (HG s HS) as Hp. destruct HS as (Hs0 & Hs1 & Hs2).
  pose proof (pw_pos B (n - 1) HB) as Hp1.
  assert (Epn : p n = B * p (n - 1)) by (rewrite <- pw_S; f_equal; lia).
  assert (HU : d * 2 ^ s < 2 * p n).
  { apply Z.lt_le_trans with ((top + 1) * p (n - 1) * 2 ^ s); [apply Z.mul_lt_mono_pos_r; lia|].
    rewrite Epn. replace ((top + 1) * p (n - 1) * 2 ^ s) with ((top * 2 ^ s + 2 ^ s) * p (n - 1)) by ring.
    replace (2 * (B * p (n - 1))) with ((2 * B) * p (n - 1)) by ring.
    apply Z.mul_le_mono_nonneg_r; lia. }
  split.
  - assert (c = 0 \/ c = 1 \/ 2 <= c) as [-> |[->|Hc2]] by lia; [lia|reflexivity|].
    assert (p n * 2 <= p n * c) by (apply Z.mul_le_mono_nonneg_l; lia). lia.
  - intros ->. change (2 ^ 0) with 1 in *.
    assert ((top + 1) * p (n - 1) <= B * p (n - 1)) by (apply Z.mul_le_mono_nonneg_r; lia). lia.
Qed.

Lemma top_bound den n : length den = n -> (1 <= n)%nat -> digs den -> val den < (nth (n - 1) den 0 + 1) * p (n - 1).
Proof.
  intros L Hn Dd. rewrite (split_last den (n - 1)) at 1 by lia.
  rewrite value_app, firstn_length_le by lia. cbn [value].
  pose proof (value_bound B HB _ (below_firstn B (n - 1) den Dd)) as Hb.
  rewrite firstn_length_le in Hb by lia. lia.
Qed.

Lemma long_self den quot work : let n := length den in let top := nth (n - 1) den 0 in
  (3 <= n)%nat -> digs den -> (S n <= length work)%nat -> top <> 0 -> (1 <= length quot)%nat ->
  grows (val den) top n ->
  gives (div_big_long D den den quot work) (fun '((_, quot', _), (nq, _)) =>
    (nq <= length quot')%nat /\ val (firstn nq quot') <> 1).
Proof.
  intros n top Hn Dd Lw Htop Lq HG.
  assert (Hmb : 0 <= top < B).
  { apply (below_nth B den (n - 1)); [exact Dd|]. apply nth_error_nth'. fold n. lia. }
  pose proof (top_bound den n eq_refl ltac:(lia) Dd) as Hd. fold top in Hd.
  unfold div_big_long. fold n.
  apply gives_any. intros _. apply gives_any. intros _. apply gives_any. intros _. apply gives_any. intros _.
  rewrite get_ok by (fold n; lia). cbn [bind]. fold top.
  eapply gives_bind; [apply gives_total, (ok_max_shift _ _ OK); lia|]. intros s Hs.
  assert (HS : is_shift B top s) by exact Hs.
  destruct (shift_bound B top s ltac:(lia) HS) as [Hs2 Hs3].
  destruct (shl_carry_assign_within_digit D den s 0) as [[sden c]| |] eqn:Esh.
  2:{ destruct (Z.eqb_spec s 0) as [E0|Hne]; [|apply gives_panic].
      exfalso. pose proof (HG s HS) as H. rewrite E0, Z.mul_1_r in H.
      pose proof (value_bound B HB den Dd). fold n in H0. lia. }
  2:{ destruct (Z.eqb_spec s 0) as [E0|Hne]; [|intros a E; discriminate E].
      exfalso. pose proof (HG s HS) as H. rewrite E0, Z.mul_1_r in H.
      pose proof (value_bound B HB den Dd). fold n in H0. lia. }
  destruct Hs as [Hs0 Hs1].
  assert (Hsh := shl_within_ok B D OK den s Dd ltac:(lia) ltac:(lia)).
  rewrite Esh in Hsh. cbv beta iota delta [total spec] in Hsh. destruct Hsh as (Ls & Ds & Hc & Vs). fold n in Ls, Vs.
  pose proof (value_bound B HB sden Ds) as Bs. rewrite Ls in Bs.
  destruct (carry_one (val den) top n s (val sden) c) as [-> Hne]; auto; try lia.
  destruct (Z.eqb_spec s 0) as [E0|_]; [lia|]. cbn [bind].
  rewrite prefix_ok by lia. cbn [bind].
  eapply gives_bind.
  { apply long_scaled_self; [lia|exact Ds|rewrite Ls; len|exact Lq]. }
  intros [[[num1 quot1] work1] [nq nr]] [N2 VQ].
  apply gives_any. intros [num2 [nr2 c2]]. apply gives_ret. split; assumption.
Qed.

(** ** Two-digit divisors *)
Lemma pair_step_self dl dh : 0 <= dl < B -> 0 <= dh < B ->
  gives (div_pair_step D dl dh dl 1 dh) (fun '(q, _) => 2 <= q).
Proof.
  intros Hdl Hdh. unfold div_pair_step.
  eapply gives_bind; [apply Hone; exact Hdh|]. intros [q r] [H0 ->].
  destruct (estimate_high B dh dl (dl + B * dh) ltac:(lia) ltac:(lia) Hdl ltac:(lia)) as (Hq & HU & HW).
  remember (dl + B * dh) as E eqn:EE.
  set (q := 1 + B / dh) in *. clearbody q.
  eapply gives_bind; [apply gives_total, (dv_mul _ _ _ DV); [exact Hdl|lia|lia]|]. intros [d1 c1] (Hd1 & Hc1 & E1).
  eapply gives_bind; [apply gives_total, (dv_mul _ _ _ DV); [exact Hdh|lia|exact Hc1]|].
  intros [d2 d3] (Hd2 & Hd3 & E2).
  assert (EP : d1 + B * (d2 + B * d3) = q * E).
  { rewrite EE. replace (d2 + B * d3) with (dh * q + c1) by lia. lia. }
  remember (B * B + E) as W eqn:EW0.
  assert (EW : dl + B * (dh + B * 1) = W) by lia.
  apply gives_bind with (R := fun '(q', _, _) => 2 <= q').
  2:{ intros [[q' e1] e2] H. apply gives_any. intros [a ca]. apply gives_any. intros [b cb].
      apply gives_ret. exact H. }
  rewrite (array_gt_value B HB) by lia. rewrite EW, EP.
  destruct (Z.ltb_spec W (q * E)) as [H1|H1]; [|apply gives_ret; lia].
  assert (Hq3 : 3 <= q).
  { destruct (Z.le_gt_cases 3 q) as [|Hlt]; [assumption|exfalso; assert (E' : q = 2) by lia; rewrite E' in H1; lia]. }
  eapply gives_bind; [apply gives_total, (dv_dec _ _ _ DV); lia|]. intros [q1 u0] (-> & _). clear u0.
  eapply gives_bind; [apply gives_total, (ok_sub _ _ OK); [exact Hd1|exact Hdl]|]. intros [e1 u1] (He1 & Eu1).
  change (of_bool false) with 0 in Eu1.
  eapply gives_bind; [apply gives_total, (ok_sub _ _ OK); [exact Hd2|exact Hdh]|]. intros [e2 u2] (He2 & Eu2).
  assert (HE : 0 <= E) by (rewrite EE; assert (0 <= B * dh) by (apply Z.mul_nonneg_nonneg; lia); lia).
  assert (Hpos : 0 <= (q - 1) * E) by (apply Z.mul_nonneg_nonneg; lia).
  assert (HV : e1 + B * (e2 + B * (d3 - of_bool u2)) = (q - 1) * E).
  { replace e1 with (d1 - dl + B * of_bool u1) by lia.
    replace e2 with (d2 - dh - of_bool u1 + B * of_bool u2) by lia. rewrite EE in *. lia. }
  assert (Hd3' : 0 <= d3 - of_bool u2).
  { destruct (Z.le_gt_cases 0 (d3 - of_bool u2)); [assumption|exfalso].
    assert (B * (e2 + B * (d3 - of_bool u2)) <= B * (- 1)) by (apply Z.mul_le_mono_nonneg_l; [lia|];
      assert (B * (d3 - of_bool u2) <= B * (-1)) by (apply Z.mul_le_mono_nonneg_l; lia); lia). lia. }
  assert (Hdd : total (if u2 then '(x, _) <- d_dec D d3 ;; Ret x else Ret d3)
                  (fun x => x = d3 - of_bool u2)).
  { destruct u2; cbn [of_bool] in *; [|ret; lia].
    tstep (dv_dec _ _ _ DV); [lia|]. intros [x u] (-> & _). ret. reflexivity. }
  eapply gives_bind; [apply gives_total, Hdd|]. intros x ->. clear Hdd.
  rewrite (array_gt_value B HB) by lia. rewrite EW, HV.
  destruct (Z.ltb_spec W ((q - 1) * E)) as [H2|H2]; [|apply gives_ret; lia].
  assert (Hq4 : 3 <= q - 1).
  { destruct (Z.le_gt_cases 3 (q - 1)) as [|Hlt]; [assumption|exfalso; assert (E' : q - 1 = 2) by lia; rewrite E' in H2; lia]. }
  eapply gives_bind; [apply gives_total, (dv_dec _ _ _ DV); lia|]. intros [q2 u0] (-> & _).
  apply gives_any. intros [g1 v1]. apply gives_any. intros [g2 v2]. apply gives_ret. lia.
Qed.

Lemma pair_self fl fh : 0 <= fl < B -> 0 < fh < B -> grows (fl + B * fh) fh 2 ->
  gives (div_assign_digit_pair D [fl; fh] fl fh) (fun '(q, res) =>
    exists n x y, res = ROk (n, x, y) /\ (n <= length q)%nat /\ val (firstn n q) <> 1).
Proof.
  intros Hfl Hfh HG. unfold div_assign_digit_pair. destruct (Z.eqb_spec fh 0) as [|_]; [lia|].
  cbn [length Nat.sub].
  eapply gives_bind; [apply gives_total, (ok_max_shift _ _ OK); exact Hfh|]. intros s Hs.
  assert (HS : is_shift B fh s) by exact Hs.
  destruct (shift_bound B fh s ltac:(lia) HS) as [Hs2 Hs3]. destruct Hs as [Hs0 Hs1].
  assert (Ep2 : p 2 = B * B) by (rewrite pw_S, pw_1; reflexivity).
  assert (Hb : fl + B * fh < (fh + 1) * p (2 - 1)) by (replace (2 - 1)%nat with 1%nat by lia; rewrite pw_1; lia).
  apply gives_bind with (R := fun '(nr', dl, dh, rh) => nr' = [dl; dh] /\ rh = 1 /\ 0 <= dl < B /\ 0 <= dh < B).
  { destruct (Z.ltb_spec 0 s) as [Hpos|Hz].
    - eapply gives_bind; [apply gives_total, (ok_shl _ _ OK); [exact Hfl|lia|lia|lia]|].
      intros [dl c] (Hdl & Hc & Edl).
      eapply gives_bind; [apply gives_total, (ok_shl _ _ OK); [split; [lia|apply Hfh]|lia|lia|exact Hc]|].
      intros [dh c2] (Hdh & Hc2 & Edh).
      eapply gives_bind; [apply gives_total, (shl_within_ok B D OK)|]; [|lia|lia|].
      { apply below_cons. split; [exact Hfl|]. apply below_cons. split; [lia|apply below_nil]. }
      intros [nr' rh] (L & Dn & Hrh & Vn). cbn [length] in *. apply gives_ret.
      destruct nr' as [|a [|b [|]]]; cbn [length] in L; try lia.
      cbn [value] in Vn. rewrite !Z.mul_0_r, !Z.add_0_r in Vn.
      apply below_cons in Dn. destruct Dn as [Ha Dn]. apply below_cons in Dn. destruct Dn as [Hb' _].
      assert (EE : dl + B * dh + p 2 * c2 = (fl + B * fh) * 2 ^ s).
      { rewrite Ep2. replace dl with (fl * 2 ^ s - B * c) by lia.
        replace dh with (fh * 2 ^ s + c - B * c2) by lia. ring. }
      assert (R1 : 0 <= a + B * b < p 2).
      { rewrite Ep2. assert (B * (b + 1) <= B * B) by (apply Z.mul_le_mono_nonneg_l; lia).
        assert (0 <= B * b) by (apply Z.mul_nonneg_nonneg; lia). lia. }
      assert (R2 : 0 <= dl + B * dh < p 2).
      { rewrite Ep2. assert (B * (dh + 1) <= B * B) by (apply Z.mul_le_mono_nonneg_l; lia).
        assert (0 <= B * dh) by (apply Z.mul_nonneg_nonneg; lia). lia. }
      destruct (carry_one (fl + B * fh) fh 2 s (a + B * b) rh) as [-> _]; auto; try lia.
      destruct (carry_one (fl + B * fh) fh 2 s (dl + B * dh) c2) as [E2 _]; auto; try lia.
      subst c2.
      assert (a = dl /\ b = dh) as [-> ->].
      { assert (E' : a + B * b = dl + B * dh) by lia.
        assert (b = dh); [|subst; split; lia].
        assert (a - dl = B * (dh - b)) by lia.
        assert (dh - b = 0 \/ 1 <= dh - b \/ dh - b <= -1) as [|[|]] by lia; [lia| |].
        - assert (B * 1 <= B * (dh - b)) by (apply Z.mul_le_mono_nonneg_l; lia). lia.
        - assert (B * (dh - b) <= B * (-1)) by (apply Z.mul_le_mono_nonneg_l; lia). lia. }
      conj; auto; lia.
    - exfalso. assert (E0 : s = 0) by lia. pose proof (HG s HS) as H. rewrite E0, Z.mul_1_r, Ep2 in H.
      assert (B * (fh + 1) <= B * B) by (apply Z.mul_le_mono_nonneg_l; lia). lia. }
  intros [[[nr' dl] dh] rh] (-> & -> & Hdl & Hdh).
  cbn [get nth_error bind set length Nat.ltb Nat.leb firstn skipn app].
  unfold with_prefix, with_slice. rewrite sub_slice_ok by (cbn [length]; lia). cbn [bind Nat.sub skipn firstn app].
  eapply gives_bind with (R := fun '(l, _) => exists q, l = [q; 0] /\ 2 <= q).
  { cbn [div_pair_loop bind]. rewrite bind_assoc.
    eapply gives_bind; [apply (pair_step_self dl dh Hdl Hdh)|]. intros [q r] Hq. cbn [bind]. apply gives_ret.
    exists q. split; [reflexivity|exact Hq]. }
  intros [l [rh1 rl1]] (q & -> & Hq). apply gives_any. intros [rh2 rl2].
  eapply gives_bind; [apply gives_total, (drop_val B); cbn [length]; lia|]. intros k (K1 & K2 & K3).
  apply gives_ret. exists k, rl2, rh2. split; [reflexivity|]. split; [cbn [length]; lia|].
  rewrite K2. cbn [firstn value]. lia.
Qed.

(** ** The functions above *)
Lemma div_assign_big_self y : digs y -> normal y -> (2 <= length y < BZ_CUTOFF)%nat ->
  grows (val y) (nth (length y - 1) y 0) (length y) ->
  gives (div_assign_big D y y) (fun '(q, res) => match res with
    | ROk _ => val q <> 1 | RErr _ => True end).
Proof.
  intros Dy Ny Hl HG. unfold div_assign_big. destruct (Nat.ltb_spec (length y) (length y)) as [|_]; [lia|].
  assert (Htop := top_pos B y Dy Ny ltac:(lia)).
  assert (Elt : num_lt y y = false) by (rewrite (num_lt_value B HB) by auto; apply Z.ltb_ge; lia).
  unfold div_big, div_big_with_work. rewrite Elt. rewrite bind_assoc.
  rewrite Nat.sub_diag. cbn [Nat.add].
  eapply gives_bind with (R := fun '(s, r) => match r with
    | ROk (nq, nr) => let '(_, quot', _) := s in (nq <= length quot')%nat /\ val (firstn nq quot') <> 1
    | RErr _ => True end).
  2:{ intros [[[num' quot'] work'] [[nq nr]|e]] H; cbn [bind].
      - destruct H as [H1 H2]. apply gives_any. intros r. apply gives_ret. exact H2.
      - apply gives_ret. exact I. }
  unfold div_big_with_work_gen. destruct (Nat.eqb_spec (length y) 0) as [|_]; [lia|]. rewrite Elt.
  destruct (_ && _); [apply gives_ret; exact I|].
  destruct (Nat.eqb_spec (length y) 1) as [|_]; [lia|].
  destruct (Nat.eqb_spec (length y) 2) as [E2|N2].
  - destruct y as [|d0 [|d1 [|]]]; cbn [length] in *; try lia.
    cbn [nth Nat.sub] in Htop, HG. cbn [get nth_error bind].
    assert (Hd0 : 0 <= d0 < B) by (apply below_cons in Dy; tauto).
    assert (Vd : val [d0; d1] = d0 + B * d1) by (cbn [value]; lia).
    eapply gives_bind; [apply (pair_self d0 d1); auto; rewrite <- Vd; exact HG|].
    intros [q res] (nq & x & y & -> & Hnq & VQ).
    destruct (Nat.ltb_spec (length (zeros 1)) nq); [apply gives_ret; exact I|].
    rewrite copy_prefix_ok by lia. cbn [bind].
    assert (HP : (nq <= length (firstn nq q ++ skipn nq (zeros 1)))%nat
       /\ val (firstn nq (firstn nq q ++ skipn nq (zeros 1))) <> 1).
    { split; [len|]. rewrite firstn_exact by len. exact VQ. }
    destruct (y =? 0); [destruct (x =? 0)|].
    + apply gives_ret. exact HP.
    + apply gives_any. intros l. apply gives_ret. exact HP.
    + apply gives_any. intros l. apply gives_any. intros l'. apply gives_ret. exact HP.
  - destruct (Nat.ltb_spec (length y) BZ_CUTOFF) as [_|]; [|lia].
    apply gives_any. intros _.
    eapply gives_bind.
    { apply (long_self y (zeros 1)); auto; try lia.
      destruct (Nat.leb_spec (length y) 2); [lia|]. cbn [orb]. len. }
    intros [s [nq nr]] H. apply gives_ret. destruct s as [[? ?] ?]. exact H.
Qed.
End DivScale.

(** ** Decimal types *)
Section Decimal.
Variable dbg : bool.
Variable t : dty.
Hypothesis Hd : is_binary t = false.
Notation B := (radix t).
Notation D := (impl dbg t).

Lemma dec_one f : 0 <= f < B -> gives (d_div_carry D f f 1) (fun '(q, _) => 0 < f /\ q = 1 + B / f).
Proof.
  intros Hf. assert (Hr : 100 <= B /\ B + 1 < 2 ^ bits t /\ B * 2 <= 2 ^ (2 * bits t)).
  { clear Hf. destruct t; try discriminate Hd; vm_compute; repeat split; congruence. }
  unfold impl. rewrite Hd. cbn [d_div_carry dec_digit]. unfold dec_div_carry.
  rewrite (radix_dec t Hd) in *.
  rewrite w_mul_ok by lia. rewrite Z.mul_1_l. cbn [bind]. rewrite w_add_ok by lia. cbn [bind].
  unfold w_div, w_rem, guard. destruct (Z.eqb_spec f 0) as [->|Hne]; [apply gives_panic|]. cbn [negb bind].
  apply gives_ret. split; [lia|].
  assert (E : (1 * B + f) / f = 1 + B / f).
  { replace (1 * B + f) with (B + 1 * f) by lia.
    rewrite Z.div_add by lia. lia. }
  unfold wrap. rewrite ?Z.mul_1_l in E. rewrite ?Z.mul_1_l. rewrite E. apply Z.mod_small.
  assert (B / f <= B).
  { apply Z.div_le_upper_bound; [lia|].
    assert (1 * B <= f * B) by (apply Z.mul_le_mono_nonneg_r; lia). lia. }
  assert (0 <= B / f) by (apply Z.div_pos; lia). lia.
Qed.

Lemma dec_slack : digit_div B D 1.
Proof. pose proof (impl_div dbg t) as H. unfold slack in H. rewrite Hd in H. exact H. Qed.

Lemma grows_intro n v : (1 <= n)%nat -> 0 <= v -> 0 < leading t n v -> ~ scales t n v -> grows B v (leading t n v) n.
Proof.
  intros Hn Hv Hl HN s HS. destruct (Z.le_gt_cases (pw B n) (v * 2 ^ s)) as [|H]; [assumption|exfalso].
  apply HN. apply (scales_check t n v s); auto.
Qed.

Lemma self_claim y q r : well_formed t y -> (2 <= length y < 20)%nat -> ~ scales t (length y) (num t y) ->
  div_assign_big D y y = Ret (q, ROk r) -> num t q <> 1.
Proof.
  intros [Vy Ny] Hl HN E. pose proof (SliceProof.HB _ _ (impl_ok true t)) as HB.
  pose proof (leading_top t y Vy ltac:(lia)) as EL.
  pose proof (top_pos B y Vy Ny ltac:(lia)) as Ht.
  assert (HG : grows B (value B y) (nth (length y - 1) y 0) (length y)).
  { rewrite <- EL. apply grows_intro; [lia|apply value_nonneg; auto|rewrite EL; lia|exact HN]. }
  exact (div_assign_big_self B D (impl_ok dbg t) dec_slack dec_one y Vy Ny Hl HG _ E).
Qed.

(** the divisors by which every number is divided correctly *)
Lemma divisors_claim y : well_formed t y -> (2 <= length y < 20)%nat ->
  ((forall x, well_formed t x -> divided dbg t x y) <-> scales t (length y) (num t y)).
Proof.
  intros Wy Hl. split.
  - intros H. destruct (H y Wy) as (q & r & E & _ & _ & _ & _ & _ & H1 & H2).
    pose proof (self_claim y q r Wy Hl) as HS.
    assert (Hq : num t q = 1).
    { assert (0 < num t y) by lia.
      assert (num t q = num t y / num t y) by (apply Z.div_unique with (num t r); lia).
      rewrite Z.div_same in H3 by lia. lia. }
    destruct Wy as [Vy Ny]. pose proof (SliceProof.HB _ _ (impl_ok true t)) as HB.
    pose proof (leading_top t y Vy ltac:(lia)) as EL.
    pose proof (top_pos B y Vy Ny ltac:(lia)) as Ht.
    pose proof (ok_max_shift _ _ (impl_ok dbg t) (leading t (length y) (num t y)) ltac:(rewrite EL; lia)) as Hm.
    apply total_inv in Hm. destruct Hm as (s & _ & Hs).
    destruct (Z.le_gt_cases (pw B (length y)) (num t y * 2 ^ s)) as [Hge|Hlt].
    + exfalso. apply HS; [|exact E|exact Hq]. intros HN. apply (Z.lt_irrefl (pw B (length y))).
      apply Z.le_lt_trans with (num t y * 2 ^ s); [exact Hge|].
      apply HN; [exact (proj1 Hs)|exact (proj1 (proj2 Hs))].
    + apply (scales_check t _ _ s); [rewrite EL; lia|exact Hs|apply value_nonneg; auto|exact Hlt].
  - intros HS x Wx. apply div_decimal_claim; auto; [|lia]. intros ->. cbn in Hl. lia.
Qed.

Lemma pair_self_claim n q : storage t n -> B <= n -> ~ scales t 2 n ->
  div_assign_T dbg t [n mod B; n / B] n = Ret q -> num t q <> 1.
Proof.
  intros Sn Hn HN E. pose proof (SliceProof.HB _ _ (impl_ok dbg t)) as HB.
  unfold div_assign_T in E. rewrite Hd in E.
  assert (Hf : fits_single t n = false).
  { unfold fits_single. apply Z.ltb_ge. rewrite radix_dec by assumption. exact Hn. }
  rewrite Hf in E. unfold split_dec in E. rewrite radix_dec in E by assumption.
  set (h := n / B) in *. set (l := n mod B) in *.
  assert (Hl : 0 <= l < B) by (apply Z.mod_pos_bound; lia).
  assert (En : l + B * h = n) by (pose proof (div_mod_eq n B ltac:(lia)); unfold l, h; lia).
  assert (Hh : 0 < h < B).
  { split; [apply Z.div_str_pos; lia|]. apply Z.div_lt_upper_bound; [lia|].
    clear - Hd Sn. destruct t; try discriminate Hd; unfold storage, radix in *; lia. }
  assert (EL : leading t 2 n = h) by (unfold leading, h; change (Z.of_nat (2 - 1)) with 1; rewrite Z.pow_1_r; reflexivity).
  assert (HG : grows B (l + B * h) h 2).
  { rewrite En, <- EL. apply grows_intro; [lia|lia|rewrite EL; lia|exact HN]. }
  unfold ubig_div_assign_digit_pair in E.
  pose proof (pair_self B D (impl_ok dbg t) dec_slack dec_one l h Hl Hh HG) as HP.
  destruct (div_assign_digit_pair D [l; h] l h) as [[s r]| |]; try discriminate E.
  destruct (HP _ eq_refl) as (m & x & y & -> & Hm & HV). cbn [bind] in E.
  rewrite (trunc_if m) in E by lia. cbn [bind or_panic] in E. injection E as <-. exact HV.
Qed.

Lemma self_op_claim y q : well_formed t y -> (2 <= length y < 20)%nat -> ~ scales t (length y) (num t y) ->
  div_assign D y y = Ret q -> num t q <> 1.
Proof.
  intros Wy Hl HN E. unfold div_assign in E.
  destruct (div_assign_big D y y) as [[s [r|e]]| |] eqn:E1; cbn in E; inversion E; subst.
  eapply self_claim; eauto.
Qed.

Lemma pair_divisors_claim n : storage t n -> B <= n ->
  ((forall x, well_formed t x -> exists q r, div_assign_T dbg t x n = Ret q /\ rem_assign_T dbg t x n = Ret r
      /\ well_formed t q /\ well_formed t r /\ euclid (num t x) n (num t q) (num t r))
   <-> scales t 2 n).
Proof.
  intros Sn Hn. pose proof (SliceProof.HB _ _ (impl_ok dbg t)) as HB.
  assert (Hh : 0 < n / B < B).
  { split; [apply Z.div_str_pos; lia|]. apply Z.div_lt_upper_bound; [lia|].
    clear - Hd Sn. destruct t; try discriminate Hd; unfold storage, radix in *; lia. }
  assert (EL : leading t 2 n = n / B) by (unfold leading; change (Z.of_nat (2 - 1)) with 1; rewrite Z.pow_1_r; reflexivity).
  split; [|intros HS x [Vx _]; apply div_pair_claim; auto].
  intros H. assert (Hl : 0 <= n mod B < B) by (apply Z.mod_pos_bound; lia).
  assert (En : num t [n mod B; n / B] = n).
  { unfold num. cbn [value]. pose proof (div_mod_eq n B ltac:(lia)). lia. }
  destruct (H [n mod B; n / B]) as (q & r & E & _ & _ & _ & H1 & H2).
  { split; [|apply (normal_snoc [n mod B] (n / B)); lia].
    apply below_cons. split; [lia|]. apply below_cons. split; [lia|apply below_nil]. }
  rewrite En in H1.
  assert (Hq : num t q = 1).
  { assert (Eq : num t q = n / n) by (apply Z.div_unique with (num t r); lia).
    rewrite Z.div_same in Eq by lia. exact Eq. }
  pose proof (ok_max_shift _ _ (impl_ok dbg t) (n / B) Hh) as Hm.
  apply total_inv in Hm. destruct Hm as (s & _ & Hs). rewrite <- EL in Hs.
  destruct (Z.le_gt_cases (pw B 2) (n * 2 ^ s)) as [Hge|Hlt].
  - exfalso. apply (pair_self_claim n q Sn Hn); [|exact E|exact Hq]. intros HN.
    apply (Z.lt_irrefl (pw B 2)). apply Z.le_lt_trans with (n * 2 ^ s); [exact Hge|].
    apply HN; [exact (proj1 Hs)|exact (proj1 (proj2 Hs))].
  - apply (scales_check t _ _ s); [rewrite EL; lia|exact Hs|lia|exact Hlt].
Qed.
End Decimal.
