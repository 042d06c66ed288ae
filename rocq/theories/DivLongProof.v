(** * DivLongProof: schoolbook long division. *)
From Coq Require Import ZArith List Bool Lia.
From Verif Require Import Base Digit Slice Mul Div UBig Spec Hoare DigitOK ListLemmas SliceProof
  MulProof UBigProof DivProof DivWide DivPairProof.
Import ListNotations.
Open Scope Z_scope.
Open Scope m_scope.

Lemma get_app l1 x l2 i : length l1 = i -> get (l1 ++ x :: l2) i = Ret x.
Proof. intros <-. unfold get. rewrite nth_error_app2, Nat.sub_diag by lia. reflexivity. Qed.

Lemma set_app l1 x l2 i v : length l1 = i -> set (l1 ++ x :: l2) i v = Ret (l1 ++ v :: l2).
Proof.
  intros H. rewrite set_ok by (rewrite app_length; cbn; lia).
  rewrite firstn_exact by exact H. do 3 f_equal.
  replace (S i) with (length (l1 ++ [x])) by (rewrite app_length; cbn; lia).
  change (x :: l2) with ([x] ++ l2). rewrite app_assoc. apply skipn_exact. reflexivity.
Qed.

Lemma cut_at {A} n (l : list A) : (n <= length l)%nat -> exists a b, l = a ++ b /\ length a = n.
Proof.
  intros H. exists (firstn n l), (skipn n l). split; [symmetry; apply firstn_skipn|].
  apply firstn_length_le. assumption.
Qed.

Lemma cut_cons {A} (l : list A) : (1 <= length l)%nat -> exists x b, l = x :: b.
Proof. destruct l; cbn; [lia|eauto]. Qed.

Lemma cut_last {A} (l : list A) : (1 <= length l)%nat -> exists a x, l = a ++ [x] /\ length a = (length l - 1)%nat.
Proof.
  intros H. destruct (exists_last (l := l)) as (a & x & ->); [destruct l; cbn in *; [lia|discriminate]|].
  exists a, x. split; [reflexivity|]. rewrite app_length. cbn. lia.
Qed.

Section DivLongProof.
Variables (B : Z) (D : digit) (sl : Z).
Hypothesis OK : digit_ok B D.
Hypothesis DV : digit_div B D sl.
Notation val := (value B).
Notation digs := (below B).
Notation p n := (pw B n).
Notation lim := (B - 1 + 2 * sl).
Let HB : 1 < B := SliceProof.HB B D OK.
Let Hsl : 0 <= sl <= 1.
Proof. destruct (dv_slack _ _ _ DV); lia. Qed.

Lemma mul_zip_into_wide nr q prod c : digs nr -> 0 <= q <= lim -> 0 <= c <= lim ->
  (length nr <= length prod)%nat ->
  total (mul_zip_into D nr q prod c) (fun '(r, c') =>
    exists low, r = low ++ skipn (length nr) prod /\ length low = length nr /\ digs low
    /\ 0 <= c' <= lim /\ val low + p (length nr) * c' = val nr * q + c).
Proof.
  intros H Hq. revert prod c. induction nr as [|d t IH]; intros prod c Hc HL.
  - cbn [mul_zip_into]. ret. exists []. conj; auto using below_nil; try lia.
    cbn [length value]. rewrite pw_0. lia.
  - destruct prod as [|x prod]; [cbn in HL; lia|]. cbn [mul_zip_into].
    apply below_cons in H. destruct H as [Hd Ht].
    tstep (dv_mul _ _ _ DV); [exact Hd|exact Hq|exact Hc|]. intros [d' c1] (Hr & Hc1 & HE).
    tstep IH; [exact Ht|exact Hc1|cbn in HL; lia|].
    intros [t' c'] (low & -> & L & Dl & Hc' & HV). ret. exists (d' :: low).
    conj; [reflexivity|cbn; lia|apply below_cons; auto|lia|lia|].
    cbn [value length]. rewrite pw_S. lia.
Qed.

Lemma mul_digit_into_wide den q qden : digs den -> 0 <= q <= lim ->
  length qden = S (length den) ->
  total (mul_digit_into D den q qden) (fun r => exists low top,
    r = low ++ [top] /\ length low = length den /\ digs low /\ 0 <= top <= lim
    /\ val (low ++ [top]) = q * val den).
Proof.
  intros H Hq HL. unfold mul_digit_into.
  tstep total_debug_assert; [apply Nat.leb_le; lia|]. intros _ _.
  tstep mul_zip_into_wide; [exact H|exact Hq|lia|lia|].
  intros [r c] (low & -> & L & Dl & Hc & HV).
  destruct (skipn (length den) qden) as [|x [|y s]] eqn:E;
    pose proof (skipn_length (length den) qden) as LS; rewrite E in LS; cbn in LS; try lia.
  rewrite set_app by exact L. ret. exists low, c. conj; auto; try lia.
  rewrite value_app, L. cbn [value]. lia.
Qed.

Lemma sub_zip_app a b x c : length a = length b ->
  sub_zip D (a ++ x) b c = bind (sub_zip D a b c) (fun '(a, c) => Ret (a ++ x, c)).
Proof.
  revert b c. induction a as [|d a IH]; intros [|e b] c HL; try discriminate; cbn [app sub_zip].
  - destruct x; reflexivity.
  - destruct (d_sub_carry D d e c) as [[d' c']| |]; cbn [bind]; try reflexivity.
    rewrite IH by (cbn in HL; lia).
    destruct (sub_zip D a b c') as [[a' c'']| |]; reflexivity.
Qed.

Lemma sub_ignore_wide low top den : digs low -> digs den -> length low = length den ->
  0 <= top <= lim -> val den <= val (low ++ [top]) ->
  total (sub_ignore D (low ++ [top]) den) (fun r => exists low' top',
    r = low' ++ [top'] /\ length low' = length den /\ digs low' /\ 0 <= top' <= lim
    /\ val (low' ++ [top']) = val (low ++ [top]) - val den).
Proof.
  intros Hl Hd HL Ht HV. unfold sub_ignore, sub_assign_big.
  destruct (Nat.ltb_spec (length (low ++ [top])) (length den)) as [H|_]; [len|].
  rewrite sub_zip_app by exact HL.
  rewrite !bind_assoc. tstep (sub_zip_ok B D OK); [exact Hl|exact Hd|lia|].
  intros [r c] (Lr & Dr & _ & Vr). cbn [bind]. change (of_bool false) with 0 in Vr.
  rewrite value_app in HV. cbn [value] in HV.
  rewrite HL in HV, Lr.
  pose proof (value_bound B HB r Dr) as Br. rewrite Lr in Br.
  destruct c; cbn [of_bool] in Vr.
  - rewrite bind_assoc. eapply step_suffix; [len| |].
    + rewrite skipn_exact by len. instantiate (1 := fun '(s, _) => s = [top - 1] /\ 0 < top).
      cbn [dec_assign]. assert (0 < top) by nia.
      tstep (dv_dec _ _ _ DV); [lia|]. intros [t u] (-> & ->).
      destruct (top - 1 =? 0); ret; auto.
    + intros s a (-> & Htop). ret. rewrite firstn_exact by len.
      exists r, (top - 1). rewrite !value_app, Lr, HL. cbn [value]. conj; auto; try lia.
  - rewrite bind_assoc. tstep (drop_val B); [len|]. intros k _. ret.
    exists r, top. rewrite !value_app, Lr, HL. cbn [value]. conj; auto; lia.
Qed.

(** The correction of an estimate. *)
Lemma correct_ok (test : digits -> M bool) den q low top W :
  digs den -> 0 < val den -> 0 <= W < p (S (length den)) -> W / val den < B ->
  (forall l t, length l = length den -> digs l -> 0 <= t <= lim ->
     total (test (l ++ [t])) (fun b => b = (W <? val (l ++ [t])))) ->
  length low = length den -> digs low -> 0 <= top <= lim -> 0 <= q <= lim ->
  val (low ++ [top]) = q * val den ->
  W < (q + 1) * val den -> (q - 2) * val den <= W ->
  total
    (big <- test (low ++ [top]) ;;
     if big : bool then
       '(q, _) <- d_dec D q ;;
       qden <- sub_ignore D (low ++ [top]) den ;;
       big <- test qden ;;
       if big : bool then
         '(q, _) <- d_dec D q ;;
         qden <- sub_ignore D qden den ;;
         Ret (q, qden)
       else Ret (q, qden)
     else Ret (q, low ++ [top]))
    (fun '(q', qden) => q' = W / val den /\ length qden = S (length den) /\ digs qden
                        /\ val qden = q' * val den).
Proof.
  intros Dd Hden HW HQ Ht Ll Dl Htop Hq HV HU HLo.
  assert (HW0 : 0 <= W) by lia.
  pose proof (corrected q W (val den) Hden HW0 HU HLo) as HC.
  (* a product not above [W] fits *)
  assert (Hfit : forall l t, length l = length den -> digs l -> 0 <= t -> val (l ++ [t]) <= W ->
                   length (l ++ [t]) = S (length den) /\ digs (l ++ [t])).
  { intros l t L1 L2 L3 L4. split; [len|]. apply below_app. split; [exact L2|].
    apply below_cons. split; [|apply below_nil]. split; [exact L3|].
    rewrite value_app, L1 in L4. cbn [value] in L4. rewrite pw_S in HW.
    pose proof (value_nonneg B HB l L2). pose proof (pw_pos B (length den) HB).
    apply Z.mul_lt_mono_pos_l with (p (length den)); lia. }
  tstep Ht; auto. intros b ->. rewrite HV.
  destruct (Z.ltb_spec W (q * val den)) as [H1|H1].
  - destruct (Z.leb_spec (q * val den) W); [lia|].
    assert (Hq1 : 1 <= q) by (apply pos_factor with (val den) W; assumption).
    tstep (dv_dec _ _ _ DV); [lia|]. intros [q1 u] (-> & _). clear u.
    tstep sub_ignore_wide; auto.
    { rewrite HV. assert (1 * val den <= q * val den) by (apply Z.mul_le_mono_nonneg_r; lia). lia. }
    intros r (low1 & top1 & -> & L1 & D1 & T1 & V1). rewrite HV in V1.
    assert (V1' : val (low1 ++ [top1]) = (q - 1) * val den) by lia. clear V1.
    tstep Ht; auto. intros b ->. rewrite V1'.
    destruct (Z.ltb_spec W ((q - 1) * val den)) as [H2|H2].
    + destruct (Z.leb_spec ((q - 1) * val den) W); [lia|].
      assert (Hq2 : 1 <= q - 1) by (apply pos_factor with (val den) W; assumption).
      tstep (dv_dec _ _ _ DV); [lia|]. intros [q2 u] (-> & _). clear u.
      tstep sub_ignore_wide; auto.
      { rewrite V1'. assert (1 * val den <= (q - 1) * val den) by (apply Z.mul_le_mono_nonneg_r; lia). lia. }
      intros r (low2 & top2 & -> & L2 & D2 & T2 & V2). rewrite V1' in V2.
      ret. destruct (Hfit low2 top2) as [F1 F2]; auto; try lia. conj; auto; lia.
    + destruct (Z.leb_spec ((q - 1) * val den) W); [|lia].
      ret. destruct (Hfit low1 top1) as [F1 F2]; auto; try lia.
  - destruct (Z.leb_spec (q * val den) W); [|lia].
    ret. destruct (Hfit low top) as [F1 F2]; auto; try lia.
Qed.

(** one quotient digit; [rest] is zero because the partial remainder is below
    the divisor *)
Lemma div_long_step_ok iq num den quot qden : let n := length den in
  (1 <= n)%nat -> digs num -> digs den -> digs quot -> digs qden -> length qden = S n ->
  (iq < length quot)%nat -> (iq + n < length num)%nat -> B <= 2 * nth (n - 1) den 0 ->
  val (skipn (S iq) num) < val den ->
  val (skipn (S iq) num) / p (n - 1) < nth (n - 1) den 0 + sl ->
  let W := val (skipn iq num) in
  total (div_long_step D iq num den quot qden) (fun '(num', quot', qden') =>
    length num' = length num /\ digs num' /\ firstn iq num' = firstn iq num
    /\ val (skipn iq num') = W mod val den
    /\ quot' = firstn iq quot ++ (W / val den) :: skipn (S iq) quot
    /\ 0 <= W / val den < B
    /\ digs qden' /\ length qden' = S n).
Proof.
  intros n Hn Dn Dd Dq Dqd Lqd Hiq Hnum Hm HR HG W.
  destruct (cut_last den) as (dl & m & Ed & Ldl); [assumption|]. fold n in Ldl.
  assert (Em : nth (n - 1) den 0 = m).
  { rewrite Ed, app_nth2, Ldl, Nat.sub_diag by lia. reflexivity. }
  rewrite Em in *.
  destruct (cut_at iq num) as (pre & tail & En & Lpre); [lia|].
  destruct (cut_at (n + 1) tail) as (w & rest & Et & Lw); [rewrite En in Hnum; len|].
  destruct (cut_last w) as (w1 & c & Ew & Lw1); [lia|].
  destruct (cut_last w1) as (wl & a & Ew1 & Lwl); [lia|].
  subst w1.
  (* digits *)
  assert (Dparts : digs pre /\ digs wl /\ 0 <= a < B /\ 0 <= c < B /\ digs rest).
  { rewrite En, Et, Ew in Dn. repeat rewrite below_app in Dn. repeat rewrite below_cons in Dn.
    tauto. }
  destruct Dparts as (Dpre & Dwl & Ha & Hc & Drest).
  assert (Ddl : digs dl /\ 0 <= m < B).
  { rewrite Ed in Dd. apply below_app in Dd. rewrite below_cons in Dd. tauto. }
  destruct Ddl as (Ddl & Hmb).
  pose proof (pw_pos B (n - 1) HB) as Hp1. pose proof (pw_pos B n HB) as Hpn.
  assert (Epn : p n = B * p (n - 1)) by (rewrite <- pw_S; f_equal; lia).
  pose proof (value_bound B HB dl Ddl) as Bdl. rewrite Ldl in Bdl.
  pose proof (value_bound B HB wl Dwl) as Bwl. replace (length wl) with (n - 1)%nat in Bwl by lia.
  assert (Vd : val den = m * p (n - 1) + val dl).
  { rewrite Ed, value_app, Ldl. cbn [value]. lia. }
  assert (Hden : 0 < val den) by (rewrite Vd; assert (0 < m * p (n - 1)) by (apply Z.mul_pos_pos; lia); lia).
  assert (Vw : val w = (a + B * c) * p (n - 1) + val wl).
  { rewrite Ew, <- app_assoc, value_app. replace (length wl) with (n - 1)%nat by lia.
    cbn [app value]. lia. }
  assert (Ewt : skipn iq num = tail) by (rewrite En; apply skipn_exact; assumption).
  assert (Dtail : digs tail) by (rewrite <- Ewt; apply below_skipn; assumption).
  destruct (cut_cons tail) as (x & tl & Etl); [rewrite Et; len|].
  assert (ER : skipn (S iq) num = tl).
  { change (S iq) with (1 + iq)%nat. rewrite <- skipn_skipn, Ewt, Etl. reflexivity. }
  rewrite ER in *.
  assert (HW : W = x + B * val tl) by (unfold W; rewrite Ewt, Etl; reflexivity).
  assert (Hx : 0 <= x < B /\ digs tl) by (rewrite Etl in Dtail; apply below_cons in Dtail; exact Dtail).
  destruct Hx as [Hx Dtl].
  pose proof (value_nonneg B HB tl Dtl) as Btl.
  pose proof (value_bound B HB den Dd) as Bden. fold n in Bden.
  assert (HWb : 0 <= W < B * val den).
  { rewrite HW. assert (B * (val tl + 1) <= B * val den) by (apply Z.mul_le_mono_nonneg_l; lia).
    assert (0 <= B * val tl) by (apply Z.mul_nonneg_nonneg; lia). lia. }
  assert (HWp : W < p (S n)).
  { rewrite pw_S. assert (B * val den <= B * p n) by (apply Z.mul_le_mono_nonneg_l; lia). lia. }
  assert (Vrest : W = val w + p (S n) * val rest).
  { unfold W. rewrite Ewt, Et, value_app. replace (length w) with (S n) by lia. reflexivity. }
  assert (Dw : digs w) by (rewrite Ew, <- app_assoc; apply below_app; split; [exact Dwl|];
    repeat (apply below_cons; split; [assumption|]); apply below_nil).
  assert (Hrest : val rest = 0).
  { pose proof (value_nonneg B HB rest Drest). pose proof (value_nonneg B HB w Dw).
    pose proof (pw_pos B (S n) HB).
    destruct (Z.le_gt_cases 1 (val rest)); [|lia].
    assert (p (S n) * 1 <= p (S n) * val rest) by (apply Z.mul_le_mono_nonneg_l; lia). lia. }
  assert (HWw : W = val w) by (rewrite Hrest in Vrest; lia).
  assert (HQ : 0 <= W / val den < B).
  { split; [apply Z.div_pos; lia|apply Z.div_lt_upper_bound; lia]. }
  assert (Hdm := div_mod_eq W (val den) Hden).
  assert (Hcm : c < m + sl).
  { replace c with (val tl / p (n - 1)); [exact HG|].
    assert (val tl / p (n - 1) = W / p n) as ->.
    { rewrite Epn, <- Z.div_div by lia. f_equal. rewrite HW.
      apply Z.div_unique with x; [left|]; lia. }
    symmetry. apply Z.div_unique with (a * p (n - 1) + val wl).
    - left. rewrite Epn. assert (0 <= a * p (n - 1)) by (apply Z.mul_nonneg_nonneg; lia).
      assert ((a + 1) * p (n - 1) <= B * p (n - 1)) by (apply Z.mul_le_mono_nonneg_r; lia). lia.
    - rewrite HWw, Vw, Epn. ring. }
  (* run *)
  unfold div_long_step. fold n.
  rewrite Ed at 1. rewrite get_app by exact Ldl. cbn [bind].
  assert (En1 : num = (pre ++ wl) ++ a :: c :: rest).
  { rewrite En, Et, Ew, <- !app_assoc. reflexivity. }
  assert (En2 : num = (pre ++ wl ++ [a]) ++ c :: rest).
  { rewrite En, Et, Ew, <- !app_assoc. reflexivity. }
  rewrite En1 at 1. rewrite get_app by len. cbn [bind].
  rewrite En2 at 1. rewrite get_app by len. cbn [bind].
  tstep (dv_div _ _ _ DV); [exact Ha|lia|exact Hm|lia|]. intros [q r] (Hq & Hr & Eqr).
  destruct (estimate B (p (n - 1)) m (val dl) (a + B * c) (val wl) q r W (val den))
    as [HU HL]; auto; try lia.
  assert (Hset : forall v, set quot iq v = Ret (firstn iq quot ++ v :: skipn (S iq) quot))
    by (intros; apply set_ok; assumption).
  destruct (Z.eqb_spec q 0) as [Eq0|Hq0].
  - cbn [bind]. rewrite Hset. ret. subst q.
    assert (W < val den) by lia.
    rewrite (Z.div_small W), (Z.mod_small W) by lia. conj; auto; lia.
  - assert (Hin : total
      (qden <- mul_digit_into D den q qden ;;
       w <- sub_slice num iq (iq + n + 1) ;;
       '(q, qden) <-
         (if num_lt w qden then
            '(q, _) <- d_dec D q ;;
            qden <- sub_ignore D qden den ;;
            if num_lt w qden then
              '(q, _) <- d_dec D q ;;
              qden <- sub_ignore D qden den ;;
              Ret (q, qden)
            else Ret (q, qden)
          else Ret (q, qden)) ;;
       '(num, _) <- with_slice num iq (iq + n + 1)
                      (fun s => s <- sub_ignore D s qden ;; Ret (s, tt)) ;;
       Ret (num, qden, q))
      (fun '(num', qden', q') => q' = W / val den /\ digs qden' /\ length qden' = S n
         /\ exists w', num' = pre ++ w' ++ rest /\ length w' = length w /\ digs w'
            /\ val w' = W mod val den)).
    { tstep mul_digit_into_wide; [exact Dd|exact Hq|exact Lqd|].
      intros r0 (low & top & -> & Llow & Dlow & Htop & Vlow).
      assert (Hsl' : firstn (iq + n + 1 - iq) (skipn iq num) = w).
      { rewrite Ewt, Et. apply firstn_exact. lia. }
      rewrite sub_slice_ok by lia. rewrite Hsl'. cbn [bind].
      eapply total_bind.
      { apply (correct_ok (fun qden => Ret (num_lt w qden)) den q low top W); auto; try (fold n; lia).
        intros l t Ll Dl Ht. ret. rewrite Ew. rewrite (num_lt_wide B HB); auto; [|len|].
        - rewrite <- Ew, <- HWw. reflexivity.
        - apply below_app. split; [exact Dwl|]. apply below_cons. split; [lia|apply below_nil]. }
      intros [q' qd'] (-> & Lqd' & Dqd' & Vqd').
      eapply step_slice; [lia|lia| |].
      { rewrite Hsl'. unfold sub_ignore. rewrite bind_assoc.
        tstep (sub_assign_big_ok B D OK); [exact Dw|exact Dqd'|].
        intros [w' res] (Lw' & Dw' & Hres). cbn [bind]. ret.
        instantiate (1 := fun '(w', _) => length w' = length w /\ digs w' /\ val w' = W mod val den).
        cbv beta iota. conj; auto. destruct res as [k|e].
        - destruct Hres as (_ & V & _). lia.
        - destruct Hres as (_ & [H1|H1] & _); [lia|]. exfalso. lia. }
      intros w' [] (Lw' & Dw' & Vw'). ret. conj; auto.
      exists w'. conj; auto. rewrite En at 1. rewrite firstn_exact by exact Lpre. do 2 f_equal.
      rewrite En, Et. rewrite app_assoc. apply skipn_exact. len. }
    tstep Hin. clear Hin. intros [[num' qd'] q'] (-> & Dqd' & Lqd' & w' & -> & Lw' & Dw' & Vw').
    rewrite Hset. cbn [bind]. ret. conj; auto; try lia.
    + rewrite En, Et. len.
    + repeat (apply below_app; split; auto).
    + rewrite firstn_exact by exact Lpre. rewrite En, firstn_exact by exact Lpre. reflexivity.
    + rewrite skipn_exact by exact Lpre. rewrite value_app, Hrest. lia.
Qed.

(** Taking a multiple of the divisor off the top of the numerator does not
    change later partial remainders. *)
Lemma guard_shift V V' k i d z : (i <= k)%nat -> V = V' + p k * (z * d) ->
  (V / p i) mod d = (V' / p i) mod d.
Proof.
  intros Hi ->. pose proof (pw_pos B i HB) as Hp.
  rewrite (pw_sub B k i HB Hi).
  replace (V' + p i * p (k - i) * (z * d)) with (V' + (p (k - i) * z * d) * p i) by ring.
  rewrite Z.div_add by lia. apply Z_mod_plus_full.
Qed.

Lemma value_div l i : digs l -> (i <= length l)%nat -> val l / p i = val (skipn i l).
Proof.
  intros Dl Hi. rewrite (value_split B i l Hi).
  pose proof (value_bound B HB _ (below_firstn B i l Dl)) as Hb.
  rewrite firstn_length_le in Hb by exact Hi.
  symmetry. apply Z.div_unique with (val (firstn i l)); [left|]; lia.
Qed.

Lemma div_long_loop_ok k num den quot qden : let n := length den in
  (1 <= n)%nat -> digs num -> digs den -> digs quot -> digs qden -> length qden = S n ->
  (k <= length quot)%nat -> (k + n <= length num)%nat -> B <= 2 * nth (n - 1) den 0 ->
  val (skipn k num) < val den ->
  (forall i, (1 <= i <= k)%nat ->
     ((val num / p i) mod val den) / p (n - 1) < nth (n - 1) den 0 + sl) ->
  total (div_long_loop D k num den quot qden) (fun '(num', quot', qden') =>
    length num' = length num /\ digs num' /\ val num' = val num mod val den
    /\ length quot' = length quot /\ digs quot' /\ skipn k quot' = skipn k quot
    /\ val (firstn k quot') = val num / val den
    /\ digs qden' /\ length qden' = S n).
Proof.
  intros n Hn. revert num quot qden.
  induction k as [|k IH]; intros num quot qden Dn Dd Dq Dqd Lqd Hk Hnum Hm HR HG;
    cbn [div_long_loop].
  - ret. cbn [skipn firstn value] in *. pose proof (value_nonneg B HB num Dn).
    rewrite Z.div_small, Z.mod_small by lia. conj; auto.
  - assert (Hden : 0 < val den) by (pose proof (value_nonneg B HB _ (below_skipn B (S k) num Dn)); lia).
    tstep div_long_step_ok; auto; try (fold n; lia).
    { fold n. specialize (HG (S k) ltac:(lia)). rewrite value_div in HG by (auto; lia).
      pose proof (value_nonneg B HB _ (below_skipn B (S k) num Dn)).
      rewrite Z.mod_small in HG by lia. exact HG. }
    intros [[num1 quot1] qden1] (L1 & D1 & F1 & V1 & Q1 & HQ & Dqd1 & Lqd1).
    set (W := val (skipn k num)) in *.
    assert (Hdm := div_mod_eq W (val den) Hden).
    assert (VN : val num = val num1 + p k * (W / val den * val den)).
    { rewrite (value_split B k num), (value_split B k num1), F1, V1 by lia. fold W.
      replace W with (val den * (W / val den) + W mod val den) at 1 by lia. ring. }
    assert (Lq1 : length quot1 = length quot) by (rewrite Q1; len).
    assert (Lf : length (firstn k quot) = k) by len.
    eapply total_post; [apply IH; auto; try lia|].
    { rewrite Q1. apply below_app. split; [apply below_firstn; exact Dq|].
      apply below_cons. split; [exact HQ|apply below_skipn; exact Dq]. }
    { intros i Hi. rewrite <- (guard_shift (val num) (val num1) k i (val den) (W / val den)) by (lia || exact VN).
      apply HG. lia. }
    intros [[num2 quot2] qden2] (L2 & D2 & V2 & LQ2 & DQ2 & SQ2 & VQ2 & Dqd2 & Lqd2).
    assert (Sk : skipn k quot1 = (W / val den) :: skipn (S k) quot).
    { rewrite Q1. apply skipn_exact. exact Lf. }
    rewrite Sk in SQ2.
    conj; auto; try lia.
    + rewrite V2, VN. rewrite Z.mul_assoc, Z_mod_plus_full. reflexivity.
    + change (S k) with (1 + k)%nat. rewrite <- !skipn_skipn. rewrite SQ2.
      rewrite skipn_one. rewrite skipn_skipn. reflexivity.
    + replace (S k) with (k + 1)%nat by lia. rewrite firstn_plus, SQ2, firstn_one.
      rewrite value_app. rewrite firstn_length_le by lia. cbn [value]. rewrite VQ2, VN.
      rewrite Z.mul_assoc, Z.div_add by lia. lia.
Qed.

Lemma first_too_big_ok num den n msd l t : length den = n -> (n <= length num)%nat -> digs num ->
  length l = n -> digs l ->
  total (first_too_big num den (l ++ [t]) msd)
    (fun b => b = (val (skipn (length num - n) num) + p n * msd <? val (l ++ [t]))).
Proof.
  intros Ld Hn Dn Ll Dl. unfold first_too_big. rewrite Ld.
  rewrite get_app by exact Ll. cbn [bind].
  assert (Ls : length (skipn (length num - n) num) = n) by len.
  pose proof (value_bound B HB l Dl) as Bl. rewrite Ll in Bl.
  pose proof (value_bound B HB _ (below_skipn B (length num - n) num Dn)) as Bs. rewrite Ls in Bs.
  rewrite value_app, Ll. cbn [value]. rewrite Z.mul_0_r, Z.add_0_r.
  destruct (Z.ltb_spec msd t).
  - ret. symmetry. apply Z.ltb_lt.
    assert (p n * (msd + 1) <= p n * t) by (apply Z.mul_le_mono_nonneg_l; lia). lia.
  - destruct (Z.eqb_spec t msd) as [->|Hne].
    + rewrite suffix_ok by lia. cbn [bind]. rewrite prefix_ok by len. cbn [bind].
      rewrite firstn_exact by exact Ll. ret.
      rewrite (num_lt_same B HB) by (auto using below_skipn; len).
      destruct (Z.ltb_spec (val (skipn (length num - n) num)) (val l));
      destruct (Z.ltb_spec (val (skipn (length num - n) num) + p n * msd) (val l + p n * msd));
        try reflexivity; lia.
    + ret. symmetry. apply Z.ltb_ge.
      assert (p n * (t + 1) <= p n * msd) by (apply Z.mul_le_mono_nonneg_l; lia). lia.
Qed.

(** The first digit.  The quotient buffer may be one digit short; then the
    code may panic although the digit is zero. *)
Lemma div_long_first_ok num msd den quot qden : let n := length den in
  let k := (length num - n)%nat in
  (1 <= n)%nat -> (n <= length num)%nat -> digs num -> digs den -> digs quot -> digs qden ->
  length qden = S n -> (k <= length quot)%nat -> B <= 2 * nth (n - 1) den 0 ->
  0 <= msd < nth (n - 1) den 0 ->
  let W := val (skipn k num) + p n * msd in
  spec (fun w => w = PIndex /\ length quot = k /\ nth (n - 1) den 0 <= W / p (n - 1))
    (div_long_first D num msd den quot qden) (fun '(num', quot', qden', nq) =>
    length num' = length num /\ digs num' /\ firstn k num' = firstn k num
    /\ val (skipn k num') = W mod val den
    /\ length quot' = length quot /\ digs quot' /\ firstn k quot' = firstn k quot
    /\ (k <= nq <= S k)%nat /\ (nq <= length quot')%nat
    /\ val (skipn k (firstn nq quot')) = W / val den
    /\ 0 <= W / val den < B
    /\ digs qden' /\ length qden' = S n /\ skipn nq quot' = skipn nq quot).
Proof.
  intros n k Hn Hnum Dn Dd Dq Dqd Lqd Hk Hm Hmsd W.
  destruct (cut_last den) as (dl & m & Ed & Ldl); [assumption|]. fold n in Ldl.
  assert (Em : nth (n - 1) den 0 = m).
  { rewrite Ed, app_nth2, Ldl, Nat.sub_diag by lia. reflexivity. }
  rewrite Em in *.
  destruct (cut_at k num) as (pre & tail & En & Lpre); [lia|].
  assert (Lt : length tail = n) by (apply (f_equal (@length Z)) in En; len).
  destruct (cut_last tail) as (wl & a & Et & Lwl); [lia|]. rewrite Lt in Lwl.
  assert (Dparts : digs pre /\ digs wl /\ 0 <= a < B).
  { rewrite En, Et in Dn. repeat rewrite below_app in Dn. repeat rewrite below_cons in Dn. tauto. }
  destruct Dparts as (Dpre & Dwl & Ha).
  assert (Ddl : digs dl /\ 0 <= m < B).
  { rewrite Ed in Dd. apply below_app in Dd. rewrite below_cons in Dd. tauto. }
  destruct Ddl as (Ddl & Hmb).
  pose proof (pw_pos B (n - 1) HB) as Hp1. pose proof (pw_pos B n HB) as Hpn.
  assert (Epn : p n = B * p (n - 1)) by (rewrite <- pw_S; f_equal; lia).
  pose proof (value_bound B HB dl Ddl) as Bdl. rewrite Ldl in Bdl.
  pose proof (value_bound B HB wl Dwl) as Bwl. rewrite Lwl in Bwl.
  assert (Vd : val den = m * p (n - 1) + val dl).
  { rewrite Ed, value_app, Ldl. cbn [value]. lia. }
  assert (Hden : 0 < val den) by (rewrite Vd; assert (0 < m * p (n - 1)) by (apply Z.mul_pos_pos; lia); lia).
  assert (Ewt : skipn k num = tail) by (rewrite En; apply skipn_exact; assumption).
  assert (Dtail : digs tail) by (rewrite <- Ewt; apply below_skipn; assumption).
  pose proof (value_bound B HB tail Dtail) as Btail. rewrite Lt in Btail.
  assert (Vt : val tail = a * p (n - 1) + val wl).
  { rewrite Et, value_app, Lwl. cbn [value]. lia. }
  assert (HW : W = val tail + p n * msd) by (unfold W; rewrite Ewt; reflexivity).
  clearbody W.
  assert (Hpm : 0 <= p n * msd) by (apply Z.mul_nonneg_nonneg; lia).
  assert (HWm : W < m * p n).
  { assert (p n * (msd + 1) <= p n * m) by (apply Z.mul_le_mono_nonneg_l; lia). lia. }
  assert (HWb : 0 <= W < B * val den).
  { split; [lia|]. rewrite Vd. rewrite Epn in HWm.
    assert (0 <= B * val dl) by (apply Z.mul_nonneg_nonneg; lia). lia. }
  pose proof (value_bound B HB den Dd) as Bden. fold n in Bden.
  assert (HWp : W < p (S n)).
  { rewrite pw_S. assert (m * p n <= B * p n) by (apply Z.mul_le_mono_nonneg_r; lia). lia. }
  assert (HQ : 0 <= W / val den < B).
  { split; [apply Z.div_pos; lia|apply Z.div_lt_upper_bound; lia]. }
  assert (Hdm := div_mod_eq W (val den) Hden).
  unfold div_long_first. fold n.
  rewrite Ed at 1. rewrite get_app by exact Ldl. cbn [bind].
  rewrite En at 1. rewrite Et at 1. rewrite app_assoc. rewrite get_app by len. cbn [bind].
  tstep (dv_div _ _ _ DV); [exact Ha|lia|exact Hm|lia|]. intros [q r] (Hq & Hr & Eqr).
  destruct (estimate B (p (n - 1)) m (val dl) (a + B * msd) (val wl) q r W (val den))
    as [HU HL]; auto; try lia.
  destruct (Z.eqb_spec q 0) as [Eq0|Hq0].
  - ret. subst q. rewrite (Z.div_small W), (Z.mod_small W) by lia. fold k.
    replace (k + 1 - 1)%nat with k by lia.
    assert (msd = 0).
    { destruct (Z.le_gt_cases 1 msd); [|lia].
      assert (p n * 1 <= p n * msd) by (apply Z.mul_le_mono_nonneg_l; lia).
      assert (W < val den) by lia. lia. }
    conj; auto; try lia.
    + rewrite Ewt. lia.
    + rewrite skipn_all2 by len. reflexivity.
  - tstep mul_digit_into_wide; [exact Dd|exact Hq|exact Lqd|].
    intros r0 (low & top & -> & Llow & Dlow & Htop & Vlow).
    rewrite <- bind_assoc.
    eapply total_bind.
    { apply (correct_ok (fun qd => first_too_big num den qd msd) den q low top W); auto;
        try (fold n; lia).
      intros l t Ll Dl Ht. eapply total_post; [apply (first_too_big_ok num den n msd l t); auto|].
      intros b ->. fold k. rewrite Ewt, <- HW. reflexivity. }
    intros [q' qd'] (-> & Lqd' & Dqd' & Vqd'). fold n in Lqd'.
    rewrite prefix_ok by lia. cbn [bind].
    assert (Lp : length (firstn n qd') = n) by len.
    fold k. eapply total_bind.
    { eapply (spec_with_suffix never) with
        (R := fun '(s, _) => length s = n /\ digs s /\ val s = W mod val den)
        (Q := fun '(num', _) => exists s, num' = pre ++ s /\ length s = n /\ digs s
                                 /\ val s = W mod val den); [lia| |].
      - rewrite Ewt. unfold sub_ignore. rewrite bind_assoc.
        tstep (sub_assign_big_ok B D OK); [exact Dtail|apply below_firstn; exact Dqd'|].
        intros [s res] (Ls & Ds & Hres). cbn [bind]. ret. conj; [lia|exact Ds|].
        pose proof (value_bound B HB s Ds) as Bs. rewrite Ls, Lt in Bs.
        pose proof (value_split B n qd' ltac:(lia)) as Vs.
        assert (EQ : exists j, val s = val tail - val (firstn n qd') + j * p n).
        { destruct res as [x|e].
          - destruct Hres as (_ & V & _). exists 0. lia.
          - destruct Hres as (_ & _ & V & _). exists 1. rewrite V, Lt by lia. lia. }
        destruct EQ as [j EQ].
        apply same_class with (j - msd + val (skipn n qd')) (p n); lia.
      - intros s a' (Ls & Ds & Vs). exists s. rewrite En, firstn_exact by exact Lpre. conj; auto. }
    intros [num' []] (s & -> & Ls & Ds & Vs).
    unfold set. replace (k + 1 - 1)%nat with k by lia.
    destruct (Nat.ltb_spec k (length quot)) as [Hlt|Hge]; cbn [bind].
    2:{ split; [reflexivity|split; [lia|]]. apply Z.div_le_lower_bound; [exact Hp1|].
        assert (Hx : m <= a + B * msd).
        { assert (1 * m <= q * m) by (apply Z.mul_le_mono_nonneg_r; lia). lia. }
        assert (p (n - 1) * m <= p (n - 1) * (a + B * msd)) by (apply Z.mul_le_mono_nonneg_l; lia).
        rewrite HW, Vt, Epn. lia. }
    ret. assert (Lfq : length (firstn k quot) = k) by len.
    conj; auto; try lia.
    + rewrite En. len.
    + apply below_app. auto.
    + rewrite En, !firstn_exact by exact Lpre. reflexivity.
    + rewrite skipn_exact by exact Lpre. exact Vs.
    + len.
    + apply below_app. split; [apply below_firstn; exact Dq|].
      apply below_cons. split; [exact HQ|apply below_skipn; exact Dq].
    + rewrite firstn_exact by exact Lfq. reflexivity.
    + len.
    + rewrite firstn_app_ge by lia. rewrite skipn_exact by exact Lfq.
      rewrite Lfq. replace (k + 1 - k)%nat with 1%nat by lia. rewrite firstn_one. cbn [value]. lia.
    + rewrite skipn_app, skipn_all2 by len. rewrite Lfq. replace (k + 1 - k)%nat with 1%nat by lia.
      replace (k + 1)%nat with (S k) by lia. reflexivity.
Qed.

Lemma max_shift_zero m : 0 < m < B -> B <= 2 * m -> total (d_max_shift D m) (fun s => s = 0).
Proof.
  intros Hm H2. eapply total_post; [apply (ok_max_shift _ _ OK); exact Hm|].
  intros s (Hs & Hs1 & _). destruct (Z.eq_dec s 0); [assumption|].
  assert (2 ^ 1 <= 2 ^ s) by (apply Z.pow_le_mono_r; lia).
  assert (m * 2 <= m * 2 ^ s) by (apply Z.mul_le_mono_nonneg_l; lia). lia.
Qed.

(** The scaled dividend starts with a digit at least the leading one of the divisor. *)
Definition opens (x d top : Z) (n k : nat) : Prop := exists s, is_shift B top s
  /\ (d * 2 ^ s) / p (n - 1) <= (x * 2 ^ s) / p (k + (n - 1)).

Definition div_post (num quot work : digits) (k : nat) (q r : Z)
    (x : (digits * digits * digits) * (nat * nat)) : Prop :=
  let '((num', quot', work'), (nq, nr)) := x in
  length num' = length num /\ digs num' /\ val num' = r
  /\ length quot' = length quot /\ digs quot' /\ length work' = length work /\ digs work'
  /\ (nq <= S k)%nat /\ (nq <= length quot')%nat /\ val (firstn nq quot') = q
  /\ normal (firstn nq quot')
  /\ (nr <= length num')%nat /\ val (firstn nr num') = r /\ normal (firstn nr num')
  /\ (val quot = 0 -> val quot' = q).

Lemma div_big_long_scaled_ok num msd den quot work : let n := length den in
  let k := (length num - n)%nat in
  (1 <= n)%nat -> (n <= length num)%nat -> digs num -> digs den -> digs quot -> digs work ->
  (S n <= length work)%nat -> (k <= length quot)%nat -> B <= 2 * nth (n - 1) den 0 ->
  0 <= msd < nth (n - 1) den 0 ->
  let N := val num + p (length num) * msd in
  (forall i, (1 <= i <= k)%nat ->
     ((N / p i) mod val den) / p (n - 1) < nth (n - 1) den 0 + sl) ->
  spec (fun w => w = PIndex /\ length quot = k /\ nth (n - 1) den 0 <= N / p (k + (n - 1)))
    (div_big_long_scaled D num msd den quot work)
    (div_post num quot work k (N / val den) (N mod val den)).
Proof.
  intros n k Hn Hnum Dn Dd Dq Dw Lw Hk Hm Hmsd N HG.
  assert (Hmb : 0 <= nth (n - 1) den 0 < B).
  { apply (below_nth B den (n - 1)); [exact Dd|]. apply nth_error_nth'. fold n. lia. }
  unfold div_big_long_scaled. fold n k.
  rewrite get_ok by (fold n; lia). cbn [bind].
  assert (Hs : total (if d_dbg D then d_max_shift D (nth (n - 1) den 0) else Ret 0) (fun s => s = 0)).
  { destruct (d_dbg D); [apply max_shift_zero; lia|ret; reflexivity]. }
  tstep Hs. intros s ->. clear Hs.
  tstep total_debug_assert; [reflexivity|]. intros _ _.
  rewrite prefix_ok by lia. cbn [bind].
  replace (n + 1)%nat with (S n) by lia.
  assert (EN : N = val (firstn k num) + p k * (val (skipn k num) + p n * msd)).
  { unfold N. rewrite (value_split B k num) by lia.
    rewrite (pw_sub B (length num) k HB) by lia. replace (length num - k)%nat with n by lia. ring. }
  eapply spec_bind.
  { eapply spec_weaken.
    - apply div_long_first_ok; auto; try (fold n; try fold k; lia);
        [apply below_firstn; exact Dw|fold n; len].
    - fold n k. intros w (-> & H1 & H2). conj; auto.
      rewrite pw_add. rewrite <- Z.div_div by (pose proof (pw_pos B k HB); pose proof (pw_pos B (n - 1) HB); lia).
      pose proof (value_bound B HB _ (below_firstn B k num Dn)) as Hf. rewrite firstn_length_le in Hf by lia.
      replace (N / p k) with (val (skipn k num) + p n * msd); [exact H2|].
      rewrite EN, (Z.mul_comm (p k)), Z.div_add, Z.div_small by lia. reflexivity.
    - intros a Ha. exact Ha. }
  fold n k. set (W := val (skipn k num) + p n * msd).
  intros [[[num1 quot1] qden1] nq] (L1 & D1 & F1 & V1 & LQ1 & DQ1 & FQ1 & Hnq & Hnq' & VQ1 & HQ & Dqd1 & Lqd1 & SQ1).
  assert (Hden : 0 < val den).
  { assert (1 <= nth (n - 1) den 0) by lia.
    destruct (cut_last den) as (dl & m & Ed & Ldl); [assumption|]. fold n in Ldl.
    rewrite Ed in *. rewrite app_nth2, Ldl, Nat.sub_diag in H by lia. cbn [nth] in H.
    apply below_app in Dd. destruct Dd as [Ddl _]. pose proof (value_nonneg B HB dl Ddl).
    rewrite value_app. cbn [value]. pose proof (pw_pos B (length dl) HB).
    assert (0 < p (length dl) * m) by (apply Z.mul_pos_pos; lia). lia. }
  assert (Hdm := div_mod_eq W (val den) Hden).
  fold W in EN.
  assert (VN : N = val num1 + p k * (W / val den * val den)).
  { rewrite EN, (value_split B k num1), F1, V1 by lia.
    replace W with (val den * (W / val den) + W mod val den) at 1 by lia. ring. }
  eapply total_bind.
  { apply div_long_loop_ok; auto; try (fold n; lia).
    intros i Hi. fold n.
    rewrite <- (guard_shift N (val num1) k i (val den) (W / val den)) by (lia || exact VN).
    apply HG. lia. }
  fold n.
  intros [[num2 quot2] qden2] (L2 & D2 & V2 & LQ2 & DQ2 & SQ2 & VQ2 & Dqd2 & Lqd2).
  assert (VNm : N mod val den = val num1 mod val den).
  { rewrite VN, Z.mul_assoc. apply Z_mod_plus_full. }
  assert (VNd : N / val den = val num1 / val den + p k * (W / val den)).
  { rewrite VN, Z.mul_assoc, Z.div_add by lia. reflexivity. }
  tstep (drop_val B); [lia|]. intros nq2 (Q1 & Q2 & Q3).
  tstep (drop_val B); [lia|]. intros nr (R1 & R2 & R3). ret.
  assert (Vnum2 : val (firstn n num2) = val num2).
  { pose proof (value_split B n num2 ltac:(lia)) as Vs.
    pose proof (value_bound B HB den Dd) as Bd. fold n in Bd.
    pose proof (Z.mod_pos_bound (val num1) (val den) Hden) as Hmb2. rewrite <- V2 in Hmb2.
    pose proof (value_nonneg B HB _ (below_firstn B n num2 D2)).
    pose proof (value_nonneg B HB _ (below_skipn B n num2 D2)).
    pose proof (pw_pos B n HB).
    destruct (Z.le_gt_cases 1 (val (skipn n num2))); [|assert (val (skipn n num2) = 0) as E0 by lia; rewrite E0 in Vs; lia].
    assert (p n * 1 <= p n * val (skipn n num2)) by (apply Z.mul_le_mono_nonneg_l; lia). lia. }
  assert (VQ : val (firstn nq quot2) = N / val den).
  { rewrite VNd. rewrite (value_split B k (firstn nq quot2)) by len.
    rewrite firstn_firstn, Nat.min_l by lia. rewrite VQ2. f_equal. f_equal.
    rewrite <- VQ1. f_equal. rewrite !skipn_firstn_comm, SQ2. reflexivity. }
  unfold div_post. conj; auto; try lia.
  - len.
  - apply below_app. split; [exact Dqd2|apply below_skipn; exact Dw].
  - intros Hz. rewrite (value_split B nq quot2), VQ by lia.
    assert (E2 : skipn nq quot2 = skipn nq quot).
    { rewrite <- SQ1. replace nq with ((nq - k) + k)%nat by lia.
      rewrite <- !skipn_skipn, SQ2. reflexivity. }
    rewrite E2.
    pose proof (value_split B nq quot ltac:(lia)) as Vq0. rewrite Hz in Vq0.
    pose proof (value_nonneg B HB _ (below_firstn B nq quot Dq)).
    pose proof (value_nonneg B HB _ (below_skipn B nq quot Dq)).
    pose proof (pw_pos B nq HB).
    assert (0 <= p nq * val (skipn nq quot)) by (apply Z.mul_nonneg_nonneg; lia). lia.
Qed.

Lemma div_big_long_ok num den quot work : let n := length den in
  let k := (length num - n)%nat in let top := nth (n - 1) den 0 in
  (3 <= n)%nat -> (n <= length num)%nat -> digs num -> digs den -> digs quot -> digs work ->
  (S n <= length work)%nat -> top <> 0 ->
  (k + 1 <= length quot \/ k <= length quot /\ num_lt (skipn k num) den = true)%nat ->
  divides_well B sl (val num) (val den) top n k ->
  spec (fun w => w = PIndex /\ length quot = k /\ opens (val num) (val den) top n k)
    (div_big_long D num den quot work)
    (div_post num quot work k (val num / val den) (val num mod val den)).
Proof.
  intros n k top Hn Hnum Dn Dd Dq Dw Lw Htop Hq HD.
  assert (Hmb : 0 <= top < B).
  { apply (below_nth B den (n - 1)); [exact Dd|]. apply nth_error_nth'. fold n. lia. }
  assert (Hden : 0 < val den).
  { destruct (cut_last den) as (dl & m & Ed & Ldl); [fold n; lia|]. fold n in Ldl.
    unfold top in *. rewrite Ed in *. rewrite app_nth2, Ldl, Nat.sub_diag in * by lia. cbn [nth] in *.
    apply below_app in Dd. destruct Dd as [Ddl _]. pose proof (value_nonneg B HB dl Ddl).
    rewrite value_app. cbn [value]. pose proof (pw_pos B (length dl) HB).
    assert (0 < p (length dl) * m) by (apply Z.mul_pos_pos; lia). lia. }
  unfold div_big_long. fold n k.
  tstep total_debug_assert; [apply Nat.ltb_lt; lia|]. intros _ _.
  tstep total_debug_assert; [apply Nat.leb_le; lia|]. intros _ _.
  tstep total_debug_assert.
  { destruct Hq as [Hq|[Hq ->]].
    - apply orb_true_intro. left. apply Nat.leb_le. lia.
    - apply orb_true_intro. right. rewrite andb_true_r. apply Nat.leb_le. lia. }
  intros _ _. tstep total_debug_work; [apply Nat.leb_le; unfold calc_div_long_work_size; lia|]. intros _ _.
  rewrite get_ok by (fold n; lia). cbn [bind]. fold top.
  tstep (ok_max_shift _ _ OK); [lia|]. intros s Hs.
  assert (HS : is_shift B top s) by exact Hs.
  destruct (HD s HS) as [HF2 HT]. clear HD.
  destruct (shift_bound B top s ltac:(lia) HS) as [Hs2 Hs3]. destruct Hs as [Hs0 Hs1].
  destruct (unshift (val num) (val den) s Hs0 Hden) as [U1 U2].
  set (N := val num * 2 ^ s) in *. set (E := val den * 2 ^ s) in *.
  assert (HE : 0 < E) by (unfold E; apply Z.mul_pos_pos; lia).
  destruct (Z.eqb_spec s 0) as [E0|Hne].
  - assert (EN : N = val num) by (unfold N; rewrite E0, Z.mul_1_r; reflexivity).
    assert (EE : E = val den) by (unfold E; rewrite E0, Z.mul_1_r; reflexivity).
    rewrite E0 in Hs1. change (2 ^ (0 + 1)) with 2 in Hs1.
    assert (Etop : val den / p (n - 1) = top).
    { rewrite value_div by (auto; fold n; lia). unfold top.
      rewrite (split_last den (n - 1)) at 1 by (fold n; lia). rewrite skipn_exact by len.
      cbn [value]. lia. }
    replace (val num) with (val num + p (length num) * 0) by lia.
    eapply spec_weaken; [apply div_big_long_scaled_ok; auto; try (fold n; try fold top; try fold k; lia)| |].
    2:{ fold n top k. rewrite Z.mul_0_r, Z.add_0_r. intros w (-> & H1 & H2). conj; auto.
        exists s. split; [exact HS|]. fold N E. rewrite EN, EE, Etop. exact H2. }
    2:{ intros a Ha. exact Ha. }
    intros i Hi. fold n top k in Hi |- *.
    rewrite Z.mul_0_r, Z.add_0_r, <- EN.
    rewrite <- Etop, <- EE. apply (guard_slack B HB sl N E n k i); auto. apply (dv_slack _ _ _ DV).
  - tstep (shl_within_ok B D OK); [exact Dd|lia|lia|]. intros [sden c] (Ls & Ds & Hc & Vs).
    fold n in Ls, Vs. fold E in Vs.
    assert (c = 0) as ->.
    { pose proof (value_nonneg B HB sden Ds).
      destruct (Z.le_gt_cases 1 c); [|lia].
      pose proof (pw_pos B n HB).
      assert (p n * 1 <= p n * c) by (apply Z.mul_le_mono_nonneg_l; lia). lia. }
    rewrite Z.mul_0_r, Z.add_0_r in Vs.
    tstep (shl_within_ok B D OK); [exact Dn|lia|lia|]. intros [snum msd] (Lsn & Dsn & Hmsd & Vsn).
    fold N in Vsn.
    rewrite prefix_ok by lia. cbn [bind].
    assert (Etop : E / p (n - 1) = nth (n - 1) sden 0).
    { rewrite <- Vs, value_div by (auto; lia).
      rewrite (split_last sden (n - 1)) at 1 by lia. rewrite skipn_exact by len.
      cbn [value]. lia. }
    (* the leading digit of the scaled divisor *)
    assert (Htop2 : top * 2 ^ s <= nth (n - 1) sden 0).
    { rewrite <- Etop. apply Z.div_le_lower_bound; [apply pw_pos; exact HB|].
      unfold E. rewrite (split_last den (n - 1)) by (fold n; lia). fold top.
      rewrite value_app. rewrite firstn_length_le by (fold n; lia). cbn [value].
      pose proof (value_nonneg B HB _ (below_firstn B (n - 1) den Dd)).
      assert (0 <= val (firstn (n - 1) den) * 2 ^ s) by (apply Z.mul_nonneg_nonneg; lia). lia. }
    assert (E2 : 2 ^ (s + 1) = 2 * 2 ^ s) by (rewrite Z.pow_add_r by lia; lia).
    rewrite E2 in Hs1.
    assert (Ek : (length snum - n)%nat = k) by (unfold k; lia).
    assert (HDS : spec (fun w => w = PIndex /\ length quot = k /\ opens (val num) (val den) top n k)
              (div_big_long_scaled D snum msd sden quot (firstn (n + 1) work))
              (div_post snum quot (firstn (n + 1) work) k (N / E) (N mod E))).
    { pose proof (div_big_long_scaled_ok snum msd sden quot (firstn (n + 1) work)) as X.
      cbv zeta in X. rewrite Ls, Ek, Lsn, Vsn, Vs in X.
      eapply spec_weaken; [apply X; clear X; auto; try lia| |].
      4:{ intros w (-> & H1 & H2). conj; auto. exists s. split; [exact HS|]. fold N E.
          rewrite Etop. exact H2. }
      4:{ intros a Ha. exact Ha. }
      - apply below_firstn; exact Dw.
      - len.
      - intros i Hi. rewrite <- Etop.
        apply (guard_slack B HB sl N E n k i); auto. apply (dv_slack _ _ _ DV). }
    sstep HDS. clear HDS.
    rewrite U1, U2.
    intros [[[num1 quot1] work1] [nq nr]]
      (L1 & D1 & V1 & LQ & DQ & LW & DW & N1 & N2 & VQ & NQ & N3 & VR & NR & QZ).
    apply total_spec. eapply step_prefix; [exact N3| |].
    { eapply total_post; [apply (shr_within_ok B D OK); [apply below_firstn; exact D1|lia|lia|lia]|].
      intros [r [nr' c]] (Lr & Dr & Hc' & Vr & Hn' & Vn' & Nn').
      instantiate (1 := fun '(r, (nr', _)) => length r = nr /\ digs r /\ (nr' <= nr)%nat
        /\ val r = val num mod val den /\ val (firstn nr' r) = val r /\ normal (firstn nr' r)).
      cbv beta iota. rewrite firstn_length_le in * by exact N3. conj; auto.
      rewrite VR, Z.mul_0_r, Z.add_0_r in Vr. apply exact_shift with (2 ^ s) c; assumption. }
    intros r [nr' c] (Lr & Dr & Hn' & Vr & Vn' & Nn'). ret.
    assert (Hrest : val (skipn nr num1) = 0).
    { pose proof (value_split B nr num1 N3) as Vsp. rewrite VR, V1 in Vsp.
      pose proof (pw_pos B nr HB).
      assert (p nr * val (skipn nr num1) = 0) as Ez by lia. apply Z.mul_eq_0 in Ez. lia. }
    unfold div_post. conj; auto; try lia.
    + len.
    + apply below_app. split; [exact Dr|apply below_skipn; exact D1].
    + rewrite value_app, Hrest, Vr. lia.
    + len.
    + apply below_app. split; [exact DW|apply below_skipn; exact Dw].
    + len.
    + rewrite firstn_app_le by lia. congruence.
    + rewrite firstn_app_le by lia. assumption.
Qed.
End DivLongProof.
