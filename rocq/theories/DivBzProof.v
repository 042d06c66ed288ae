(** * DivBzProof: the recursive division of src/ubig/div/bz.rs. *)
From Coq Require Import ZArith List Bool Lia.
From Verif Require Import Base Digit Slice Mul Div UBig Spec SpecDiv Hoare DigitOK ListLemmas SliceProof
  MulProof WorkSize BufProof KaratsubaProof MulTopProof UBigProof DivProof DivWide DivPairProof
  DivLongProof DivTopProof DivSize.
Import ListNotations.
Open Scope Z_scope.
Open Scope m_scope.

Section Bz.
Variables (B : Z) (D : digit) (sl : Z) (tot idx : bool).
Hypothesis OK : digit_ok B D.
Hypothesis DV : digit_div B D sl.
Notation val := (value B).
Notation digs := (below B).
Notation p n := (pw B n).
Let HB : 1 < B := SliceProof.HB B D OK.

(** Panics that may happen: those of multiplication, unless [tot], and an index out
    of range in the base case, if [idx]. *)
Definition oops (w : panic) : Prop := allowed tot w \/ (idx = true /\ w = PIndex).

(** [l] holds [v], and its first [n] digits are the normal form of [v] *)
Definition fits (l : digits) (n : nat) (v : Z) : Prop :=
  digs l /\ (n <= length l)%nat /\ val l = v /\ val (firstn n l) = v /\ normal (firstn n l).

Lemma fits_rest l n v : fits l n v -> val (skipn n l) = 0.
Proof.
  intros (Dl & Hn & V & Vf & _). pose proof (value_split B n l Hn) as E. rewrite V, Vf in E.
  pose proof (pw_pos B n HB). assert (p n * val (skipn n l) = 0) as E0 by lia.
  apply Z.mul_eq_0 in E0. lia.
Qed.

Lemma fits_drop l v : digs l -> val l = v ->
  total (drop_leading_zeros l (length l)) (fun n => fits l n v).
Proof.
  intros Dl V. eapply total_post; [apply (drop_val B); lia|]. intros n (H1 & H2 & H3).
  rewrite firstn_all in H2. unfold fits. conj; auto; congruence.
Qed.

Lemma dec_prefix_ok q n v : fits q n v -> 0 < v ->
  total (dec_prefix D q n) (fun '(q', n') => length q' = length q /\ fits q' n' (v - 1)).
Proof.
  intros F Hv. pose proof (fits_rest q n v F) as Hr. destruct F as (Dq & Hn & V & Vf & Nf).
  unfold dec_prefix. eapply spec_with_prefix; [exact Hn| |].
  - eapply spec_unwrap_with with (Q := fun '(r, m) => length r = n /\ digs r /\ val r = v - 1
      /\ (m <= n)%nat /\ val (firstn m r) = v - 1 /\ normal (firstn m r)).
    + apply (dec_assign_ok B D OK). apply below_firstn; exact Dq.
    + cbv beta iota. intros r m (L & Dr & E & Hm & Vm & _ & Nm). rewrite firstn_length_le in * by exact Hn.
      conj; auto; try lia.
    + cbv beta iota. intros r e (_ & _ & _ & E & _). lia.
  - intros r m (L & Dr & E & Hm & Vm & Nm). split; [len|]. unfold fits. conj.
    + apply below_app. split; [exact Dr|apply below_skipn; exact Dq].
    + len.
    + rewrite value_app, Hr. lia.
    + rewrite firstn_app_le by lia. exact Vm.
    + rewrite firstn_app_le by lia. exact Nm.
Qed.

Lemma top_half l : digs l -> (1 <= length l)%nat -> B <= 2 * nth (length l - 1) l 0 ->
  p (length l) <= 2 * val l < 2 * p (length l).
Proof.
  intros Dl Hl Ht. pose proof (value_bound B HB l Dl). split; [|lia].
  destruct (cut_last l Hl) as (a & x & E & La).
  rewrite E in Ht |- *. rewrite app_length, La in *. cbn [length] in *.
  rewrite app_nth2, La in Ht by lia. replace (length l - 1 + 1 - 1 - (length l - 1))%nat with 0%nat in Ht by lia.
  cbn [nth] in Ht. rewrite E in Dl. apply below_app in Dl. destruct Dl as [Da _].
  pose proof (value_nonneg B HB a Da). rewrite value_app, pw_add, pw_1, La. cbn [value].
  pose proof (pw_pos B (length l - 1) HB).
  assert (p (length l - 1) * B <= p (length l - 1) * (2 * x)) by (apply Z.mul_le_mono_nonneg_l; lia). lia.
Qed.

(** The debug assertion on the leading digit of the divisor *)
Lemma debug_top_ok den n : (1 <= n)%nat -> length den = n -> digs den -> B <= 2 * nth (n - 1) den 0 ->
  forall A (k : M A) P Q, spec P k Q ->
  spec P (top <- (if d_dbg D then get den (n - 1) else Ret 1) ;; debug_max_shift_zero D top ;;; k) Q.
Proof.
  intros Hn L Dd Ht A k P Q H. unfold debug_max_shift_zero. destruct (d_dbg D).
  - rewrite get_ok by lia. cbn [bind]. rewrite bind_assoc.
    assert (0 <= nth (n - 1) den 0 < B).
    { apply (below_nth B den (n - 1)); [exact Dd|]. apply nth_error_nth'. lia. }
    tstep (max_shift_zero B D OK); [lia|exact Ht|]. intros s ->.
    tstep total_debug_assert; [reflexivity|]. intros _ _. exact H.
  - cbn [bind]. exact H.
Qed.

(** what the division of 2n or 3n digits leaves *)
Definition bpost (num quot work : digits) (q r : Z)
    (x : (digits * digits * digits) * (nat * nat)) : Prop :=
  let '((num', quot', work'), (nq, _)) := x in
  length num' = length num /\ digs num' /\ val num' = r
  /\ length quot' = length quot /\ fits quot' nq q
  /\ length work' = length work /\ digs work'.

Definition no_tie (n : nat) (a b : Z) : Prop :=
  (sl = 1 /\ (idx = true \/ ~ block_open B n a b)) \/ ~ block_tie B n a b.

(** what the division of 2n by n digits must satisfy *)
Definition div_ok (n : nat) (rec : div_fn) : Prop := forall num den quot work,
  length den = n -> length num = (2 * n)%nat -> length quot = n ->
  digs num -> digs den -> digs quot -> digs work -> val quot = 0 ->
  B <= 2 * nth (n - 1) den 0 -> (wneed n <= length work)%nat ->
  val num < val den * p n -> no_tie n (val num) (val den) ->
  spec oops (rec num den quot work)
    (bpost num quot work (val num / val den) (val num mod val den)).

Lemma div_mod_by a b q r : 0 <= r < b -> a = q * b + r -> a / b = q /\ a mod b = r.
Proof.
  intros Hr E. assert (a = b * q + r) as E' by lia.
  split; symmetry; [apply (Z.div_unique_pos a b q r)|apply (Z.mod_unique_pos a b q r)]; auto.
Qed.

(** value of a list of maximal digits *)
Lemma value_max n : val (repeat (B - 1) n) = p n - 1.
Proof.
  induction n as [|n IH]; [reflexivity|]. cbn [repeat value]. rewrite IH, pw_S. lia.
Qed.
Lemma normal_max n : normal (repeat (B - 1) n).
Proof.
  intros t E. assert (In 0 (repeat (B - 1) n)) as H by (rewrite E; apply in_or_app; right; left; reflexivity).
  apply repeat_spec in H. lia.
Qed.
Lemma below_max n : digs (repeat (B - 1) n).
Proof. apply Forall_forall. intros x Hx. apply repeat_spec in Hx. lia. Qed.

Lemma nth_skip {A} (l : list A) n i d : nth i (skipn n l) d = nth (n + i) l d.
Proof.
  revert l. induction n as [|n IH]; intros l; [reflexivity|]. destruct l; [destruct i; reflexivity|].
  cbn [skipn Nat.add nth]. apply IH.
Qed.

Lemma wneed_double n : (20 <= 2 * n)%nat -> wneed (2 * n) = (3 * n + 1 + calc_mul_work_size n)%nat.
Proof.
  intros H. unfold wneed. destruct (Nat.ltb_spec (2 * n) 20); [lia|]. rewrite half2. reflexivity.
Qed.

(** The quotient estimate of the first part of [div_big_bz_3n_2n]. *)
Definition estimate_post (n : nat) (num den a12 b1 work : digits) (x : digits * digits * digits * nat) : Prop :=
  let '(a, q, w, nq) := x in exists qh, length a = (2 * n)%nat /\ digs a /\ length q = n
    /\ fits q nq qh /\ length w = length work /\ digs w
    /\ val a12 = qh * val b1 + val a /\ val num < (qh + 1) * val den.

Lemma estimate_ok rec n num den quot work : div_ok n rec -> halving n -> (20 <= 2 * n)%nat ->
  length den = (2 * n)%nat -> length num = (3 * n)%nat -> length quot = n ->
  digs num -> digs den -> digs quot -> digs work -> val quot = 0 ->
  B <= 2 * nth (2 * n - 1) den 0 -> (wneed (2 * n) <= length work)%nat ->
  val num < val den * p n ->
  (val num / p (2 * n) < val den / p n -> no_tie n (val num / p n) (val den / p n)) ->
  let a12 := skipn n num in let b1 := skipn n den in
  spec oops
    (if num_lt (skipn n a12) b1 then
       '((a12, quot, work), (nquot, _)) <- rec a12 b1 quot work ;;
       Ret (a12, quot, work, nquot)
     else
       '(a12, _) <- with_suffix a12 n (fun s => s <- sub_ignore D s b1 ;; Ret (s, tt)) ;;
       '(a12, _) <- add_assign_big D a12 b1 ;;
       _ <- drop_leading_zeros a12 (length a12) ;;
       Ret (a12, repeat (d_MAX D) (length quot), work, n))
    (estimate_post n num den a12 b1 work).
Proof.
  intros Hrec Hh H20 Ld Ln Lq Dn Dd Dq Dw Q0 Ht Hw Hlt Hg a12 b1.
  set (a1 := skipn n a12).
  assert (L12 : length a12 = (2 * n)%nat) by (unfold a12; len).
  assert (Lb1 : length b1 = n) by (unfold b1; len).
  assert (La1 : length a1 = n) by (unfold a1; len).
  assert (D12 : digs a12) by (apply below_skipn; exact Dn).
  assert (Db1 : digs b1) by (apply below_skipn; exact Dd).
  assert (Da1 : digs a1) by (apply below_skipn; exact D12).
  pose proof (value_split B n num ltac:(lia)) as Vn. fold a12 in Vn.
  pose proof (value_split B n den ltac:(lia)) as Vd. fold b1 in Vd.
  pose proof (value_split B n a12 ltac:(lia)) as V12. fold a1 in V12.
  pose proof (value_bound B HB _ (below_firstn B n num Dn)) as B3. rewrite firstn_length_le in B3 by lia.
  pose proof (value_bound B HB _ (below_firstn B n den Dd)) as Bb2. rewrite firstn_length_le in Bb2 by lia.
  pose proof (value_bound B HB _ (below_firstn B n a12 D12)) as B2. rewrite firstn_length_le in B2 by lia.
  pose proof (value_bound B HB _ Db1) as Bb1. rewrite Lb1 in Bb1.
  pose proof (value_bound B HB _ Da1) as Ba1. rewrite La1 in Ba1.
  pose proof (value_bound B HB _ D12) as B12. rewrite L12 in B12.
  pose proof (pw_pos B n HB) as Hp.
  assert (P2 : p (2 * n) = p n * p n) by (rewrite <- pw_add; f_equal; lia).
  assert (E12 : val num / p n = val a12).
  { rewrite Vn, (Z.mul_comm (p n)), Z.div_add, Z.div_small by lia. reflexivity. }
  assert (Eb1 : val den / p n = val b1).
  { rewrite Vd, (Z.mul_comm (p n)), Z.div_add, Z.div_small by lia. reflexivity. }
  assert (Ea1 : val num / p (2 * n) = val a1).
  { rewrite P2, <- Z.div_div, E12 by lia. rewrite V12, (Z.mul_comm (p n)), Z.div_add, Z.div_small by lia. reflexivity. }
  assert (Etop : nth (n - 1) b1 0 = nth (2 * n - 1) den 0).
  { unfold b1. rewrite nth_skip. f_equal. assert (1 <= n)%nat by lia. lia. }
  assert (Hb1 : p n <= 2 * val b1).
  { rewrite <- Lb1. apply top_half; [exact Db1|lia|]. rewrite Lb1, Etop. exact Ht. }
  rewrite (num_lt_same B HB) by (auto; lia). rewrite Ea1, Eb1, E12 in Hg.
  destruct (Z.ltb_spec (val a1) (val b1)) as [Hlt1|Hge].
  - sstep Hrec; auto.
    + rewrite Etop. exact Ht.
    + pose proof (wneed_half n Hh H20). lia.
    + rewrite V12. assert (p n * (val a1 + 1) <= p n * val b1) by (apply Z.mul_le_mono_nonneg_l; lia). lia.
    + intros [[[a q] w] [nq nr]] (L1 & D1 & V1 & L2 & F2 & L3 & D3). ret.
      pose proof (div_mod_eq (val a12) (val b1) ltac:(lia)) as Hdm.
      pose proof (Z.mod_pos_bound (val a12) (val b1) ltac:(lia)) as Hmb.
      exists (val a12 / val b1). conj; auto; try lia.
      set (qh := val a12 / val b1) in *. rewrite Vn, Vd.
      assert (0 <= qh) by (apply Z.div_pos; lia).
      assert (0 <= (qh + 1) * val (firstn n den)) by (apply Z.mul_nonneg_nonneg; lia).
      assert (p n * (val a12 + 1) <= p n * ((qh + 1) * val b1)) by (apply Z.mul_le_mono_nonneg_l; lia).
      lia.
  - assert (E : val a1 = val b1).
    { destruct (Z.le_gt_cases (val b1 + 1) (val a1)) as [Hc|]; [|lia]. exfalso.
      assert (p n * (val b1 + 1) <= p n * val a1) by (apply Z.mul_le_mono_nonneg_l; lia).
      assert (p n * (p n * (val b1 + 1)) <= p n * val a12) by (apply Z.mul_le_mono_nonneg_l; lia).
      assert (val den * p n <= (p n * (val b1 + 1)) * p n) by (apply Z.mul_le_mono_nonneg_r; lia).
      lia. }
    eapply total_bind.
    { eapply (spec_with_suffix never) with
        (R := fun '(s, _) => length s = n /\ digs s /\ val s = 0)
        (Q := fun '(a, _) => length a = (2 * n)%nat /\ digs a /\ val a = val (firstn n a12)); [lia| |].
      - fold a1. unfold sub_ignore. rewrite bind_assoc.
        tstep (sub_assign_big_ok B D OK); [exact Da1|exact Db1|].
        intros [s res] (Ls & Ds & Hres). cbn [bind]. ret. conj; [lia|exact Ds|].
        destruct res as [x|e]; [destruct Hres as (_ & V & _); lia|].
        destruct Hres as (_ & Hc & _). lia.
      - intros s [] (Ls & Ds & Vs). conj.
        + len.
        + apply below_app. split; [apply below_firstn; exact D12|exact Ds].
        + rewrite value_app, Vs. lia. }
    intros [a []] (L1 & D1 & V1).
    assert (P21 : p n * 2 <= p (2 * n)).
    { rewrite P2. apply Z.mul_le_mono_nonneg_l; [lia|]. pose proof (pw_le B 1 n HB ltac:(lia)) as H1.
      rewrite pw_1 in H1. lia. }
    tstep (add_assign_big_ok B D OK); [exact D1|exact Db1|lia|].
    intros [a' c] (L2 & D2 & V2). rewrite L1 in *.
    assert (c = false) as ->.
    { destruct c; [|reflexivity]. cbn [of_bool] in V2. pose proof (value_nonneg B HB a' D2). lia. }
    cbn [of_bool] in V2.
    tstep (drop_val B); [lia|]. intros m _. ret. exists (p n - 1).
    rewrite Lq, (ok_MAX _ _ OK). conj; auto; try lia.
    + apply repeat_length.
    + unfold fits. rewrite repeat_length, firstn_all2 by (rewrite repeat_length; lia).
      conj; auto using below_max, value_max, normal_max.
Qed.

(** Adding the divisor back *)
Lemma add_back_ok n num den Qd : length num = (3 * n)%nat -> length den = (2 * n)%nat ->
  digs num -> digs den -> (1 <= n)%nat -> val num < Qd -> Qd <= p (2 * n) ->
  total (add_assign_big D num den) (fun '(num', _) => length num' = (3 * n)%nat /\ digs num'
    /\ val num' = val num + val den).
Proof.
  intros Ln Ld Dn Dd Hn Hlt HQ.
  eapply total_post; [apply (add_assign_big_ok B D OK); [exact Dn|exact Dd|lia]|].
  intros [num' c] (L1 & D1 & V1). rewrite Ln in *.
  pose proof (value_bound B HB den Dd) as Bd. rewrite Ld in Bd.
  assert (p (2 * n) * 2 <= p (3 * n)).
  { replace (3 * n)%nat with (2 * n + n)%nat by lia. rewrite pw_add.
    apply Z.mul_le_mono_nonneg_l; [pose proof (pw_pos B (2 * n) HB); lia|].
    pose proof (pw_le B 1 n HB ltac:(lia)) as H1. rewrite pw_1 in H1. lia. }
  conj; auto. destruct c; cbn [of_bool] in V1; [|lia].
  pose proof (value_nonneg B HB num' D1). lia.
Qed.

Lemma div_3n_2n_ok rec n num den quot work : div_ok n rec -> halving n -> (20 <= 2 * n)%nat ->
  (tot = true -> (n <= 40)%nat) ->
  length den = (2 * n)%nat -> length num = (3 * n)%nat -> length quot = n ->
  digs num -> digs den -> digs quot -> digs work -> val quot = 0 ->
  B <= 2 * nth (2 * n - 1) den 0 -> (wneed (2 * n) <= length work)%nat ->
  val num < val den * p n ->
  (val num / p (2 * n) < val den / p n -> no_tie n (val num / p n) (val den / p n)) ->
  spec oops (div_big_bz_3n_2n D rec num den quot work)
    (bpost num quot work (val num / val den) (val num mod val den)).
Proof.
  intros Hrec Hh H20 Htot Ld Ln Lq Dn Dd Dq Dw Q0 Ht Hw Hlt Hg.
  pose proof (wneed_double n H20) as Ew. rewrite Ew in Hw.
  unfold div_big_bz_3n_2n. rewrite Ld, half2.
  tstep total_debug_assert; [apply Nat.eqb_eq; exact Ln|]. intros _ _.
  tstep total_debug_assert; [apply Nat.eqb_refl|]. intros _ _.
  tstep total_debug_assert; [apply Nat.eqb_eq; exact Lq|]. intros _ _.
  apply debug_top_ok; auto; [lia|].
  tstep total_debug_work; [apply Nat.leb_le; lia|]. intros _ _.
  rewrite split_at_ok by lia. cbn [bind]. rewrite suffix_ok by lia. cbn [bind].
  rewrite suffix_ok by len. cbn [bind].
  sstep (estimate_ok rec n num den quot work); auto; [rewrite Ew; exact Hw|].
  intros [[[a q1] w1] nq1] (qh & La & Da & Lq1 & F1 & Lw1 & Dw1 & V12 & HU).
  pose proof (value_split B n num ltac:(lia)) as Vn.
  pose proof (value_split B n den ltac:(lia)) as Vd.
  set (a12 := skipn n num) in *. set (b1 := skipn n den) in *. set (b2 := firstn n den) in *.
  assert (Lb2 : length b2 = n) by (unfold b2; len).
  assert (Db2 : digs b2) by (apply below_firstn; exact Dd).
  pose proof (value_bound B HB b2 Db2) as Bb2. rewrite Lb2 in Bb2.
  pose proof (pw_pos B n HB) as Hp.
  assert (P2 : p (2 * n) = p n * p n) by (rewrite <- pw_add; f_equal; lia).
  assert (Hqh : 0 <= qh < p n).
  { destruct F1 as (D1 & _ & <- & _). rewrite <- Lq1. apply (value_bound B HB), D1. }
  assert (Hden : p (2 * n) <= 2 * val den).
  { rewrite <- Ld. apply top_half; [exact Dd|lia|]. rewrite Ld. exact Ht. }
  pose proof (pw_pos B (2 * n) HB) as Hp2.
  cbv zeta.
  set (num1 := firstn n num ++ a).
  assert (Ln1 : length num1 = (3 * n)%nat) by (unfold num1; len).
  assert (Dn1 : digs num1) by (apply below_app; split; [apply below_firstn; exact Dn|exact Da]).
  assert (Vn1 : val num1 = val num - qh * (p n * val b1)).
  { unfold num1. rewrite value_app, firstn_length_le by lia.
    replace (val num) with (val (firstn n num) + p n * (qh * val b1 + val a)) by (rewrite <- V12; lia). ring. }
  clearbody num1.
  tstep (fits_drop b2 (val b2)); [exact Db2|reflexivity|]. intros nb2 (_ & Hnb2 & _ & Vb2 & Nb2).
  rewrite split_at_ok by lia. cbn [bind].
  destruct F1 as (Dq1 & Hnq1 & Vq1 & Vq1' & Nq1) eqn:EF. clear EF.
  rewrite prefix_ok by exact Hnq1. cbn [bind]. rewrite prefix_ok by exact Hnb2. cbn [bind].
  assert (Lx : length (firstn nq1 q1) = nq1) by len.
  assert (Ly : length (firstn nb2 b2) = nb2) by len.
  eapply spec_bind.
  { eapply spec_weaken; [apply (with_work_ok B D OK tot)| |].
    - apply below_firstn; exact Dq1.
    - apply below_firstn; exact Db2.
    - apply below_firstn; exact Dw1.
    - apply below_skipn; exact Dw1.
    - intros Et. specialize (Htot Et). right. right. conj; auto; lia.
    - intros _ _. rewrite Lx, Ly. len.
    - rewrite Lx, Ly. pose proof (need_calc nq1 nb2 n ltac:(lia) ltac:(lia)). len.
    - intros w Hw'. left. exact Hw'.
    - intros x Hx. exact Hx. }
  intros [[pr wk] m] (Lpr & Dpr & Lwk & Dwk & Hm1 & Hm2 & Vm & Nm & _).
  rewrite Vq1', Vb2 in Vm. rewrite Lx, Ly in Hm1.
  assert (Lpr' : length pr = (3 * n + 1)%nat) by (rewrite Lpr; len).
  tstep total_debug_assert; [apply Nat.leb_le; lia|]. intros _ _.
  rewrite prefix_ok by lia. cbn [bind].
  set (Qd := qh * val b2) in *.
  assert (HQd : 0 <= Qd <= p (2 * n)).
  { split; [apply Z.mul_nonneg_nonneg; lia|]. rewrite P2. apply Z.mul_le_mono_nonneg; lia. }
  assert (Dm : digs (firstn m pr)) by (apply below_firstn; exact Dpr).
  assert (Lm : length (firstn m pr) = m) by len.
  assert (Dw' : digs (pr ++ wk)) by (apply below_app; auto).
  assert (Lw' : length (pr ++ wk) = length work) by (rewrite app_length, Lpr, Lwk; len).
  (* the difference left after the corrections *)
  assert (HA : val num = qh * val den + (val num1 - Qd)) by (rewrite Vn1, Vd; unfold Qd; ring).
  (* the final subtraction *)
  assert (HF : forall num2 q2 nq2 j, length num2 = (3 * n)%nat -> digs num2 -> length q2 = n ->
      fits q2 nq2 (qh - j) -> val num2 = val num1 + j * val den -> Qd <= val num2 ->
      val num2 - Qd < val den ->
      spec oops ('(num, nrem) <- unwrap_with (sub_assign_big D num2 (firstn m pr)) ;;
                 Ret (num, q2, pr ++ wk, (nq2, nrem)))
        (bpost num quot work (val num / val den) (val num mod val den))).
  { intros num2 q2 nq2 j L2 D2 Lq2 F2 V2 H1 H2.
    assert (val num / val den = qh - j /\ val num mod val den = val num2 - Qd) as [-> ->].
    { apply div_mod_by; [lia|]. rewrite HA, V2. ring. }
    eapply spec_bind with (R := fun '(r, _) => length r = (3 * n)%nat /\ digs r /\ val r = val num2 - Qd).
    - eapply spec_unwrap_with; [apply (sub_assign_big_ok B D OK); [exact D2|exact Dm]| |].
      + cbv beta iota. intros l x (Ll & Dl & _ & Vl & _). conj; auto; [lia|]. rewrite Vl, Vm. lia.
      + cbv beta iota. intros l e (_ & _ & _ & [Hc|Hc] & _); exfalso; [lia|]. rewrite Vm in Hc. lia.
    - intros [r nr] (Lr & Dr & Vr). ret. unfold bpost. conj; auto; lia. }
  tstep (fits_drop num1 (val num1)); [exact Dn1|reflexivity|]. intros nn (_ & Hnn & _ & Vnn & Nnn).
  rewrite prefix_ok by exact Hnn. cbn [bind].
  rewrite (num_lt_value B HB) by (auto using below_firstn). rewrite Vnn, Vm.
  destruct (Z.ltb_spec (val num1) Qd) as [Hneg|Hpos].
  2:{ apply (HF num1 q1 nq1 0); auto; try lia. rewrite Z.sub_0_r. unfold fits. auto. }
  assert (Hq0 : 0 < qh).
  { destruct (Z.eq_dec qh 0) as [E|]; [|lia]. pose proof (value_nonneg B HB num1 Dn1).
    unfold Qd in Hneg. rewrite E in Hneg. lia. }
  eapply spec_bind with (R := fun '(num2, q2, nq2) => exists j, length num2 = (3 * n)%nat /\ digs num2
    /\ length q2 = n /\ fits q2 nq2 (qh - j) /\ val num2 = val num1 + j * val den /\ Qd <= val num2
    /\ val num2 - Qd < val den).
  2:{ intros [[num2 q2] nq2] (j & G1 & G2 & G3 & G4 & G5 & G6 & G7). apply (HF num2 q2 nq2 j); assumption. }
  tstep (add_back_ok n num1 den Qd); auto; try lia. intros [num2 c2] (L2 & D2 & V2).
  tstep (dec_prefix_ok q1 nq1 qh); [unfold fits; auto|exact Hq0|]. intros [q2 nq2] (Lq2 & F2).
  tstep (fits_drop num2 (val num2)); [exact D2|reflexivity|]. intros n2 (_ & Hn2 & _ & Vn2 & Nn2).
  rewrite prefix_ok by exact Hn2. cbn [bind].
  rewrite (num_lt_value B HB) by (auto using below_firstn). rewrite Vn2, Vm.
  destruct (Z.ltb_spec (val num2) Qd) as [Hneg2|Hpos2].
  2:{ ret. exists 1. conj; auto; lia. }
  assert (Hq1 : 0 < qh - 1).
  { destruct (Z.le_gt_cases qh 1) as [Hc|]; [|lia]. exfalso.
    assert (E1 : qh = 1) by lia. unfold Qd in Hneg2. rewrite E1 in Hneg2.
    pose proof (value_nonneg B HB num1 Dn1). pose proof (value_nonneg B HB b1 (below_skipn B n den Dd)).
    assert (0 <= p n * val b1) by (apply Z.mul_nonneg_nonneg; lia). lia. }
  tstep (add_back_ok n num2 den Qd); auto; try lia. intros [num3 c3] (L3 & D3 & V3).
  tstep (dec_prefix_ok q2 nq2 (qh - 1)); [exact F2|exact Hq1|]. intros [q3 nq3] (Lq3 & F3).
  ret. exists 2. replace (qh - 1 - 1) with (qh - 2) in F3 by lia.
  pose proof (value_nonneg B HB num1 Dn1). conj; auto; lia.
Qed.

Lemma top_normal l : (1 <= length l)%nat -> nth (length l - 1) l 0 <> 0 -> normal l.
Proof.
  intros Hl Ht. destruct (cut_last l Hl) as (a & x & E & La). rewrite E. apply normal_snoc.
  rewrite E, app_length, La in Ht. cbn [length] in Ht.
  rewrite app_nth2, La in Ht by lia. replace (length l - 1 + 1 - 1 - (length l - 1))%nat with 0%nat in Ht by lia.
  exact Ht.
Qed.

Lemma shift_zero top s : B <= 2 * top -> top < B -> is_shift B top s -> s = 0.
Proof.
  intros H1 H2 (H3 & H4 & _). destruct (Z.eq_dec s 0) as [|N]; [assumption|]. exfalso.
  assert (2 ^ 1 <= 2 ^ s) by (apply Z.pow_le_mono_r; lia). change (2 ^ 1) with 2 in *.
  assert (top * 2 <= top * 2 ^ s) by (apply Z.mul_le_mono_nonneg_l; lia). lia.
Qed.

Lemma base_case_ok n num den quot work : (1 <= n < 20)%nat -> 
  length den = n -> length num = (2 * n)%nat -> length quot = n ->
  digs num -> digs den -> digs quot -> digs work -> val quot = 0 ->
  B <= 2 * nth (n - 1) den 0 -> (n + 1 <= length work)%nat ->
  val num < val den * p n -> no_tie n (val num) (val den) ->
  spec oops
    (nnum <- drop_leading_zeros num (length num) ;;
     p <- prefix num nnum ;;
     '((p, quot, work), r) <- div_big_with_work_gen D no_bz p den quot work ;;
     r <- unwrap r ;;
     Ret (p ++ skipn nnum num, quot, work, r))
    (bpost num quot work (val num / val den) (val num mod val den)).
Proof.
  intros Hn Ld Ln Lq Dn Dd Dq Dw Q0 Ht Hw Hlt Hg.
  tstep (fits_drop num (val num)); [exact Dn|reflexivity|]. intros nn F.
  pose proof (fits_rest _ _ _ F) as Hrest. destruct F as (_ & Hnn & _ & Vnn & Nnn).
  rewrite prefix_ok by exact Hnn. cbn [bind].
  assert (Htop : 0 <= nth (n - 1) den 0 < B).
  { apply (below_nth B den (n - 1)); [exact Dd|]. apply nth_error_nth'. lia. }
  assert (Nd : normal den) by (apply top_normal; rewrite Ld; lia).
  pose proof (top_half den Dd ltac:(lia) ltac:(rewrite Ld; exact Ht)) as Hh. rewrite Ld in Hh.
  pose proof (pw_pos B n HB) as Hp. pose proof (pw_pos B (n - 1) HB) as Hp1.
  assert (Hden : 0 < val den) by lia.
  assert (Lp : length (firstn nn num) = nn) by len.
  assert (Dp : digs (firstn nn num)) by (apply below_firstn; exact Dn).
  assert (HT : (sl = 1 /\ (idx = true \/ ~ block_open B n (val num) (val den))) \/ forall i, (1 <= i <= n)%nat ->
             ((val num / p i) mod val den) / p (n - 1) < val den / p (n - 1)).
  { destruct Hg as [E|Hg]; [left; exact E|]. right. intros i Hi.
    pose proof (Z.mod_pos_bound (val num / p i) (val den) Hden).
    apply Z.le_neq. split; [apply Z.div_le_mono; lia|]. intros E. apply Hg.
    apply (block_tie_base B n _ _ i); [lia|lia|exact E]. }
  assert (HG : long_guard B sl (firstn nn num) den).
  { intros _ s Hs. rewrite Ld, Lp, Vnn in *.
    rewrite (shift_zero (nth (n - 1) den 0) s) by (auto; lia). rewrite !Z.mul_1_r. split; [lia|].
    destruct HT as [[E _]|HT]; [left; exact E|]. right. intros i Hi. apply HT. lia. }
  eapply spec_bind.
  { eapply spec_weaken.
    - apply (div_gen_ok B D sl OK DV); auto; rewrite ?Ld, ?Lp; unfold BZ_CUTOFF; try lia.
      destruct (Nat.eq_dec nn (2 * n)) as [E|N]; [|left; lia]. right. split; [lia|].
      replace (nn - n)%nat with n by lia. rewrite E, firstn_all2 by lia.
      rewrite (num_lt_same B HB) by (auto using below_skipn; len). apply Z.ltb_lt.
      pose proof (value_split B n num ltac:(lia)) as V.
      pose proof (value_nonneg B HB _ (below_firstn B n num Dn)).
      apply Z.mul_lt_mono_pos_l with (p n); lia.
    - rewrite Ld, Lp, Vnn. intros w (-> & Hk & s & Hs & Ho).
      rewrite (shift_zero (nth (n - 1) den 0) s) in Ho by (auto; lia). rewrite !Z.mul_1_r in Ho.
      rewrite Lq in Hk.
      destruct HT as [[_ [E|HT]]|HT]; [right; auto|exfalso; apply HT; apply block_open_base; [lia|]|exfalso].
      { fold (pw B (2 * n - 1)) (pw B (n - 1)). rewrite <- Hk in Ho.
        replace (n + (n - 1))%nat with (2 * n - 1)%nat in Ho by lia.
        assert (Eb : val den / p (n - 1) = nth (n - 1) den 0).
        { rewrite (value_div B D OK) by (auto; lia).
          rewrite (split_last den (n - 1)) at 1 by lia. rewrite skipn_exact by len. cbn [value]. lia. }
        assert (E2 : p (2 * n - 1) = p n * p (n - 1)) by (rewrite <- pw_add; f_equal; lia).
        apply Z.le_antisymm; [|lia]. rewrite E2, <- Z.div_div by lia. apply Z.div_le_mono; [lia|].
        apply Z.lt_le_incl, Z.div_lt_upper_bound; lia. }
      specialize (HT n ltac:(lia)). rewrite Z.mod_small in HT.
      + rewrite <- Hk, pw_add, <- Z.div_div in Ho by lia. lia.
      + split; [apply Z.div_pos; [apply value_nonneg; auto|lia]|]. apply Z.div_lt_upper_bound; lia.
    - intros a Ha. exact Ha. }
  rewrite Ld, Lp, Vnn. intros [[[p' q'] w'] r] ([nq nr] & -> & L1 & D1 & V1 & L2 & D2 & L3 & D3 & _ & H1 & V2 & N2 & _ & _ & _ & QZ).
  cbn [unwrap bind]. ret. unfold bpost, fits. specialize (QZ Q0). rewrite Lp in L1. conj; auto.
  - len.
  - apply below_app. split; [exact D1|apply below_skipn; exact Dn].
  - rewrite value_app, Hrest, V1. lia.
Qed.

Lemma mod_mod_mul a b P : 0 < b -> 0 < P -> a mod (b * P) = (a / P) mod b * P + a mod P.
Proof.
  intros Hb HP. rewrite (Z.mul_comm b P), Z.rem_mul_r by lia. lia.
Qed.

Lemma div_step_ok n rec : halving n -> ((20 <= n)%nat -> div_ok (n / 2) rec) ->
  (tot = true -> (n <= 80)%nat) -> div_ok n (div_big_bz_2n_n_step D rec).
Proof.
  intros Hh Hrec Htot num den quot work Ld Ln Lq Dn Dd Dq Dw Q0 Ht Hw Hlt Hg.
  assert (H1n : (1 <= n)%nat) by (destruct Hh; lia).
  unfold div_big_bz_2n_n_step. rewrite Ld.
  tstep total_debug_assert.
  { unfold BZ_CUTOFF. destruct Hh as [n Hn|n Hh Hn].
    - destruct (Nat.ltb_spec n 20); [reflexivity|lia].
    - rewrite Nat.even_mul. apply orb_true_r. }
  intros _ _.
  tstep total_debug_assert; [apply Nat.eqb_eq; exact Ln|]. intros _ _.
  tstep total_debug_assert; [apply Nat.eqb_eq; exact Lq|]. intros _ _.
  apply debug_top_ok; auto. unfold BZ_CUTOFF.
  destruct (Nat.ltb_spec n 20) as [Hs|Hbig].
  { unfold wneed in Hw. destruct (Nat.ltb_spec n 20); [|lia]. apply (base_case_ok n); auto. }
  specialize (Hrec Hbig).
  destruct Hh as [n Hn|h Hh Hn]; [lia|]. rewrite half2 in *. clear Hbig. cbv zeta.
  pose proof (top_half den Dd ltac:(lia) ltac:(rewrite Ld; exact Ht)) as Hhalf. rewrite Ld in Hhalf.
  pose proof (pw_pos B h HB) as Hp. pose proof (pw_pos B (2 * h) HB) as Hp2.
  assert (P2 : p (2 * h) = p h * p h) by (rewrite <- pw_add; f_equal; lia).
  assert (Hden : 0 < val den) by lia.
  pose proof (value_nonneg B HB num Dn) as Hnum.
  rewrite suffix_ok by lia. cbn [bind]. rewrite suffix_ok by lia. cbn [bind].
  pose proof (value_split B h num ltac:(lia)) as Vn.
  pose proof (value_bound B HB _ (below_firstn B h num Dn)) as B0. rewrite firstn_length_le in B0 by lia.
  assert (Ec : val num / p h = val (skipn h num)).
  { rewrite Vn, (Z.mul_comm (p h)), Z.div_add, Z.div_small by lia. reflexivity. }
  assert (E0 : val num mod p h = val (firstn h num)).
  { rewrite Vn, (Z.mul_comm (p h)), Z.mod_add, Z.mod_small by lia. reflexivity. }
  set (c := val (skipn h num)) in *.
  assert (Hc : 0 <= c < val den * p h).
  { split; [rewrite <- Ec; apply Z.div_pos; lia|]. rewrite <- Ec. apply Z.div_lt_upper_bound; lia. }
  assert (Q0s : val (firstn h quot) = 0 /\ val (skipn h quot) = 0).
  { pose proof (value_split B h quot ltac:(lia)) as V. rewrite Q0 in V.
    pose proof (value_nonneg B HB _ (below_firstn B h quot Dq)).
    pose proof (value_nonneg B HB _ (below_skipn B h quot Dq)).
    assert (0 <= p h * val (skipn h quot)) by (apply Z.mul_nonneg_nonneg; lia).
    assert (E : p h * val (skipn h quot) = 0) by lia. apply Z.mul_eq_0 in E. lia. }
  destruct Q0s as [Q00 Q01].
  assert (Ht40 : tot = true -> (h <= 40)%nat) by (intros E; specialize (Htot E); lia).
  sstep (div_3n_2n_ok rec h (skipn h num) den (skipn h quot) work); auto using below_skipn; try lia.
  { len. }
  { len. }
  { fold c. intros Hlt2. destruct Hg as [[E [E'|Hg]]|Hg]; [left; auto| |].
    { left. split; [exact E|]. right. intros T. apply Hg. apply (block_open_half B h _ _ c); auto. }
    right. intros T. apply Hg.
    apply (block_tie_half B h _ _ c); auto. }
  fold c.
  intros [[[hi qhi] w1] [nq1 nr1]] (L1 & D1 & V1 & L2 & F2 & L3 & D3).
  assert (Lhi : length hi = (3 * h)%nat) by (rewrite L1; len).
  assert (Lqhi : length qhi = h) by (rewrite L2; len).
  pose proof (Z.mod_pos_bound c (val den) Hden) as Hm1.
  pose proof (div_mod_eq c (val den) Hden) as Hdm1.
  set (r1 := c mod val den) in *. set (qq1 := c / val den) in *.
  set (num1 := firstn h num ++ hi). set (quot1 := firstn h quot ++ qhi).
  assert (Lf : length (firstn h num) = h) by len.
  assert (Lfq : length (firstn h quot) = h) by len.
  rewrite prefix_ok by (unfold num1; len). cbn [bind].
  rewrite prefix_ok by (unfold quot1; len). cbn [bind].
  assert (Elo : firstn (3 * h) num1 = firstn h num ++ firstn (2 * h) hi).
  { unfold num1. rewrite firstn_app, Lf. rewrite (firstn_all2 (firstn h num)) by lia. f_equal. f_equal. lia. }
  assert (Eqlo : firstn h quot1 = firstn h quot) by (unfold quot1; apply firstn_exact; exact Lfq).
  assert (Esk : skipn (3 * h) num1 = skipn (2 * h) hi).
  { unfold num1. rewrite skipn_app, Lf. rewrite (skipn_all2 (firstn h num)) by lia. cbn [app]. f_equal. lia. }
  assert (Esq : skipn h quot1 = qhi) by (unfold quot1; apply skipn_exact; exact Lfq).
  rewrite Elo, Eqlo, Esk, Esq.
  assert (Hsk0 : val (skipn (2 * h) hi) = 0 /\ val (firstn (2 * h) hi) = r1).
  { pose proof (value_split B (2 * h) hi ltac:(lia)) as V. rewrite V1 in V.
    pose proof (value_nonneg B HB _ (below_firstn B (2 * h) hi D1)).
    pose proof (value_nonneg B HB _ (below_skipn B (2 * h) hi D1)).
    destruct (Z.le_gt_cases 1 (val (skipn (2 * h) hi))).
    - assert (p (2 * h) * 1 <= p (2 * h) * val (skipn (2 * h) hi)) by (apply Z.mul_le_mono_nonneg_l; lia). lia.
    - assert (E : val (skipn (2 * h) hi) = 0) by lia. rewrite E in V. lia. }
  destruct Hsk0 as [Hsk0 Hr1].
  set (lo := firstn h num ++ firstn (2 * h) hi) in *.
  assert (Vlo : val lo = val (firstn h num) + p h * r1) by (unfold lo; rewrite value_app, Hr1, Lf; reflexivity).
  assert (Elo' : val lo = val num mod (val den * p h)).
  { rewrite mod_mod_mul, Ec, E0, Vlo by lia. fold r1. lia. }
  assert (Hlo : 0 <= val lo < val den * p h) by (rewrite Elo'; apply Z.mod_pos_bound; apply Z.mul_pos_pos; lia).
  assert (Dlo : digs lo) by (unfold lo; apply below_app; split; apply below_firstn; assumption).
  sstep (div_3n_2n_ok rec h lo den (firstn h quot) w1); auto using below_firstn; try lia.
  { unfold lo. len. }
  { intros Hlt2. destruct Hg as [[E [E'|Hg]]|Hg]; [left; auto| |].
    { left. split; [exact E|]. right. intros T. apply Hg. apply (block_open_half B h _ _ (val lo)); auto. }
    right. intros T. apply Hg.
    apply (block_tie_half B h _ _ (val lo)); auto. }
  intros [[[lo' qlo] w2] [nq2 nr2]] (L4 & D4 & V4 & L5 & F5 & L6 & D6).
  pose proof (Z.mod_pos_bound (val lo) (val den) Hden) as Hm2.
  pose proof (div_mod_eq (val lo) (val den) Hden) as Hdm2.
  assert (Llo' : length lo' = (3 * h)%nat) by (rewrite L4; unfold lo; len).
  assert (Lqlo : length qlo = h) by (rewrite L5; exact Lfq).
  assert (HR : val num / val den = val lo / val den + p h * qq1 /\ val num mod val den = val lo mod val den).
  { apply div_mod_by; [exact Hm2|].
    assert (val num = val lo + p h * (qq1 * val den)).
    { rewrite Vlo, Vn. replace (skipn h num) with (skipn h num) by reflexivity. fold c.
      replace c with (qq1 * val den + r1) at 1 by lia. ring. }
    lia. }
  destruct HR as [-> ->].
  destruct F2 as (Dq1 & _ & Vq1 & _). destruct F5 as (Dq2 & _ & Vq2 & _).
  assert (Dqq : digs (qlo ++ qhi)) by (apply below_app; auto).
  assert (Vqq : val (qlo ++ qhi) = val lo / val den + p h * qq1) by (rewrite value_app, Vq2, Vq1, Lqlo; reflexivity).
  assert (Lqq : length (qlo ++ qhi) = (2 * h)%nat) by len.
  rewrite <- Lqq.
  tstep (fits_drop (qlo ++ qhi) (val (qlo ++ qhi))); [exact Dqq|reflexivity|]. intros nq Fq. rewrite Lqq.
  tstep (drop_val B); [len|]. intros nr _. ret. unfold bpost. rewrite Vqq in Fq. conj; auto.
  - len.
  - apply below_app. split; [exact D4|apply below_skipn; exact D1].
  - rewrite value_app, Hsk0, V4. lia.
  - lia.
  - lia.
Qed.

Lemma bz_fuel_ok f : forall n, (n < f)%nat -> halving n -> (tot = true -> (n <= 80)%nat) ->
  div_ok n (bz_fuel D f).
Proof.
  induction f as [|f IH]; intros n Hf Hh Ht; [lia|]. cbn [bz_fuel]. apply div_step_ok; auto.
  intros Hn. destruct Hh as [n Hs|n Hh Hs]; [lia|]. rewrite half2. apply IH; auto; [lia|]. intros. specialize (Ht H). lia.
Qed.

Lemma bz_2n_n_ok n : halving n -> (tot = true -> (n <= 80)%nat) -> div_ok n (div_big_bz_2n_n D).
Proof.
  intros Hh Ht num den quot work Ld. unfold div_big_bz_2n_n. rewrite Ld.
  apply (bz_fuel_ok (S n) n); auto.
Qed.

Lemma zero_parts a b : digs a -> digs b -> val (a ++ b) = 0 -> val a = 0 /\ val b = 0.
Proof.
  intros Da Db H. rewrite value_app in H.
  pose proof (value_nonneg B HB a Da). pose proof (value_nonneg B HB b Db).
  pose proof (pw_pos B (length a) HB).
  assert (0 <= p (length a) * val b) by (apply Z.mul_nonneg_nonneg; lia).
  assert (E : p (length a) * val b = 0) by lia. apply Z.mul_eq_0 in E. lia.
Qed.

Lemma bz_blocks_ok i n : halving n -> (tot = true -> (n <= 80)%nat) -> forall snum sden q work,
  length sden = n -> digs snum -> digs sden -> digs q -> digs work ->
  B <= 2 * nth (n - 1) sden 0 -> (wneed n <= length work)%nat ->
  ((i + 1) * n <= length snum)%nat -> (i * n <= length q)%nat ->
  val (firstn (i * n) q) = 0 -> val (skipn (i * n) snum) < val sden ->
  (forall j, (j < i)%nat -> no_tie n ((val snum / p (j * n)) mod (val sden * p n)) (val sden)) ->
  spec oops (bz_blocks D i n snum sden q work) (fun '(snum', q', work') =>
    length snum' = length snum /\ digs snum' /\ val snum' = val snum mod val sden
    /\ length q' = length q /\ digs q' /\ skipn (i * n) q' = skipn (i * n) q
    /\ val (firstn (i * n) q') = val snum / val sden
    /\ length work' = length work /\ digs work').
Proof.
  intros Hh Htot. assert (H1n : (1 <= n)%nat) by (destruct Hh; lia).
  induction i as [|i IH]; intros snum sden q work Ld Dn Dd Dq Dw Ht Hw Lsn Lq Q0 Hlt Hg; cbn [bz_blocks].
  { ret. rewrite skipn_O in Hlt. pose proof (value_nonneg B HB snum Dn).
    rewrite Z.div_small, Z.mod_small by lia. conj; auto. }
  pose proof (top_half sden Dd ltac:(lia) ltac:(rewrite Ld; exact Ht)) as Hhalf. rewrite Ld in Hhalf.
  set (d := val sden) in *. set (m := (i * n)%nat) in *.
  replace (S i * n)%nat with (m + n)%nat in * by (unfold m; lia).
  replace ((S i + 1) * n)%nat with (m + 2 * n)%nat in Lsn by (unfold m; lia).
  replace ((i + 2) * n)%nat with (m + 2 * n)%nat by (unfold m; lia).
  replace ((i + 1) * n)%nat with (m + n)%nat in * by (unfold m; lia).
  rewrite sub_slice_ok by lia. cbn [bind]. rewrite sub_slice_ok by lia. cbn [bind].
  replace (m + 2 * n - m)%nat with (2 * n)%nat by lia. replace (m + n - m)%nat with n by lia.
  set (X := skipn m snum). set (s := firstn (2 * n) X).
  assert (DX : digs X) by (apply below_skipn; exact Dn).
  assert (LX : (2 * n <= length X)%nat) by (unfold X; len).
  assert (Eu : skipn (m + n) snum = skipn n X) by (unfold X; rewrite skipn_skipn; f_equal; lia).
  rewrite Eu in Hlt.
  pose proof (pw_pos B n HB) as Hp. pose proof (pw_pos B m HB) as Hpm. pose proof (pw_pos B (2 * n) HB) as Hp2.
  assert (P2 : p (2 * n) = p n * p n) by (rewrite <- pw_add; f_equal; lia).
  assert (Hd : 0 < d) by lia.
  pose proof (value_split B n X ltac:(lia)) as VX.
  pose proof (value_bound B HB _ (below_firstn B n X DX)) as BX. rewrite firstn_length_le in BX by lia.
  pose proof (value_nonneg B HB _ (below_skipn B n X DX)) as Hu.
  assert (HXd : 0 <= val X < d * p n).
  { split; [apply value_nonneg; auto|].
    assert (p n * (val (skipn n X) + 1) <= p n * d) by (apply Z.mul_le_mono_nonneg_l; lia). lia. }
  assert (Hs : val (skipn (2 * n) X) = 0 /\ val s = val X).
  { pose proof (value_split B (2 * n) X LX) as V. fold s in V.
    pose proof (value_nonneg B HB _ (below_skipn B (2 * n) X DX)).
    pose proof (value_nonneg B HB s (below_firstn B (2 * n) X DX)).
    destruct (Z.le_gt_cases 1 (val (skipn (2 * n) X))).
    - assert (p (2 * n) * 1 <= p (2 * n) * val (skipn (2 * n) X)) by (apply Z.mul_le_mono_nonneg_l; lia).
      assert (d * p n <= p n * p n) by (apply Z.mul_le_mono_nonneg_r; lia). lia.
    - assert (E : val (skipn (2 * n) X) = 0) by lia. rewrite E in V. lia. }
  destruct Hs as [Hs0 Hs].
  pose proof (value_split B m snum ltac:(lia)) as Vn. fold X in Vn.
  pose proof (value_bound B HB _ (below_firstn B m snum Dn)) as Bm. rewrite firstn_length_le in Bm by lia.
  assert (EX : val snum / p m = val X).
  { rewrite Vn, (Z.mul_comm (p m)), Z.div_add, Z.div_small by lia. reflexivity. }
  assert (Q1 : val (firstn m q) = 0 /\ val (firstn n (skipn m q)) = 0).
  { rewrite firstn_plus in Q0. apply zero_parts; auto using below_firstn, below_skipn. }
  destruct Q1 as [Q1 Q2].
  sstep (bz_2n_n_ok n Hh Htot s sden (firstn n (skipn m q)) work); auto using below_firstn, below_skipn.
  { unfold s. len. }
  { len. }
  { apply below_firstn; exact DX. }
  { fold d. lia. }
  { rewrite Hs, <- EX. fold d.
    rewrite <- (Z.mod_small (val snum / p m) (d * p n)) by (rewrite EX; exact HXd).
    apply Hg. lia. }
  fold d. rewrite Hs.
  intros [[[s' qs] w1] [nq nr]] (L1 & D1 & V1 & L2 & F2 & L3 & D3).
  assert (Ls' : length s' = (2 * n)%nat) by (rewrite L1; unfold s; len).
  assert (Lqs : length qs = n) by (rewrite L2; len).
  destruct F2 as (Dqs & _ & Vqs & _).
  pose proof (Z.mod_pos_bound (val X) d Hd) as Hm. pose proof (div_mod_eq (val X) d Hd) as Hdm.
  set (qq := val X / d) in *. set (r := val X mod d) in *.
  set (snum1 := firstn m snum ++ s' ++ skipn (m + 2 * n) snum).
  set (q1 := firstn m q ++ qs ++ skipn (m + n) q).
  assert (Lf : length (firstn m snum) = m) by len.
  assert (Lfq : length (firstn m q) = m) by len.
  assert (Esk : skipn (m + 2 * n) snum = skipn (2 * n) X) by (unfold X; rewrite skipn_skipn; f_equal; lia).
  assert (V2 : val (s' ++ skipn (m + 2 * n) snum) = r) by (rewrite value_app, Esk, Hs0, V1; lia).
  assert (Vn1 : val snum = val snum1 + p m * (qq * d)).
  { unfold snum1. rewrite value_app, V2, Vn, Lf. replace (val X) with (qq * d + r) by lia. ring. }
  eapply spec_weaken; [apply (IH snum1 sden q1 w1); auto|intros w Hw0; exact Hw0|].
  { unfold snum1. apply below_app. split; [apply below_firstn; exact Dn|]. apply below_app.
    split; [exact D1|apply below_skipn; exact Dn]. }
  { unfold q1. apply below_app. split; [apply below_firstn; exact Dq|]. apply below_app.
    split; [exact Dqs|apply below_skipn; exact Dq]. }
  { lia. }
  { unfold snum1. len. }
  { unfold q1. len. }
  { unfold q1. rewrite firstn_exact by exact Lfq. exact Q1. }
  { unfold snum1. rewrite skipn_exact by exact Lf. rewrite V2. fold d. lia. }
  { intros j Hj. specialize (Hg j ltac:(lia)). fold d in Hg |- *.
    replace ((val snum1 / p (j * n)) mod (d * p n)) with ((val snum / p (j * n)) mod (d * p n)); [exact Hg|].
    pose proof (pw_pos B (j * n) HB) as Hpj.
    assert (Em : p m = p (j * n) * (p n * p ((i - j - 1) * n))).
    { rewrite <- !pw_add. f_equal. unfold m. nia. }
    rewrite Vn1, Em. replace (p (j * n) * (p n * p ((i - j - 1) * n)) * (qq * d))
      with ((p ((i - j - 1) * n) * qq * (d * p n)) * p (j * n)) by ring.
    rewrite Z.div_add by lia. apply Z.mod_add. intros E0. apply Z.mul_eq_0 in E0. lia. }
  fold d m. intros [[snum2 q2] w2] (G1 & G2 & G3 & G4 & G5 & G6 & G7 & G8 & G9).
  assert (Lsn1 : length snum1 = length snum) by (unfold snum1; len).
  assert (Lq1 : length q1 = length q) by (unfold q1; len).
  assert (Eq1 : skipn m q1 = qs ++ skipn (m + n) q) by (unfold q1; apply skipn_exact; exact Lfq).
  assert (E1 : val snum mod d = val snum1 mod d).
  { rewrite Vn1, Z.mul_assoc. apply Z_mod_plus_full. }
  assert (E2 : val snum / d = val snum1 / d + p m * qq).
  { rewrite Vn1, Z.mul_assoc. apply Z.div_add. lia. }
  conj; auto; try lia.
  - replace (m + n)%nat with (n + m)%nat by lia. rewrite <- !skipn_skipn, G6, Eq1.
    rewrite skipn_exact by exact Lqs. rewrite skipn_skipn. f_equal. lia.
  - rewrite firstn_plus, value_app, G7, G6, Eq1. rewrite firstn_exact by exact Lqs.
    rewrite firstn_length_le by lia. rewrite Vqs, E2. reflexivity.
Qed.

(** ** The whole division *)

Definition bz_guard (num den : digits) : Prop := let nd := length den in let n := block_size nd in
  let off := (n - nd)%nat in forall s, is_shift B (nth (nd - 1) den 0) s ->
  val den * 2 ^ s < p nd
  /\ forall j, (j <= (length num - nd) / n)%nat ->
       no_tie n ((val num * 2 ^ s * p off / p (j * n)) mod (val den * 2 ^ s * p off * p n))
         (val den * 2 ^ s * p off).

(** shifting back *)
Lemma unshift_ok l s v : digs l -> 0 <= s -> 2 ^ s < B -> val l = v * 2 ^ s ->
  total (shr_carry_assign_within_digit D l s 0) (fun '(r, (n, _)) =>
    length r = length l /\ fits r n v).
Proof.
  intros Dl Hs Hs2 V. destruct (Z.eq_dec s 0) as [->|Hne].
  - change (2 ^ 0) with 1 in V. unfold shr_carry_assign_within_digit. change (0 =? 0) with true. cbv iota.
    tstep (fits_drop l v); [exact Dl|lia|]. intros n F. ret. auto.
  - eapply total_post; [apply (shr_within_ok B D OK); auto; lia|].
    intros [r [n c]] (L & Dr & Hc & Vr & Hn & Vn & Nn).
    assert (val r = v) by (apply exact_shift with (2 ^ s) c; [exact Hc|lia]).
    unfold fits. conj; auto; lia.
Qed.

Lemma block_small n : (20 <= n <= 80)%nat -> (block_size n <= 80)%nat.
Proof.
  intros H. assert (A : forallb (fun n => (block_size n <=? 80)%nat) (seq 20 61) = true) by (vm_compute; reflexivity).
  rewrite forallb_forall in A. apply Nat.leb_le, A, in_seq. lia.
Qed.

Lemma bz_work nd : (20 <= nd)%nat -> (wneed (block_size nd) <= calc_div_bz_work_size nd)%nat.
Proof.
  intros H. destruct (block_size_ok nd H) as [Hh Hn]. unfold calc_div_bz_work_size, wneed.
  set (n := block_size nd) in *. destruct (Nat.ltb_spec n 20); [lia|].
  clearbody n. clear Hn. inversion Hh as [m Hm E|m Hm Hm2 E]; [lia|]. subst n. rewrite !half2.
  replace (3 * (2 * m))%nat with (2 * (3 * m))%nat by lia. rewrite half2. lia.
Qed.

Definition qr_post (num quot work : digits) (q r : Z) (x : (digits * digits * digits) * (nat * nat)) : Prop :=
  let '((num', quot', work'), (nq, nr)) := x in
  length num' = length num /\ digs num' /\ length quot' = length quot /\ digs quot'
  /\ (nq <= length quot')%nat /\ val (firstn nq quot') = q /\ normal (firstn nq quot')
  /\ (nr <= length num')%nat /\ val (firstn nr num') = r /\ normal (firstn nr num')
  /\ length work' = length work /\ digs work'.

Lemma div_big_bz_ok num den quot work : let nd := length den in
  (20 <= nd)%nat -> (tot = true -> (nd <= 80)%nat) ->
  digs num -> digs den -> digs quot -> digs work -> normal den -> num_lt num den = false ->
  (length num - nd + 1 <= length quot)%nat -> (calc_div_bz_work_size nd <= length work)%nat ->
  bz_guard num den ->
  spec oops (div_big_bz D num den quot work)
    (qr_post num quot work (val num / val den) (val num mod val den)).
Proof.
  intros nd Hnd Htot Dn Dd Dq Dw Nd Hge Lq Lw HG.
  assert (Hlen : (nd <= length num)%nat) by (apply num_lt_false_len; exact Hge).
  unfold div_big_bz. fold nd.
  tstep total_debug_assert; [apply Nat.ltb_lt; lia|]. intros _ _.
  tstep total_debug_assert; [rewrite Hge; reflexivity|]. intros _ _.
  tstep total_debug_assert; [apply Nat.leb_le; lia|]. intros _ _.
  tstep total_debug_work; [apply Nat.leb_le; lia|]. intros _ _.
  pose proof (bz_work nd Hnd) as HW. destruct (block_size_ok nd Hnd) as [Hh Hn].
  assert (Ht80 : tot = true -> (block_size nd <= 80)%nat) by (intros E; apply block_small; auto).
  unfold bz_guard in HG. fold nd in HG.
  set (n := block_size nd) in *. set (off := (n - nd)%nat) in *.
  assert (Dz : forall m, digs (zeros m)) by (intros m; apply below_zeros; lia).
  rewrite copy_into_ok by (len; lia). cbn [bind].
  set (sden0 := firstn off (zeros n) ++ den ++ skipn n (zeros n)).
  assert (Hfz : forall a m, (a <= m)%nat -> firstn a (zeros m) = zeros a).
  { intros a m Ha. unfold zeros. replace m with (a + (m - a))%nat by lia.
    rewrite repeat_app. apply firstn_exact, repeat_length. }
  assert (Hsz : forall a m, (a <= m)%nat -> skipn a (zeros m) = zeros (m - a)).
  { intros a m Ha. unfold zeros. replace m with (a + (m - a))%nat at 1 by lia.
    rewrite repeat_app. apply skipn_exact, repeat_length. }
  assert (Es : sden0 = zeros off ++ den).
  { unfold sden0. rewrite Hfz, Hsz by lia. rewrite Nat.sub_diag. cbn [zeros repeat]. rewrite app_nil_r. reflexivity. }
  clearbody sden0. subst sden0.
  assert (Lz : length (zeros off ++ den) = n) by (len; fold nd; lia).
  rewrite get_ok by lia. cbn [bind].
  assert (Et : nth (n - 1) (zeros off ++ den) 0 = nth (nd - 1) den 0).
  { rewrite app_nth2 by (len; lia). f_equal. len. }
  rewrite Et. set (top := nth (nd - 1) den 0) in *.
  assert (Htop : 0 < top < B) by (apply top_pos; auto; fold nd; lia).
  tstep (ok_max_shift _ _ OK); [lia|]. intros s Hs.
  assert (HS : is_shift B top s) by exact Hs.
  destruct (HG s HS) as [HF2 HT]. clear HG.
  destruct (shift_bound B top s ltac:(lia) HS) as [Hs2 Hs3]. destruct Hs as [Hs0 Hs1].
  pose proof (pw_pos B off HB) as Hpo. pose proof (pw_pos B n HB) as Hpn. pose proof (pw_pos B nd HB) as Hpd.
  assert (Pn : p n = p off * p nd) by (rewrite <- pw_add; f_equal; lia).
  assert (Hden : 0 < val den).
  { destruct (Z.eq_dec (val den) 0) as [E|]; [|pose proof (value_nonneg B HB den Dd); lia].
    apply (value_normal_zero B HB den Dd Nd) in E. unfold nd in Hnd. rewrite E in Hnd. cbn in Hnd. lia. }
  assert (Vz : val (zeros off ++ den) = p off * val den).
  { rewrite value_app, value_zeros. replace (length (zeros off)) with off by len. lia. }
  tstep (shl_within_ok B D OK); [apply below_app; split; [apply Dz|exact Dd]|lia|lia|].
  intros [sden c] (Lsd & Dsd & Hc & Vsd). rewrite Lz in Lsd, Vsd. rewrite Vz in Vsd.
  set (E := val den * 2 ^ s) in *. set (N := val num * 2 ^ s) in *.
  assert (HE : 0 < E) by (unfold E; apply Z.mul_pos_pos; lia).
  assert (Vd : val sden = E * p off).
  { pose proof (value_nonneg B HB sden Dsd).
    assert (p off * E < p off * p nd) by (apply Z.mul_lt_mono_pos_l; lia).
    replace (p off * val den * 2 ^ s) with (p off * E) in Vsd by (unfold E; ring).
    destruct (Z.le_gt_cases 1 c).
    - assert (p n * 1 <= p n * c) by (apply Z.mul_le_mono_nonneg_l; lia). lia.
    - replace c with 0 in Vsd by lia. lia. }
  clear c Hc Vsd.
  (* the dividend *)
  set (nn := length num) in *. set (t1 := ((nn - nd) / n)%nat) in *.
  assert (Hn20 : (20 <= n)%nat) by lia.
  assert (Ht1 : (nn - nd < n * t1 + n)%nat).
  { pose proof (Nat.div_mod (nn - nd) n ltac:(lia)) as X. pose proof (Nat.mod_upper_bound (nn - nd) n ltac:(lia)).
    fold t1 in X. lia. }
  set (T := ((2 + t1) * n)%nat).
  assert (HT1 : (off + nn + 1 <= T)%nat) by (unfold T, off; nia).
  rewrite copy_into_ok by (try (len; lia); fold nn; lia). cbn [bind].
  rewrite Hfz, Hsz by lia.
  set (sn0 := zeros off ++ num ++ zeros (T - (off + nn))).
  assert (Lsn0 : length sn0 = T) by (unfold sn0; len; fold nn; lia).
  assert (Dsn0 : digs sn0) by (unfold sn0; apply below_app; split; [apply Dz|]; apply below_app; split; [exact Dn|apply Dz]).
  eapply step_slice; [lia|lia| |].
  { apply total_spec. apply (shl_within_ok B D OK); [apply below_firstn, below_skipn; exact Dsn0|lia|lia]. }
  cbv beta. intros sl0 c.
  assert (Esl : firstn (off + nn + 1 - off) (skipn off sn0) = num ++ [0]).
  { unfold sn0. rewrite skipn_exact by len. replace (off + nn + 1 - off)%nat with (nn + 1)%nat by lia.
    rewrite firstn_plus. rewrite firstn_exact by reflexivity. f_equal.
    rewrite skipn_exact by reflexivity. rewrite Hfz by lia. reflexivity. }
  rewrite Esl. intros (Lsl & Dsl & Hc & Vsl).
  assert (Lsl' : length sl0 = (nn + 1)%nat) by (rewrite Lsl; len).
  assert (Vsl' : val sl0 = N).
  { rewrite value_app in Vsl. cbn [value] in Vsl. replace (length (num ++ [0])) with (nn + 1)%nat in Vsl by len.
    replace (val num + pw B (length num) * (0 + B * 0)) with (val num) in Vsl by ring. fold N in Vsl.
    pose proof (value_nonneg B HB sl0 Dsl). pose proof (value_bound B HB num Dn) as Hb. fold nn in Hb.
    pose proof (pw_pos B nn HB).
    assert (N < p nn * B).
    { unfold N. apply Z.le_lt_trans with (p nn * 2 ^ s).
      - apply Z.mul_le_mono_nonneg_r; lia.
      - apply Z.mul_lt_mono_pos_l; lia. }
    assert (Ep : p (nn + 1) = p nn * B) by (rewrite pw_add; f_equal; cbn; unfold pw; cbn; lia).
    rewrite Ep in Vsl.
    destruct (Z.le_gt_cases 1 c).
    - assert (p nn * B * 1 <= p nn * B * c) by (apply Z.mul_le_mono_nonneg_l; lia). lia.
    - replace c with 0 in Vsl by lia. lia. }
  clear Hc Vsl. cbn [bind].
  set (snum := firstn off sn0 ++ sl0 ++ skipn (off + nn + 1) sn0).
  assert (Lsn : length snum = T) by (unfold snum; len).
  assert (Dsn : digs snum).
  { unfold snum. apply below_app. split; [apply below_firstn; exact Dsn0|]. apply below_app.
    split; [exact Dsl|apply below_skipn; exact Dsn0]. }
  assert (Vsn : val snum = N * p off).
  { unfold snum, sn0. rewrite firstn_exact by len. rewrite !value_app, value_zeros.
    replace (length (zeros off)) with off by len. rewrite Vsl'.
    replace (skipn (off + nn + 1) (zeros off ++ num ++ zeros (T - (off + nn)))) with (zeros (T - (off + nn) - 1)).
    - rewrite value_zeros. lia.
    - rewrite app_assoc. replace (off + nn + 1)%nat with (1 + (off + nn))%nat by lia. rewrite <- skipn_skipn.
      rewrite skipn_exact by (len; reflexivity). symmetry. apply Hsz. lia. }
  replace (2 + t1 - 1)%nat with (t1 + 1)%nat by lia.
  assert (Hnum : 0 <= val num < p nn) by (apply value_bound; auto).
  assert (Hlast : val (skipn ((t1 + 1) * n) snum) < val sden).
  { assert (HQ : N * p off < p ((t1 + 1) * n) * (E * p off)).
    { replace (p ((t1 + 1) * n) * (E * p off)) with ((p ((t1 + 1) * n) * val den) * (2 ^ s * p off)) by (unfold E; ring).
      replace (N * p off) with (val num * (2 ^ s * p off)) by (unfold N; ring).
      apply Z.mul_lt_mono_pos_r; [apply Z.mul_pos_pos; lia|].
      pose proof (normal_lower B HB den Dd Nd ltac:(intros X; unfold nd in Hnd; rewrite X in Hnd; cbn in Hnd; lia)) as Hlow.
      fold nd in Hlow. pose proof (pw_pos B ((t1 + 1) * n) HB) as Hpt. pose proof (pw_pos B (nd - 1) HB).
      apply Z.lt_le_trans with (p ((t1 + 1) * n) * p (nd - 1)).
      - rewrite <- pw_add. pose proof (pw_le B nn ((t1 + 1) * n + (nd - 1)) HB ltac:(nia)). lia.
      - apply Z.mul_le_mono_nonneg_l; lia. }
    rewrite Vd. rewrite <- Vsn in HQ.
    pose proof (value_split B ((t1 + 1) * n) snum ltac:(rewrite Lsn; unfold T; nia)) as V. rewrite V in HQ.
    pose proof (value_nonneg B HB _ (below_firstn B ((t1 + 1) * n) snum Dsn)).
    pose proof (pw_pos B ((t1 + 1) * n) HB) as Hpt.
    apply Z.mul_lt_mono_pos_l with (p ((t1 + 1) * n)); lia. }
  assert (Hstop : B <= 2 * nth (n - 1) sden 0).
  { assert (E2 : 2 ^ (s + 1) = 2 * 2 ^ s) by (rewrite Z.pow_add_r by lia; lia). rewrite E2 in Hs1.
    assert (Hx : top * 2 ^ s <= nth (n - 1) sden 0); [|lia].
    assert (Etop : val sden / p (n - 1) = nth (n - 1) sden 0).
    { rewrite (value_div B D OK) by (auto; lia).
      rewrite (split_last sden (n - 1)) at 1 by lia. rewrite skipn_exact by len. cbn [value]. lia. }
    rewrite <- Etop. apply Z.div_le_lower_bound; [apply pw_pos; exact HB|].
    rewrite Vd. unfold E. rewrite (split_last den (nd - 1)) by (fold nd; lia). fold top.
    rewrite value_app. rewrite firstn_length_le by (fold nd; lia). cbn [value].
    pose proof (value_nonneg B HB _ (below_firstn B (nd - 1) den Dd)) as Hv.
    assert (0 <= val (firstn (nd - 1) den) * (2 ^ s * p off)) by (apply Z.mul_nonneg_nonneg; [lia|]; apply Z.mul_nonneg_nonneg; lia).
    assert (Ep : p (n - 1) = p (nd - 1) * p off) by (rewrite <- pw_add; f_equal; lia).
    rewrite Ep. replace ((val (firstn (nd - 1) den) + p (nd - 1) * (top + B * 0)) * 2 ^ s * p off)
      with (val (firstn (nd - 1) den) * (2 ^ s * p off) + p (nd - 1) * p off * (top * 2 ^ s)) by ring. lia. }
  assert (Hq0 : digs (zeros ((t1 + 1) * n)) /\ val (firstn ((t1 + 1) * n) (zeros ((t1 + 1) * n))) = 0).
  { split; [apply Dz|]. rewrite Hfz by lia. apply value_zeros. }
  sstep (bz_blocks_ok (t1 + 1) n Hh Ht80 snum sden (zeros ((t1 + 1) * n)) work); auto.
  { lia. }
  { rewrite Lsn. unfold T. nia. }
  { len. }
  { apply Hq0. }
  { intros j Hj. rewrite Vsn, Vd. apply HT. lia. }
  intros [[sn1 q1] w1] (L1 & D1 & V1 & L2 & D2 & _ & V2 & L3 & D3).
  assert (Lq1 : length q1 = ((t1 + 1) * n)%nat) by (rewrite L2; len).
  rewrite firstn_all2 in V2 by lia.
  assert (Uq : val snum / val sden = val num / val den /\ val snum mod val sden = val num mod val den * 2 ^ s * p off).
  { rewrite Vsn, Vd. destruct (unshift (val num) (val den) s Hs0 Hden) as [U1 U2]. fold N E in U1, U2.
    rewrite Z.div_mul_cancel_r, Z.mul_mod_distr_r by lia. rewrite U1, U2. auto. }
  destruct Uq as [Uq Ur]. rewrite Uq in V2. rewrite Ur in V1.
  set (Q := val num / val den) in *. set (R := val num mod val den) in *.
  assert (HR : 0 <= R < val den) by (apply Z.mod_pos_bound; lia).
  set (ms := firstn (n - off) (skipn off sn1)).
  assert (HRd : R * 2 ^ s < p nd).
  { apply Z.lt_trans with E; [|lia]. unfold E. apply Z.mul_lt_mono_pos_r; lia. }
  assert (Vms : val ms = R * 2 ^ s /\ val (skipn n sn1) = 0).
  { pose proof (value_split B off sn1 ltac:(lia)) as Va.
    pose proof (value_split B (n - off) (skipn off sn1) ltac:(len)) as Vb. fold ms in Vb.
    rewrite skipn_skipn in Vb. replace (n - off + off)%nat with n in Vb by lia.
    replace (n - off)%nat with nd in Vb by lia.
    pose proof (value_bound B HB _ (below_firstn B off sn1 D1)) as Ba. rewrite firstn_length_le in Ba by lia.
    assert (Dms : digs ms) by (apply below_firstn, below_skipn; exact D1).
    pose proof (value_bound B HB ms Dms) as Bb.
    replace (length ms) with nd in Bb by (unfold ms; len).
    pose proof (value_nonneg B HB _ (below_skipn B n sn1 D1)).
    assert (E1 : val (skipn off sn1) = R * 2 ^ s).
    { rewrite V1 in Va.
      assert (Ex : (R * 2 ^ s * p off) / p off = val (skipn off sn1)).
      { rewrite Va, (Z.mul_comm (p off)), Z.div_add, Z.div_small by lia. reflexivity. }
      rewrite Z.div_mul in Ex by lia. congruence. }
    rewrite E1 in Vb. destruct (Z.le_gt_cases 1 (val (skipn n sn1))).
    - assert (p nd * 1 <= p nd * val (skipn n sn1)) by (apply Z.mul_le_mono_nonneg_l; lia). lia.
    - assert (E0 : val (skipn n sn1) = 0) by lia. rewrite E0 in Vb. split; lia. }
  destruct Vms as [Vms _].
  assert (Dms : digs ms) by (apply below_firstn, below_skipn; exact D1).
  eapply step_slice; [lia|lia| |].
  { fold ms. apply total_spec. apply (unshift_ok ms s R); auto; lia. }
  cbv beta. intros r [nr c1] (Lr & Dr & Hnr & Vr & Vnr & Nnr). clear c1.
  assert (Lr' : length r = nd) by (rewrite Lr; unfold ms; len).
  tstep (fits_drop q1 Q); [exact D2|exact V2|]. intros nq (_ & Hnq & _ & Vnq & Nnq).
  assert (Hk : (nq <= length num - nd + 1)%nat).
  { replace nq with (length (firstn nq q1)) by len.
    apply (normal_len B _ _ (nn - nd + 1) HB (below_firstn B nq q1 D2) Nnq Vnq).
    unfold Q. apply Z.div_lt_upper_bound; [lia|].
    pose proof (normal_lower B HB den Dd Nd ltac:(intros X; unfold nd in Hnd; rewrite X in Hnd; cbn in Hnd; lia)) as Hlow.
    fold nd in Hlow. pose proof (pw_pos B (nn - nd + 1) HB).
    apply Z.lt_le_trans with (p (nd - 1) * p (nn - nd + 1)).
    - rewrite <- pw_add. replace (nd - 1 + (nn - nd + 1))%nat with nn by lia. lia.
    - apply Z.mul_le_mono_nonneg_r; lia. }
  rewrite copy_prefix_ok by (fold nn in Hk; lia). cbn [bind].
  set (sn2 := firstn off sn1 ++ r ++ skipn n sn1).
  assert (Ls2 : length sn2 = T) by (unfold sn2; len).
  rewrite sub_slice_ok by (rewrite ?Ls2; lia). cbn [bind].
  assert (Er : firstn (off + nr - off) (skipn off sn2) = firstn nr r).
  { unfold sn2. rewrite skipn_exact by len. replace (off + nr - off)%nat with nr by lia.
    rewrite firstn_app. replace (nr - length r)%nat with 0%nat by lia. rewrite firstn_O, app_nil_r. reflexivity. }
  rewrite Er. rewrite copy_into_ok by (len; lia). cbn [bind firstn app].
  ret. assert (Lfq : length (firstn nq q1) = nq) by len. assert (Lfr : length (firstn nr r) = nr) by len.
  unfold qr_post. fold nn in Hk. conj; auto.
  - len.
  - apply below_app. split; [apply below_firstn; exact Dr|apply below_skipn; exact Dn].
  - len.
  - apply below_app. split; [apply below_firstn; exact D2|apply below_skipn; exact Dq].
  - len.
  - rewrite firstn_exact by exact Lfq. exact Vnq.
  - rewrite firstn_exact by exact Lfq. exact Nnq.
  - len.
  - rewrite firstn_exact by exact Lfr. exact Vnr.
  - rewrite firstn_exact by exact Lfr. exact Nnr.
Qed.

Lemma div_big_large_ok num den quot : let nd := length den in
  (20 <= nd)%nat -> (tot = true -> (nd <= 80)%nat) ->
  digs num -> digs den -> digs quot -> normal num -> normal den ->
  (length num - nd + 1 <= length quot)%nat ->
  (num_lt num den = false -> bz_guard num den) ->
  spec oops (div_big D num den quot) (fun '(num', quot', r) => exists nq nr, r = ROk (nq, nr)
    /\ length num' = length num /\ digs num' /\ digs quot'
    /\ (nq <= length quot')%nat /\ val (firstn nq quot') = val num / val den
    /\ normal (firstn nq quot')
    /\ (nr <= length num')%nat /\ val (firstn nr num') = val num mod val den
    /\ normal (firstn nr num')).
Proof.
  intros nd Hnd Htot Dn Dd Dq Nn Nd Lq HG.
  assert (Hne : den <> []) by (intros X; unfold nd in Hnd; rewrite X in Hnd; cbn in Hnd; lia).
  destruct (num_lt num den) eqn:Elt.
  { rewrite (div_big_small D num den quot Hne Elt). ret. exists 0%nat, (length num).
    pose proof (value_nonneg B HB num Dn).
    assert (Hv : val num < val den) by (apply (num_lt_true_value B HB num den); auto).
    rewrite Z.div_small, Z.mod_small by lia. rewrite firstn_all. conj; auto; try lia; try apply normal_nil. }
  unfold div_big, div_big_with_work, div_big_with_work_gen. rewrite Elt. fold nd.
  destruct (Nat.leb_spec nd 2); [lia|]. cbn [orb].
  destruct (Nat.ltb_spec nd BZ_CUTOFF) as [X|_]; [unfold BZ_CUTOFF in X; lia|].
  destruct (Nat.eqb_spec nd 0); [lia|]. destruct (Nat.eqb_spec nd 1); [lia|]. destruct (Nat.eqb_spec nd 2); [lia|].
  destruct (Nat.ltb_spec (length quot) (length num - nd + 1)); [lia|]. cbn [andb].
  eapply spec_bind with (R := fun '((num', quot', _), r) => exists nq nr, r = ROk (nq, nr)
    /\ length num' = length num /\ digs num' /\ digs quot'
    /\ (nq <= length quot')%nat /\ val (firstn nq quot') = val num / val den
    /\ normal (firstn nq quot')
    /\ (nr <= length num')%nat /\ val (firstn nr num') = val num mod val den
    /\ normal (firstn nr num')).
  2:{ intros [[[num' quot'] w'] r] HH. ret. exact HH. }
  eapply spec_bind.
  - tstep total_debug_work; [apply Nat.leb_le; len; fold nd; lia|]. intros _ _.
    apply div_big_bz_ok; auto; try (fold nd; lia); [apply below_zeros; lia|len; fold nd; lia].
  - intros [[[num' quot'] w'] [nq nr]] (L1 & D1 & L2 & D2 & H1 & H2 & H3 & H4 & H5 & H6 & _).
    ret. exists nq, nr. conj; auto.
Qed.

Lemma div_assign_big_large_ok x y : digs x -> digs y -> normal x -> normal y ->
  (20 <= length y)%nat -> (tot = true -> (length y <= 80)%nat) ->
  (num_lt x y = false -> bz_guard x y) ->
  spec oops (div_assign_big D x y) (fun '(q, res) => exists r, res = ROk r
    /\ digs q /\ normal q /\ digs r /\ normal r /\ val q = val x / val y /\ val r = val x mod val y).
Proof.
  intros Dx Dy Nx Ny Hl Htot HG.
  unfold div_assign_big. destruct (Nat.ltb_spec (length x) (length y)) as [Hlt|Hge].
  - apply total_spec. tstep (new_ok B); [exact Dx|]. intros r (R1 & R2 & R3). ret. exists r.
    assert (val x < val y) by (apply (value_length_lt B HB); auto).
    pose proof (value_nonneg B HB x Dx). rewrite Z.div_small, Z.mod_small by lia.
    conj; auto using below_nil, normal_nil.
  - sstep div_big_large_ok; auto; try lia; try (apply below_zeros; lia); [len|].
    intros [[num' quot'] r] (nq & nr & -> & L & D1 & D2 & H1 & H2 & H3 & H4 & H5 & H6).
    tstep (new_ok B); [apply below_firstn; exact D1|]. intros r (R1 & R2 & R3). ret. exists r.
    conj; auto; [apply below_firstn; exact D2|]. unfold truncate in R3. congruence.
Qed.

Lemma rem_assign_big_large_ok x y : digs x -> digs y -> normal x -> normal y ->
  (20 <= length y)%nat -> (tot = true -> (length y <= 80)%nat) ->
  (num_lt x y = false -> bz_guard x y) ->
  spec oops (rem_assign_big D x y) (fun '(r, res) => res = ROk tt
    /\ digs r /\ normal r /\ val r = val x mod val y).
Proof.
  intros Dx Dy Nx Ny Hl Htot HG.
  unfold rem_assign_big. destruct (Nat.leb_spec (length y) (length x)) as [Hge|Hlt].
  - sstep div_big_large_ok; auto; try lia; try (apply below_zeros; lia); [len|].
    intros [[num' quot'] r] (nq & nr & -> & L & D1 & D2 & H1 & H2 & H3 & H4 & H5 & H6).
    ret. conj; auto. apply below_firstn; exact D1.
  - ret. assert (val x < val y) by (apply (value_length_lt B HB); auto).
    pose proof (value_nonneg B HB x Dx). rewrite Z.mod_small by lia. auto.
Qed.
End Bz.
