(** * MulProof: digit multiplication, schoolbook multiplication and squaring. *)
From Coq Require Import ZArith List Bool Lia.
From Verif Require Import Base Digit Spec Hoare DigitOK Slice Mul ListLemmas SliceProof.
Import ListNotations.
Open Scope Z_scope.
Open Scope m_scope.

Section MulProof.
Variables (B : Z) (D : digit).
Hypothesis OK : digit_ok B D.
Notation val := (value B).
Notation digs := (below B).
Notation "'p' n" := (pw B n) (at level 10, n at level 9).
Let HB : 1 < B := HB B D OK.
Hint Resolve HB : core.

Lemma double_ok nr c : digs nr ->
  total (double_carry_assign D nr c) (fun '(r, c') =>
    length r = length nr /\ digs r
    /\ val r + p (length nr) * of_bool c' = 2 * val nr + of_bool c).
Proof.
  revert c. induction nr as [|d t IH]; intros c H; cbn [double_carry_assign].
  - ret. conj; auto. cbn [length value]. rewrite pw_0. lia.
  - apply below_cons in H. destruct H as [Hd Ht].
    tstep (ok_double _ _ OK); [exact Hd|]. intros [d' c1] (Hr & HE).
    tstep IH; [exact Ht|]. intros [t' c'] (HL & Hdt & HV). ret.
    conj; [cbn; lia|apply below_cons; auto|].
    cbn [value length]. rewrite pw_S. nia.
Qed.

Lemma mul_add_digit_ok nr fac off : digs nr -> 0 <= fac < B -> 0 <= off < B ->
  total (mul_add_assign_digit D nr fac off) (fun '(r, c) =>
    length r = length nr /\ digs r /\ 0 <= c < B
    /\ val r + p (length nr) * c = val nr * fac + off).
Proof.
  intros H Hf. revert off. induction nr as [|d t IH]; intros off Ho; cbn [mul_add_assign_digit].
  - ret. conj; auto; try lia. cbn [length value]. rewrite pw_0. lia.
  - apply below_cons in H. destruct H as [Hd Ht].
    tstep (ok_mul _ _ OK); [exact Hd|exact Hf|exact Ho|]. intros [d' c1] (Hr & Hc & HE).
    tstep IH; [exact Ht|exact Hc|]. intros [t' c'] (HL & Hdt & Hc' & HV). ret.
    conj; [cbn; lia|apply below_cons; auto|lia|lia|].
    cbn [value length]. rewrite pw_S. nia.
Qed.

Lemma mul_zip_into_ok nr fac prod c : digs nr -> digs prod -> 0 <= fac < B -> 0 <= c < B ->
  (length nr <= length prod)%nat ->
  total (mul_zip_into D nr fac prod c) (fun '(r, c') =>
    length r = length prod /\ digs r /\ 0 <= c' < B
    /\ skipn (length nr) r = skipn (length nr) prod
    /\ val (firstn (length nr) r) + p (length nr) * c' = val nr * fac + c).
Proof.
  intros H Hp Hf. revert prod c Hp. induction nr as [|d t IH]; intros prod c Hp Hc HL.
  - cbn [mul_zip_into]. ret. conj; auto; try lia. cbn [length value firstn].
    rewrite pw_0. lia.
  - destruct prod as [|x prod]; [cbn in HL; lia|]. cbn [mul_zip_into].
    apply below_cons in H, Hp. destruct H as [Hd Ht], Hp as [Hx Hp].
    tstep (ok_mul _ _ OK); [exact Hd|exact Hf|exact Hc|]. intros [d' c1] (Hr & Hc1 & HE).
    tstep IH; [exact Ht|exact Hp|exact Hc1|cbn in HL; lia|].
    intros [t' c'] (HL' & Hdt & Hc' & Hs & HV). ret.
    conj; [cbn; lia|apply below_cons; auto|lia|lia|cbn; assumption|].
    cbn [value length firstn]. rewrite pw_S. nia.
Qed.

Lemma mul_digit_into_ok nr fac prod : digs nr -> digs prod -> 0 <= fac < B ->
  (length nr + 1 <= length prod)%nat ->
  total (mul_digit_into D nr fac prod) (fun r =>
    length r = length prod /\ digs r
    /\ skipn (S (length nr)) r = skipn (S (length nr)) prod
    /\ val (firstn (S (length nr)) r) = val nr * fac).
Proof.
  intros H Hp Hf HL. unfold mul_digit_into.
  tstep total_debug_assert; [apply Nat.leb_le; exact HL|]. intros _ _.
  tstep mul_zip_into_ok; auto; [lia|lia|]. intros [r c] (HL' & Hr & Hc & Hs & HV).
  rewrite set_ok by lia. ret.
  assert (Lf : length (firstn (length nr) r) = length nr) by len.
  conj.
  - len.
  - apply below_app. split; [apply below_firstn; assumption|].
    apply below_cons. split; [assumption|apply below_skipn; assumption].
  - rewrite skipn_app_ge by lia. rewrite Lf.
    replace (S (length nr) - length nr)%nat with 1%nat by lia. rewrite skipn_one.
    apply skipn_more with (length nr); [lia|assumption].
  - rewrite firstn_app_ge by lia. rewrite Lf.
    replace (S (length nr) - length nr)%nat with 1%nat by lia. rewrite firstn_one.
    rewrite value_app, Lf. cbn [value]. nia.
Qed.

(** ** Multiplication by a two-digit factor *)
Lemma mul_pair_loop_ok nr fl fh prev c0 (a : bool) :
  digs nr -> 0 <= fl < B -> 0 <= fh < B -> 0 <= prev < B -> 0 <= c0 < B ->
  prev * fh + c0 + B * of_bool a < B * B ->
  total (mul_pair_loop D nr fl fh prev c0 a) (fun '(r, (x, y)) =>
    length r = length nr /\ digs r /\ 0 <= x < B /\ 0 <= y < B
    /\ val r + p (length nr) * (x + B * y)
       = val nr * (fl + B * fh) + prev * fh + c0 + B * of_bool a).
Proof.
  intros H Hl Hh. revert prev c0 a. induction nr as [|d t IH]; intros prev c0 a Hp Hc HI;
    cbn [mul_pair_loop].
  - tstep (ok_mul _ _ OK); [exact Hp|exact Hh|exact Hc|]. intros [pr c1] (Hr & Hc1 & HE).
    assert (Hinc : total (if a then '(c, _) <- d_inc D c1 ;; Ret c else Ret c1)
                     (fun c => 0 <= c < B /\ c = c1 + of_bool a)).
    { destruct a; cbn [of_bool] in *.
      - tstep (ok_inc _ _ OK); [exact Hc1|]. intros [c u] (Hu & Hv). ret.
        destruct u; cbn [of_bool] in Hv; [nia|lia].
      - ret. lia. }
    tstep Hinc. intros c [Hc2 ->]. ret. conj; auto; try lia.
    cbn [length value]. rewrite pw_0. nia.
  - apply below_cons in H. destruct H as [Hd Ht].
    tstep (ok_mul _ _ OK); [exact Hp|exact Hh|exact Hc|]. intros [pr c1] (Hr & Hc1 & HE).
    assert (Hinc : total (if a then d_inc D c1 else Ret (c1, false))
                     (fun '(c, u) => u = false /\ 0 <= c < B /\ c = c1 + of_bool a)).
    { destruct a; cbn [of_bool] in *.
      - eapply total_post; [apply (ok_inc _ _ OK); exact Hc1|]. intros [c u] (Hu & Hv).
        destruct u; cbn [of_bool] in Hv; [nia|conj; auto; lia].
      - ret. conj; auto; lia. }
    tstep Hinc. intros [c u] (-> & Hc2 & Ec). cbn [orb].
    tstep (ok_mul _ _ OK); [exact Hd|exact Hl|exact Hr|]. intros [d' c3] (Hd' & Hc3 & HE3).
    tstep (ok_add _ _ OK); [exact Hc2|exact Hc3|]. intros [c4 o] (Hc4 & HE4).
    change (of_bool false) with 0 in HE4.
    assert (Hstep : B * (d * fh + c4 + B * of_bool o) + d'
                    = prev * fh + c0 + B * of_bool a + d * (fl + B * fh)) by nia.
    assert (Hnext : d * fh + c4 + B * of_bool o < B * B) by nia.
    tstep IH; [exact Ht|exact Hd|exact Hc4|exact Hnext|].
    intros [t' [x y]] (HL & Hdt & Hx & Hy & HV). ret.
    conj; [cbn; lia|apply below_cons; auto|lia|lia|lia|lia|].
    cbn [value length]. rewrite pw_S. nia.
Qed.

Lemma mul_pair_ok nr fl fh off : digs nr -> 0 <= fl < B -> 0 <= fh < B -> 0 <= off < B ->
  total (mul_pair_add_assign_digit D nr fl fh off) (fun '(r, (x, y)) =>
    length r = length nr /\ digs r /\ 0 <= x < B /\ 0 <= y < B
    /\ val r + p (length nr) * (x + B * y) = val nr * (fl + B * fh) + off).
Proof.
  intros H Hl Hh Ho. destruct nr as [|d t]; cbn [mul_pair_add_assign_digit].
  - ret. conj; auto; try lia. cbn [length value]. rewrite pw_0. lia.
  - apply below_cons in H. destruct H as [Hd Ht].
    tstep (ok_mul _ _ OK); [exact Hd|exact Hl|exact Ho|]. intros [d' c1] (Hr & Hc1 & HE).
    tstep mul_pair_loop_ok; [exact Ht|exact Hl|exact Hh|exact Hd|exact Hc1|cbn [of_bool]; nia|].
    intros [t' [x y]] (HL & Hdt & Hx & Hy & HV). change (of_bool false) with 0 in HV. ret.
    conj; [cbn; lia|apply below_cons; auto|lia|lia|lia|lia|].
    cbn [value length]. rewrite pw_S. nia.
Qed.

(** ** Schoolbook multiplication *)
Lemma add_prod_zip_ok nr0 rd d1 c : digs nr0 -> digs rd -> 0 <= d1 < B -> 0 <= c < B ->
  length rd = length nr0 ->
  total (add_prod_zip D nr0 rd d1 c) (fun '(r, c') =>
    length r = length rd /\ digs r /\ 0 <= c' < B
    /\ val r + p (length rd) * c' = val rd + val nr0 * d1 + c).
Proof.
  intros H0 Hr Hd1. revert rd c Hr. induction nr0 as [|d t IH]; intros [|x rd] c Hr Hc HL;
    cbn [add_prod_zip]; try discriminate.
  - ret. conj; auto; try lia. cbn [length value]. rewrite pw_0. lia.
  - apply below_cons in H0, Hr. destruct H0 as [Hd Ht], Hr as [Hx Hr].
    tstep (ok_addprod _ _ OK); [exact Hx|exact Hd|exact Hd1|exact Hc|].
    intros [x' c1] (Hx' & Hc1 & HE).
    tstep IH; [exact Ht|exact Hr|exact Hc1|cbn in HL; lia|].
    intros [t' c'] (HL' & Hdt & Hc' & HV). ret.
    conj; [cbn; lia|apply below_cons; auto|lia|lia|].
    cbn [value length]. rewrite pw_S. nia.
Qed.

Lemma bind_set {A} (e : M (digits * Z)) i (k : digits -> M A) :
  ('(r, carry) <- e ;; r' <- set r i carry ;; k r')
  = (r <- ('(r, carry) <- e ;; set r i carry) ;; k r).
Proof. destruct e as [[? ?]| |]; reflexivity. Qed.

(** one row: add [nr0 * d1] at [off] and store the carry *)
Lemma mul_row_ok nr0 d1 off result : digs nr0 -> digs result -> 0 <= d1 < B ->
  (off + length nr0 < length result)%nat ->
  total ('(r, carry) <- with_slice result off (off + length nr0)
                          (fun s => add_prod_zip D nr0 s d1 0) ;;
         set r (off + length nr0) carry)
    (fun r => length r = length result /\ digs r
      /\ skipn (S (off + length nr0)) r = skipn (S (off + length nr0)) result
      /\ val (firstn (S (off + length nr0)) r)
         = val (firstn (off + length nr0) result) + p off * (val nr0 * d1)).
Proof.
  intros H0 Hr Hd HL. set (n := length nr0) in *.
  assert (Hw : total (with_slice result off (off + n) (fun s => add_prod_zip D nr0 s d1 0))
    (fun '(r, c) => 0 <= c < B /\ exists s, r = firstn off result ++ s ++ skipn (off + n) result
       /\ length s = n /\ digs s
       /\ val s + p n * c = val (firstn n (skipn off result)) + val nr0 * d1)).
  { eapply (spec_with_slice never); [lia|lia| |].
    - apply add_prod_zip_ok; auto; [apply below_firstn, below_skipn; assumption|lia|].
      rewrite firstn_length, skipn_length. lia.
    - intros s c. cbv beta iota. replace (off + n - off)%nat with n by lia.
      assert (Ln : length (firstn n (skipn off result)) = n) by (rewrite firstn_length, skipn_length; lia).
      rewrite Ln. intros (A1 & A2 & A3 & A4). split; [assumption|]. exists s. conj; auto. lia. }
  tstep Hw. intros [r c] (Hc & s & -> & Ls & Hds & HV).
  assert (Lf : length (firstn off result) = off) by len.
  assert (Lfs : length (firstn off result ++ s) = (off + n)%nat) by (rewrite app_length; lia).
  rewrite app_assoc.
  rewrite set_ok by (rewrite app_length, skipn_length; lia). ret.
  rewrite firstn_exact by lia.
  rewrite (skipn_app_ge (S (off + n))) by lia. rewrite Lfs.
  replace (S (off + n) - (off + n))%nat with 1%nat by lia. rewrite skipn_skipn.
  replace (1 + (off + n))%nat with (S (off + n)) by lia.
  conj.
  - rewrite app_length. cbn [length]. rewrite skipn_length. lia.
  - rewrite !below_app, below_cons.
    conj; auto; try lia; [apply below_firstn; assumption|apply below_skipn; assumption].
  - rewrite skipn_app_ge by lia. rewrite Lfs.
    replace (S (off + n) - (off + n))%nat with 1%nat by lia. reflexivity.
  - rewrite firstn_app_ge by lia. rewrite Lfs.
    replace (S (off + n) - (off + n))%nat with 1%nat by lia. cbn [firstn].
    rewrite !value_app, Lfs, Lf, firstn_plus, value_app, Lf. cbn [value]. rewrite pw_add. nia.
Qed.

Lemma mul_long_loop_ok nr0 nr1 off result : digs nr0 -> digs nr1 -> digs result ->
  (off + length nr0 + length nr1 <= length result)%nat ->
  total (mul_long_loop D nr0 nr1 off result) (fun r =>
    length r = length result /\ digs r
    /\ skipn (off + length nr0 + length nr1) r = skipn (off + length nr0 + length nr1) result
    /\ val (firstn (off + length nr0 + length nr1) r)
       = val (firstn (off + length nr0) result) + p off * (val nr0 * val nr1)).
Proof.
  intros H0. revert off result. induction nr1 as [|d1 t IH]; intros off result H1 Hr HL;
    cbn [mul_long_loop].
  - ret. conj; auto. cbn [length value]. rewrite Nat.add_0_r. lia.
  - apply below_cons in H1. destruct H1 as [Hd Ht]. cbn [length] in HL.
    rewrite bind_set. tstep mul_row_ok; auto; [lia|]. intros r (L1 & D1 & S1 & V1).
    eapply total_post; [apply IH; auto; lia|]. intros r' (L2 & D2 & S2 & V2).
    cbn [length]. replace (off + length nr0 + S (length t))%nat
      with (S off + length nr0 + length t)%nat by lia.
    conj; auto; [lia| |].
    + rewrite S2. apply skipn_more with (S (off + length nr0)); [lia|assumption].
    + rewrite V2. cbn [Nat.add]. rewrite V1, pw_S. cbn [value]. nia.
Qed.

(** What a multiplication routine has to deliver (see also [mul_post] below). *)
Lemma mul_long_ok nr0 nr1 result : digs nr0 -> digs nr1 -> digs result ->
  (length nr0 + length nr1 <= length result)%nat ->
  total (mul_big_long_into D nr0 nr1 result) (fun '(r, n) =>
    length r = length result /\ digs r /\ (n <= length nr0 + length nr1)%nat
    /\ skipn (length nr0 + length nr1) r = skipn (length nr0 + length nr1) result
    /\ val (firstn (length nr0 + length nr1) r) = val nr0 * val nr1
    /\ val (firstn n r) = val nr0 * val nr1 /\ normal (firstn n r)).
Proof.
  intros H0 H1 Hr HL. unfold mul_big_long_into. set (nd := (length nr0 + length nr1)%nat) in *.
  rewrite fill_zero_ok by lia. cbn [bind]. rewrite firstn_O, Nat.sub_0_r. cbn [app].
  tstep mul_long_loop_ok; auto.
  { apply below_app. split; [apply below_zeros; auto|apply below_skipn; assumption]. }
  { len. }
  cbn [Nat.add]. fold nd. intros r (L1 & D1 & S1 & V1).
  assert (V0 : val (firstn (length nr0) (zeros nd ++ skipn nd result)) = 0).
  { rewrite firstn_app_le by len. unfold zeros.
    replace nd with (length nr0 + (nd - length nr0))%nat by lia.
    rewrite repeat_app, firstn_exact by len. apply value_zeros. }
  rewrite V0, pw_0 in V1.
  assert (L2 : length r = length result) by len.
  tstep (drop_val B); [lia|]. intros n (N1 & N2 & N3). ret.
  conj; auto; [|lia|lia]. rewrite S1. apply skipn_exact. len.
Qed.

(** ** Schoolbook squaring *)
Fixpoint diag (l : list Z) : Z :=
  match l with [] => 0 | d :: t => d * d + B * (B * diag t) end.

Lemma diag_app a b : diag (a ++ b) = diag a + p (2 * length a) * diag b.
Proof.
  induction a as [|d a IH]; cbn [app diag length].
  - rewrite pw_0. lia.
  - rewrite IH. replace (2 * S (length a))%nat with (S (S (2 * length a))) by lia.
    rewrite !pw_S. ring.
Qed.
Lemma diag_nonneg l : digs l -> 0 <= diag l.
Proof.
  induction l as [|d l IH]; intros H; cbn [diag]; [lia|].
  apply below_cons in H. destruct H as [Hd Hl]. specialize (IH Hl). nia.
Qed.

Lemma square_diag_ok nr0 sq (c : bool) : digs nr0 -> digs sq -> length sq = (2 * length nr0)%nat ->
  total (square_diag D nr0 sq c) (fun '(r, c') =>
    length r = length sq /\ digs r
    /\ val r + p (length sq) * of_bool c' = val sq + diag nr0 + of_bool c).
Proof.
  intros H0. revert sq c. induction nr0 as [|d t IH]; intros sq c Hs HL.
  - destruct sq; [|cbn in HL; lia]. cbn [square_diag]. ret. conj; auto.
    cbn [length value diag]. rewrite pw_0. lia.
  - destruct sq as [|r0 [|r1 sq]]; try (cbn in HL; lia). cbn [square_diag].
    apply below_cons in H0. destruct H0 as [Hd Ht].
    rewrite !below_cons in Hs. destruct Hs as (Hr0 & Hr1 & Hs).
    assert (Hfb : 0 <= from_bit c < B) by (destruct c; cbn; lia).
    tstep (ok_addprod _ _ OK); [exact Hr0|exact Hd|exact Hd|exact Hfb|].
    intros [r0' c2] (Hr0' & Hc2 & HE).
    tstep (ok_add _ _ OK); [exact Hr1|exact Hc2|]. intros [r1' c3] (Hr1' & HE2).
    change (of_bool false) with 0 in HE2.
    tstep IH; [exact Ht|exact Hs|cbn in HL; lia|].
    intros [t' c'] (HL' & Hdt & HV). ret.
    change (from_bit c) with (of_bool c) in HE.
    conj; [cbn; lia|rewrite !below_cons; auto|].
    cbn [value length diag]. rewrite !pw_S. nia.
Qed.

Lemma zeros_split a b : zeros (a + b) = zeros a ++ zeros b.
Proof. apply repeat_app. Qed.

(** Loop over the off-diagonal products. [sum] is the sum so far; [tail] is
    the part of the buffer above the square. *)
Lemma square_long_loop_ok nr0 rest n1 square tail sum : digs nr0 -> digs square ->
  rest = skipn n1 nr0 -> (1 <= n1 <= length nr0)%nat ->
  skipn (2 * n1 - 1) square = zeros (2 * length nr0 - (2 * n1 - 1)) ++ tail ->
  (2 * length nr0 <= length square)%nat ->
  val (firstn (2 * n1 - 1) square) = sum ->
  2 * sum + diag (firstn n1 nr0) = val (firstn n1 nr0) * val (firstn n1 nr0) ->
  total (square_long_loop D nr0 rest n1 square) (fun r =>
    length r = length square /\ digs r /\ skipn (2 * length nr0) r = tail
    /\ 2 * val (firstn (2 * length nr0) r) + diag nr0 = val nr0 * val nr0).
Proof.
  intros H0. revert n1 square sum. induction rest as [|d1 t IH];
    intros n1 square sum Hs Hrest Hn1 Hz HL HV HI; cbn [square_long_loop].
  - ret. assert (Hl : length (skipn n1 nr0) = 0%nat) by (rewrite <- Hrest; reflexivity).
    rewrite skipn_length in Hl. rewrite firstn_all2 in HI by lia.
    replace n1 with (length nr0) in * by lia.
    replace (2 * length nr0 - (2 * length nr0 - 1))%nat with 1%nat in Hz by lia.
    conj; auto.
    + replace (2 * length nr0)%nat with (1 + (2 * length nr0 - 1))%nat at 1 by lia.
      rewrite <- skipn_skipn, Hz. reflexivity.
    + replace (2 * length nr0)%nat with ((2 * length nr0 - 1) + 1)%nat at 1 by lia.
      rewrite firstn_plus, Hz, value_app. cbn [firstn app zeros repeat value]. lia.
  - assert (Hlt : (n1 < length nr0)%nat).
    { assert (length (skipn n1 nr0) = S (length t)) by (rewrite <- Hrest; reflexivity). len. }
    rewrite prefix_ok by lia. cbn [bind].
    assert (Hdt : 0 <= d1 < B /\ t = skipn (S n1) nr0).
    { pose proof (below_skipn B n1 nr0 H0) as Hk. rewrite <- Hrest in Hk.
      apply below_cons in Hk. split; [tauto|].
      replace (S n1) with (1 + n1)%nat by lia. rewrite <- skipn_skipn, <- Hrest. reflexivity. }
    destruct Hdt as [Hd Ht].
    assert (Lp : length (firstn n1 nr0) = n1) by len.
    replace (2 * n1)%nat with (n1 + length (firstn n1 nr0))%nat by lia.
    rewrite bind_set.
    tstep mul_row_ok; auto; [apply below_firstn; assumption|lia|].
    rewrite Lp. intros r (L1 & D1 & S1 & V1).
    replace (2 * length nr0 - (2 * n1 - 1))%nat
      with (1 + (1 + (2 * length nr0 - (2 + (2 * n1 - 1)))))%nat in Hz by lia.
    rewrite !zeros_split, <- !app_assoc in Hz. cbn [zeros repeat] in Hz.
    assert (Zs : skipn (S (n1 + n1)) square
                 = zeros (2 * length nr0 - (2 + (2 * n1 - 1))) ++ tail).
    { replace (S (n1 + n1)) with (2 + (2 * n1 - 1))%nat by lia.
      rewrite <- skipn_skipn, Hz. reflexivity. }
    assert (Vs : val (firstn (n1 + n1) square) = sum).
    { replace (n1 + n1)%nat with ((2 * n1 - 1) + 1)%nat by lia.
      rewrite firstn_plus, Hz, value_app, HV. cbn [firstn app value]. lia. }
    rewrite Vs in V1. rewrite Zs in S1.
    assert (Ef : firstn (S n1) nr0 = firstn n1 nr0 ++ [d1]).
    { replace (S n1) with (n1 + 1)%nat by lia. rewrite firstn_plus, <- Hrest. reflexivity. }
    eapply total_post.
    + eapply (IH (S n1) r); auto; try lia.
      * replace (2 * S n1 - 1)%nat with (S (n1 + n1)) by lia. rewrite S1. f_equal. f_equal. lia.
      * replace (2 * S n1 - 1)%nat with (S (n1 + n1)) by lia. rewrite V1.
        rewrite Ef, diag_app, value_app, Lp. cbn [diag value].
        replace (2 * n1)%nat with (n1 + n1)%nat by lia. rewrite pw_add. nia.
    + intros r' (A1 & A2 & A3 & A4). conj; auto; lia.
Qed.

Lemma value_sq_bound l : digs l -> 0 <= val l * val l < p (2 * length l).
Proof.
  intros H. pose proof (value_bound B HB l H) as Hb.
  replace (2 * length l)%nat with (length l + length l)%nat by lia. rewrite pw_add. nia.
Qed.

Lemma square_long_ok nr0 square : digs nr0 -> digs square ->
  (2 * length nr0 <= length square)%nat ->
  total (square_long_into D nr0 square) (fun '(r, n) =>
    length r = length square /\ digs r /\ (n <= 2 * length nr0)%nat
    /\ skipn (2 * length nr0) r = skipn (2 * length nr0) square
    /\ val (firstn (2 * length nr0) r) = val nr0 * val nr0
    /\ val (firstn n r) = val nr0 * val nr0 /\ normal (firstn n r)).
Proof.
  intros H0 Hs HL. unfold square_long_into. set (nd := (2 * length nr0)%nat) in *.
  rewrite fill_zero_ok by lia. cbn [bind]. rewrite firstn_O, Nat.sub_0_r. cbn [app].
  pose proof (value_sq_bound nr0 H0) as Hsq. fold nd in Hsq.
  pose proof (diag_nonneg nr0 H0) as Hdg.
  assert (Hloop : total (square_long_loop D nr0 (tl nr0) 1 (zeros nd ++ skipn nd square)) (fun r =>
    length r = length square /\ digs r /\ skipn nd r = skipn nd square
    /\ 2 * val (firstn nd r) + diag nr0 = val nr0 * val nr0)).
  { assert (Dz : digs (zeros nd ++ skipn nd square)).
    { apply below_app. split; [apply below_zeros; auto|apply below_skipn; assumption]. }
    destruct nr0 as [|d t].
    - cbn [tl square_long_loop]. ret. subst nd. cbn. conj; auto.
    - eapply total_post.
      + eapply square_long_loop_ok with (tail := skipn nd square) (sum := 0); auto.
        * cbn; lia.
        * fold nd. replace nd with (1 + (nd - 1))%nat at 1 by (subst nd; cbn [length]; lia).
          rewrite zeros_split, <- app_assoc. reflexivity.
        * len.
        * replace nd with (1 + (nd - 1))%nat at 1 by (subst nd; cbn [length]; lia).
          rewrite zeros_split, <- app_assoc. cbn [Nat.mul Nat.add Nat.sub zeros repeat app firstn value]. lia.
        * cbn [firstn diag value]. ring.
      + fold nd. intros r (A1 & A2 & A3 & A4). conj; auto. len. }
  tstep Hloop. intros r (L1 & D1 & S1 & V1).
  pose proof (value_bound B HB (firstn nd r) (below_firstn B nd r D1)) as Hb.
  assert (Lf : length (firstn nd r) = nd) by len. rewrite Lf in Hb.
  eapply step_prefix; [lia|apply double_ok; apply below_firstn; assumption|].
  rewrite Lf, S1. intros s2 c2 (L2 & D2 & V2). cbn [of_bool] in V2.
  pose proof (value_bound B HB s2 D2) as Hb2. rewrite L2 in Hb2.
  assert (c2 = false) as -> by (destruct c2; cbn [of_bool] in V2; [nia|reflexivity]).
  assert (E2 : firstn nd (s2 ++ skipn nd square) = s2) by (apply firstn_exact; lia).
  eapply step_prefix; [len|rewrite E2; apply square_diag_ok; auto|].
  rewrite skipn_exact by lia. intros s3 c3 (L3 & D3 & V3). cbn [of_bool] in V3, V2.
  pose proof (value_bound B HB s3 D3) as Hb3. rewrite L3, L2 in *.
  assert (c3 = false) as -> by (destruct c3; cbn [of_bool] in V3; [nia|reflexivity]).
  cbn [of_bool] in V3.
  eapply total_bind; [apply total_debug_assert; reflexivity|]. intros _ _.
  assert (E3 : firstn nd (s3 ++ skipn nd square) = s3) by (apply firstn_exact; lia).
  tstep (drop_val B); [len|]. rewrite E3. intros n (N1 & N2 & N3). ret.
  rewrite E3. conj; auto; try lia.
  - len.
  - apply below_app. split; [assumption|apply below_skipn; assumption].
  - apply skipn_exact. lia.
Qed.

End MulProof.
