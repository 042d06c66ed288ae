(** * DivBzOpen: the recursive division of src/ubig/div/bz.rs stops when the dividend
    of some schoolbook division starts with the leading digit of its divisor.

    The first quotient digit is then estimated as one, and written to a place that the
    quotient does not have. *)
From Coq Require Import ZArith List Bool Lia.
From Verif Require Import Base Digit Slice Mul Div UBig Spec SpecDiv Hoare DigitOK ListLemmas Gives
  SliceProof MulProof WorkSize BufProof KaratsubaProof MulTopProof UBigProof DivProof DivWide DivPairProof
  DivLongProof DivTopProof DivSize DivBzProof DivTie DivBzTie
  TypedProof Cases ClaimsBasic ClaimsDiv ClaimsDivBig.
Import ListNotations.
Open Scope Z_scope.
Open Scope m_scope.

Lemma block_open_dec B n : halving n -> forall a b, block_open B n a b \/ ~ block_open B n a b.
Proof.
  induction 1 as [n Hn|h Hh IH H20]; intros a b.
  - destruct (Z.eq_dec (a / B ^ Z.of_nat (2 * n - 1)) (b / B ^ Z.of_nat (n - 1))) as [E|N].
    + left. apply block_open_base; [lia|exact E].
    + right. intros T. inversion T; subst; [contradiction|lia].
  - set (P c := c / B ^ Z.of_nat (2 * h) < b / B ^ Z.of_nat h
      /\ block_open B h (c / B ^ Z.of_nat h) (b / B ^ Z.of_nat h)).
    assert (HP : forall c, P c \/ ~ P c).
    { intros c. unfold P. destruct (Z.lt_ge_cases (c / B ^ Z.of_nat (2 * h)) (b / B ^ Z.of_nat h)) as [H|H];
        [|right; lia].
      destruct (IH (c / B ^ Z.of_nat h) (b / B ^ Z.of_nat h)) as [T|T]; [left; auto|right; tauto]. }
    destruct (HP (a / B ^ Z.of_nat h)) as [[H1 H2]|N1];
      [left; apply (block_open_half B h a b (a / B ^ Z.of_nat h)); auto|].
    destruct (HP (a mod (b * B ^ Z.of_nat h))) as [[H1 H2]|N2];
      [left; apply (block_open_half B h a b (a mod (b * B ^ Z.of_nat h))); auto|].
    right. intros T. inversion T; subst; [lia|].
    assert (h0 = h) by lia. subst h0.
    match goal with H : _ \/ _ |- _ => destruct H as [E|E] end; subst c; [apply N1|apply N2]; split; assumption.
Qed.

Section BzOpen.
Variables (B : Z) (D : digit).
Hypothesis OK : digit_ok B D.
Hypothesis DV : digit_div B D 1.
Notation val := (value B).
Notation digs := (below B).
Notation p n := (pw B n).
Let HB : 1 < B := SliceProof.HB B D OK.

Lemma any_tie n a b : no_tie B 1 true n a b.
Proof. left. auto. Qed.

(** nothing is returned *)
Definition never (A : Type) : A -> Prop := fun _ => False.
Lemma gives_never {A C} (e : M A) (f : A -> M C) : gives e (never A) -> gives (bind e f) (never C).
Proof. intros H. eapply gives_bind; [exact H|]. intros a []. Qed.

Definition open_ok (n : nat) (rec : div_fn) : Prop := forall num den quot work,
  length den = n -> length num = (2 * n)%nat -> length quot = n ->
  digs num -> digs den -> digs quot -> digs work -> val quot = 0 ->
  B <= 2 * nth (n - 1) den 0 -> (wneed n <= length work)%nat ->
  val num < val den * p n -> block_open B n (val num) (val den) ->
  gives (rec num den quot work) (never _).

Lemma open_3n_2n rec n num den quot work : open_ok n rec ->
  halving n -> (20 <= 2 * n)%nat ->
  length den = (2 * n)%nat -> length num = (3 * n)%nat -> length quot = n ->
  digs num -> digs den -> digs quot -> digs work -> val quot = 0 ->
  B <= 2 * nth (2 * n - 1) den 0 -> (wneed (2 * n) <= length work)%nat ->
  val num < val den * p n ->
  val num / p (2 * n) < val den / p n -> block_open B n (val num / p n) (val den / p n) ->
  gives (div_big_bz_3n_2n D rec num den quot work) (never _).
Proof.
  intros Hrec Hh H20 Ld Ln Lq Dn Dd Dq Dw Q0 Ht Hw Hlt Hc HT.
  unfold div_big_bz_3n_2n. rewrite Ld, half2.
  apply gives_any. intros _. apply gives_any. intros _. apply gives_any. intros _.
  apply gives_any. intros top. apply gives_any. intros _. apply gives_any. intros _.
  rewrite split_at_ok by lia. cbn [bind]. rewrite suffix_ok by lia. cbn [bind].
  rewrite suffix_ok by len. cbn [bind].
  set (a12 := skipn n num) in *. set (b1 := skipn n den) in *. set (b2 := firstn n den) in *.
  set (a1 := skipn n a12).
  assert (L12 : length a12 = (2 * n)%nat) by (unfold a12; len).
  assert (Lb1 : length b1 = n) by (unfold b1; len).
  assert (La1 : length a1 = n) by (unfold a1; len).
  assert (D12 : digs a12) by (apply below_skipn; exact Dn).
  assert (Db1 : digs b1) by (apply below_skipn; exact Dd).
  assert (Da1 : digs a1) by (apply below_skipn; exact D12).
  pose proof (value_split B n num ltac:(lia)) as Vn. fold a12 in Vn.
  pose proof (value_split B n den ltac:(lia)) as Vd. fold b1 b2 in Vd.
  pose proof (value_split B n a12 ltac:(lia)) as V12. fold a1 in V12.
  pose proof (value_bound B HB _ (below_firstn B n num Dn)) as B3. rewrite firstn_length_le in B3 by lia.
  pose proof (value_bound B HB _ (below_firstn B n den Dd)) as Bb2. rewrite firstn_length_le in Bb2 by lia. fold b2 in Bb2.
  pose proof (value_bound B HB _ (below_firstn B n a12 D12)) as B2. rewrite firstn_length_le in B2 by lia.
  pose proof (value_nonneg B HB _ D12) as H12.
  pose proof (pw_pos B n HB) as Hp.
  assert (P2 : p (2 * n) = p n * p n) by (rewrite <- pw_add; f_equal; lia).
  assert (E12 : val num / p n = val a12).
  { rewrite Vn, (Z.mul_comm (p n)), Z.div_add, Z.div_small by lia. reflexivity. }
  assert (Eb1 : val den / p n = val b1).
  { rewrite Vd, (Z.mul_comm (p n)), Z.div_add, Z.div_small by lia. reflexivity. }
  assert (Ea1 : val num / p (2 * n) = val a1).
  { rewrite P2, <- Z.div_div, E12 by lia. rewrite V12, (Z.mul_comm (p n)), Z.div_add, Z.div_small by lia. reflexivity. }
  assert (Etop : nth (n - 1) b1 0 = nth (2 * n - 1) den 0).
  { unfold b1. rewrite nth_skip. f_equal. lia. }
  assert (Hb1 : p n <= 2 * val b1).
  { rewrite <- Lb1. apply (top_half B D OK); [exact Db1|lia|]. rewrite Lb1, Etop. exact Ht. }
  rewrite Ea1, Eb1 in Hc. rewrite E12, Eb1 in HT.
  assert (Elt : num_lt a1 b1 = true).
  { rewrite (num_lt_same B HB) by (auto; lia). apply Z.ltb_lt. exact Hc. }
  assert (Ha12 : val a12 < val b1 * p n).
  { rewrite V12. assert (p n * (val a1 + 1) <= p n * val b1) by (apply Z.mul_le_mono_nonneg_l; lia). lia. }
  pose proof (wneed_half n Hh H20) as Hwn.
  rewrite Elt. rewrite bind_assoc. apply gives_never.
  apply Hrec; auto; [rewrite Etop; exact Ht|lia].
Qed.

(** ** The base case *)
Lemma long_open num den quot work : let n := length den in
  (3 <= n)%nat -> length num = (2 * n)%nat -> length quot = n -> digs num -> digs den ->
  B <= 2 * nth (n - 1) den 0 -> val num / p (2 * n - 1) = val den / p (n - 1) ->
  gives (div_big_long D num den quot work) (never _).
Proof.
  intros n Hn Ln Lq Dn Dd Ht E.
  assert (Htop : 0 <= nth (n - 1) den 0 < B).
  { apply (below_nth B den (n - 1)); [exact Dd|]. apply nth_error_nth'. fold n. lia. }
  assert (Ed : val den / p (n - 1) = nth (n - 1) den 0).
  { rewrite (value_div B D OK) by (auto; fold n; lia).
    rewrite (split_last den (n - 1)) at 1 by (fold n; lia). rewrite skipn_exact by len. cbn [value]. lia. }
  assert (En : val num / p (2 * n - 1) = nth (2 * n - 1) num 0).
  { rewrite (value_div B D OK) by (auto; lia).
    rewrite (split_last num (2 * n - 1)) at 1 by lia. rewrite skipn_exact by len. cbn [value]. lia. }
  rewrite En, Ed in E.
  unfold div_big_long. fold n.
  apply gives_any. intros _. apply gives_any. intros _. apply gives_any. intros _. apply gives_any. intros _.
  rewrite get_ok by (fold n; lia). cbn [bind].
  eapply gives_bind; [apply gives_total, (max_shift_zero B D OK); [lia|exact Ht]|]. intros s ->.
  change (0 =? 0) with true. cbv iota. unfold div_big_long_scaled. fold n.
  apply gives_any. intros msd. apply gives_any. intros s. apply gives_any. intros _. apply gives_any. intros qden.
  apply gives_never. unfold div_long_first. fold n.
  rewrite get_ok by (fold n; lia). cbn [bind]. rewrite Ln. rewrite get_ok by lia. cbn [bind]. rewrite E.
  eapply gives_bind.
  { apply gives_total, (ok_div _ _ OK); [exact Htop|lia|lia]. }
  intros [q r] (H1 & H2 & H3).
  assert (Hq : q <> 0) by (intros ->; lia).
  destruct (Z.eqb_spec q 0) as [|_]; [contradiction|].
  apply gives_any. intros qd1. apply gives_any. intros big. apply gives_any. intros [q1 qd2].
  apply gives_any. intros pp. apply gives_any. intros [num1 u].
  replace (2 * n - n + 1 - 1)%nat with n by lia.
  unfold set. rewrite (proj2 (Nat.ltb_ge n (length quot))) by lia. cbn [guard bind]. apply gives_panic.
Qed.

Lemma open_base n num den quot work : (10 <= n < 20)%nat ->
  length den = n -> length num = (2 * n)%nat -> length quot = n ->
  digs num -> digs den -> digs quot -> digs work -> val quot = 0 ->
  B <= 2 * nth (n - 1) den 0 -> (n + 1 <= length work)%nat ->
  val num < val den * p n -> block_open B n (val num) (val den) ->
  gives
    (nnum <- drop_leading_zeros num (length num) ;;
     p <- prefix num nnum ;;
     '((p, quot, work), r) <- div_big_with_work_gen D no_bz p den quot work ;;
     r <- unwrap r ;;
     Ret (p ++ skipn nnum num, quot, work, r))
    (never _).
Proof.
  intros Hn Ld Ln Lq Dn Dd Dq Dw Q0 Ht Hw Hlt HT.
  assert (HO : val num / p (2 * n - 1) = val den / p (n - 1)) by (inversion HT; subst; [assumption|lia]).
  clear HT.
  eapply gives_bind; [apply gives_total, (fits_drop B num (val num)); [exact Dn|reflexivity]|].
  intros nn (_ & Hnn & _ & Vnn & Nnn).
  pose proof (top_half B D OK den Dd ltac:(lia) ltac:(rewrite Ld; exact Ht)) as Hh. rewrite Ld in Hh.
  pose proof (pw_pos B n HB) as Hp. pose proof (pw_pos B (n - 1) HB) as Hp1. pose proof (pw_pos B (2 * n - 1) HB) as Hp2.
  assert (Htop : 0 <= nth (n - 1) den 0 < B).
  { apply (below_nth B den (n - 1)); [exact Dd|]. apply nth_error_nth'. lia. }
  assert (Nd : normal den) by (apply top_normal; rewrite Ld; lia).
  assert (Ed : val den / p (n - 1) = nth (n - 1) den 0).
  { rewrite (value_div B D OK) by (auto; lia).
    rewrite (split_last den (n - 1)) at 1 by lia. rewrite skipn_exact by len. cbn [value]. lia. }
  assert (Hbig : p (2 * n - 1) <= val num).
  { destruct (Z.le_gt_cases (p (2 * n - 1)) (val num)) as [|Hs]; [assumption|]. exfalso.
    rewrite (Z.div_small (val num)) in HO by (split; [apply value_nonneg; auto|exact Hs]). lia. }
  assert (E2 : nn = (2 * n)%nat).
  { destruct (Nat.le_gt_cases (2 * n) nn) as [|Hs]; [lia|]. exfalso.
    pose proof (value_bound B HB _ (below_firstn B nn num Dn)) as Hb. rewrite Vnn, firstn_length_le in Hb by lia.
    pose proof (pw_le B nn (2 * n - 1) HB ltac:(lia)). lia. }
  subst nn. rewrite prefix_ok by exact Hnn. cbn [bind]. rewrite firstn_all2 in * by lia.
  apply gives_never. unfold div_big_with_work_gen. rewrite Ld, Ln.
  assert (Elt : num_lt num den = false).
  { rewrite (num_lt_value B HB) by auto. apply Z.ltb_ge. 
    pose proof (pw_le B n (2 * n - 1) HB ltac:(lia)). lia. }
  rewrite Elt. destruct (Nat.eqb_spec n 0) as [|_]; [lia|].
  assert (Elt2 : num_lt (skipn (2 * n - n) num) den = true).
  { replace (2 * n - n)%nat with n by lia.
    rewrite (num_lt_same B HB) by (auto using below_skipn; len). apply Z.ltb_lt.
    pose proof (value_split B n num ltac:(lia)) as V.
    pose proof (value_nonneg B HB _ (below_firstn B n num Dn)).
    apply Z.mul_lt_mono_pos_l with (p n); lia. }
  rewrite Elt2. cbn [negb]. rewrite orb_false_r.
  destruct (Nat.ltb_spec (length quot) (2 * n - n)) as [|_]; [lia|]. rewrite andb_false_r.
  destruct (Nat.eqb_spec n 1) as [|_]; [lia|]. destruct (Nat.eqb_spec n 2) as [|_]; [lia|].
  unfold BZ_CUTOFF. destruct (Nat.ltb_spec n 20) as [_|]; [|lia].
  apply gives_any. intros _. apply gives_never.
  apply long_open; rewrite ?Ld; auto; lia.
Qed.

(** ** One level *)
Lemma open_step n rec : halving n -> (20 <= n)%nat -> div_ok B 1 false true (n / 2) rec ->
  open_ok (n / 2) rec -> open_ok n (div_big_bz_2n_n_step D rec).
Proof.
  intros Hh H20 Hrec Hopen num den quot work Ld Ln Lq Dn Dd Dq Dw Q0 Ht Hw Hlt HT.
  unfold div_big_bz_2n_n_step. rewrite Ld.
  apply gives_any. intros _. apply gives_any. intros _. apply gives_any. intros _.
  apply gives_any. intros top. apply gives_any. intros _.
  unfold BZ_CUTOFF. destruct (Nat.ltb_spec n 20) as [|_]; [lia|].
  destruct Hh as [n Hn|h Hh Hn]; [lia|]. rewrite half2 in *. cbv zeta.
  pose proof (top_half B D OK den Dd ltac:(lia) ltac:(rewrite Ld; exact Ht)) as Hhalf. rewrite Ld in Hhalf.
  pose proof (pw_pos B h HB) as Hp. pose proof (pw_pos B (2 * h) HB) as Hp2.
  assert (P2 : p (2 * h) = p h * p h) by (rewrite <- pw_add; f_equal; lia).
  assert (Hden : 0 < val den) by lia.
  pose proof (value_nonneg B HB num Dn) as Hnum.
  rewrite suffix_ok by lia. cbn [bind]. rewrite suffix_ok by lia. cbn [bind].
  pose proof (value_split B h num ltac:(lia)) as Vn.
  pose proof (value_bound B HB _ (below_firstn B h num Dn)) as B0. rewrite firstn_length_le in B0 by lia.
  assert (Ec : val num / p h = val (skipn h num)).
  { rewrite Vn, (Z.mul_comm (p h)), Z.div_add, Z.div_small by lia. reflexivity. }
  assert (E0 : val num mod p h = val (firstn h num)).
  { rewrite Vn, (Z.mul_comm (p h)), Z.mod_add, Z.mod_small by lia. reflexivity. }
  set (c := val (skipn h num)) in *.
  assert (Hc : 0 <= c < val den * p h).
  { split; [rewrite <- Ec; apply Z.div_pos; lia|]. rewrite <- Ec. apply Z.div_lt_upper_bound; lia. }
  assert (Q0s : val (firstn h quot) = 0 /\ val (skipn h quot) = 0).
  { pose proof (value_split B h quot ltac:(lia)) as V. rewrite Q0 in V.
    pose proof (value_nonneg B HB _ (below_firstn B h quot Dq)).
    pose proof (value_nonneg B HB _ (below_skipn B h quot Dq)).
    assert (0 <= p h * val (skipn h quot)) by (apply Z.mul_nonneg_nonneg; lia).
    assert (E : p h * val (skipn h quot) = 0) by lia. apply Z.mul_eq_0 in E. lia. }
  destruct Q0s as [Q00 Q01].
  assert (Lf : length (firstn h num) = h) by len.
  assert (Lfq : length (firstn h quot) = h) by len.
  assert (Lhi0 : length (skipn h num) = (3 * h)%nat) by len.
  assert (Lqhi0 : length (skipn h quot) = h) by len.
  set (lov := val num mod (val den * p h)) in *.
  assert (HTs : (c / p (2 * h) < val den / p h /\ block_open B h (c / p h) (val den / p h))
     \/ (lov / p (2 * h) < val den / p h /\ block_open B h (lov / p h) (val den / p h))).
  { inversion HT; subst; [lia|]. assert (h0 = h) by lia. subst h0.
    match goal with H : _ \/ _ |- _ => destruct H as [E|E] end; subst c0.
    - left. split; [|]; rewrite <- Ec; assumption.
    - right. split; assumption. }
  clear HT.
  assert (Hdec : (c / p (2 * h) < val den / p h /\ block_open B h (c / p h) (val den / p h))
     \/ ~ (c / p (2 * h) < val den / p h /\ block_open B h (c / p h) (val den / p h))).
  { destruct (Z.lt_ge_cases (c / p (2 * h)) (val den / p h)) as [H|H]; [|right; lia].
    destruct (block_open_dec B h Hh (c / p h) (val den / p h)); [left; auto|right; tauto]. }
  destruct Hdec as [[C1 C2]|Hno].
  - (* the upper half stops *)
    apply gives_never.
    apply (open_3n_2n rec h (skipn h num) den (skipn h quot) work); auto using below_skipn; lia.
  - (* the upper half is right *)
    destruct HTs as [|[C1 C2]]; [contradiction|].
    eapply gives_bind.
    { apply (gives_spec (oops false true)).
      apply (div_3n_2n_ok B D 1 false true OK rec h (skipn h num) den (skipn h quot) work); auto using below_skipn; try lia.
      - fold c. intros Hlt2. apply any_tie. }
    fold c. intros [[[hi qhi] w1] [nq1 nr1]] (L1 & D1 & V1 & L2 & F2 & L3 & D3).
    assert (Lhi : length hi = (3 * h)%nat) by (rewrite L1; exact Lhi0).
    assert (Lqhi : length qhi = h) by (rewrite L2; exact Lqhi0).
    pose proof (Z.mod_pos_bound c (val den) Hden) as Hm1.
    pose proof (div_mod_eq c (val den) Hden) as Hdm1.
    set (r1 := c mod val den) in *. set (qq1 := c / val den) in *.
    set (num1 := firstn h num ++ hi). set (quot1 := firstn h quot ++ qhi).
    rewrite prefix_ok by (unfold num1; len). cbn [bind].
    rewrite prefix_ok by (unfold quot1; len). cbn [bind].
    assert (Elo : firstn (3 * h) num1 = firstn h num ++ firstn (2 * h) hi).
    { unfold num1. rewrite firstn_app, Lf. rewrite (firstn_all2 (firstn h num)) by lia. f_equal. f_equal. lia. }
    assert (Eqlo : firstn h quot1 = firstn h quot) by (unfold quot1; apply firstn_exact; exact Lfq).
    assert (Esq : skipn h quot1 = qhi) by (unfold quot1; apply skipn_exact; exact Lfq).
    rewrite Elo, Eqlo, Esq.
    assert (Hsk0 : val (skipn (2 * h) hi) = 0 /\ val (firstn (2 * h) hi) = r1).
    { pose proof (value_split B (2 * h) hi ltac:(lia)) as V. rewrite V1 in V.
      pose proof (value_nonneg B HB _ (below_firstn B (2 * h) hi D1)).
      pose proof (value_nonneg B HB _ (below_skipn B (2 * h) hi D1)).
      destruct (Z.le_gt_cases 1 (val (skipn (2 * h) hi))).
      - assert (p (2 * h) * 1 <= p (2 * h) * val (skipn (2 * h) hi)) by (apply Z.mul_le_mono_nonneg_l; lia). lia.
      - assert (E : val (skipn (2 * h) hi) = 0) by lia. rewrite E in V. lia. }
    destruct Hsk0 as [Hsk0 Hr1].
    set (lo := firstn h num ++ firstn (2 * h) hi) in *.
    assert (Vlo : val lo = lov).
    { unfold lo, lov. rewrite value_app, Hr1, Lf, (mod_mod_mul _ _ _ Hden Hp), Ec, E0. fold r1. lia. }
    assert (Hlo : 0 <= val lo < val den * p h).
    { rewrite Vlo. unfold lov. apply Z.mod_pos_bound. apply Z.mul_pos_pos; lia. }
    assert (Dlo : digs lo) by (unfold lo; apply below_app; split; apply below_firstn; assumption).
    assert (Llo : length lo = (3 * h)%nat) by (unfold lo; len).
    apply gives_never.
    apply (open_3n_2n rec h lo den (firstn h quot) w1); auto using below_firstn; try lia.
    + rewrite Vlo. exact C1.
    + rewrite Vlo. exact C2.
Qed.

Lemma open_fuel f : forall n, (n < f)%nat -> halving n -> (10 <= n)%nat -> open_ok n (bz_fuel D f).
Proof.
  induction f as [|f IH]; intros n Hf Hh H10; [lia|]. cbn [bz_fuel].
  destruct (Nat.lt_ge_cases n 20) as [Hs|Hge].
  - intros num den quot work Ld Ln Lq Dn Dd Dq Dw Q0 Ht Hw Hlt HT.
    unfold div_big_bz_2n_n_step. rewrite Ld.
    apply gives_any. intros _. apply gives_any. intros _. apply gives_any. intros _.
    apply gives_any. intros top. apply gives_any. intros _.
    unfold BZ_CUTOFF. destruct (Nat.ltb_spec n 20) as [_|]; [|lia].
    apply (open_base n); auto.
    unfold wneed in Hw. destruct (Nat.ltb_spec n 20); lia.
  - assert (Hh2 : halving (n / 2) /\ (n / 2 < f)%nat /\ (10 <= n / 2)%nat).
    { destruct Hh as [n Hs|h Hh Hs]; [lia|]. rewrite half2. conj; auto; lia. }
    destruct Hh2 as (G1 & G2 & G3).
    apply open_step; auto.
    apply (bz_fuel_ok B D 1 false true OK DV); auto. discriminate.
Qed.

Lemma open_2n_n n : halving n -> (10 <= n)%nat -> open_ok n (div_big_bz_2n_n D).
Proof.
  intros Hh Hn num den quot work Ld. unfold div_big_bz_2n_n. rewrite Ld.
  apply (open_fuel (S n) n); auto.
Qed.

Lemma open_blocks n : halving n -> (20 <= n)%nat ->
  forall i snum sden q work,
  length sden = n -> digs snum -> digs sden -> digs q -> digs work ->
  B <= 2 * nth (n - 1) sden 0 -> (wneed n <= length work)%nat ->
  ((i + 1) * n <= length snum)%nat -> (i * n <= length q)%nat ->
  val (firstn (i * n) q) = 0 -> val (skipn (i * n) snum) < val sden ->
  (exists j, (j < i)%nat /\ block_open B n ((val snum / p (j * n)) mod (val sden * p n)) (val sden)) ->
  gives (bz_blocks D i n snum sden q work) (never _).
Proof.
  intros Hh H20.
  induction i as [|i IH]; intros snum sden q work Ld Dn Dd Dq Dw Ht Hw Lsn Lq Q0 Hlt (j & Hj & HT); [lia|].
  cbn [bz_blocks].
  pose proof (top_half B D OK sden Dd ltac:(lia) ltac:(rewrite Ld; exact Ht)) as Hhalf. rewrite Ld in Hhalf.
  set (d := val sden) in *. set (m := (i * n)%nat) in *.
  replace (S i * n)%nat with (m + n)%nat in * by (unfold m; lia).
  replace ((S i + 1) * n)%nat with (m + 2 * n)%nat in Lsn by (unfold m; lia).
  replace ((i + 2) * n)%nat with (m + 2 * n)%nat by (unfold m; lia).
  replace ((i + 1) * n)%nat with (m + n)%nat in * by (unfold m; lia).
  rewrite sub_slice_ok by lia. cbn [bind]. rewrite sub_slice_ok by lia. cbn [bind].
  replace (m + 2 * n - m)%nat with (2 * n)%nat by lia. replace (m + n - m)%nat with n by lia.
  set (X := skipn m snum). set (s := firstn (2 * n) X).
  assert (DX : digs X) by (apply below_skipn; exact Dn).
  assert (LX : (2 * n <= length X)%nat) by (unfold X; len).
  assert (Eu : skipn (m + n) snum = skipn n X) by (unfold X; rewrite skipn_skipn; f_equal; lia).
  rewrite Eu in Hlt.
  pose proof (pw_pos B n HB) as Hp. pose proof (pw_pos B m HB) as Hpm. pose proof (pw_pos B (2 * n) HB) as Hp2.
  assert (P2 : p (2 * n) = p n * p n) by (rewrite <- pw_add; f_equal; lia).
  assert (Hd : 0 < d) by lia.
  pose proof (value_split B n X ltac:(lia)) as VX.
  pose proof (value_bound B HB _ (below_firstn B n X DX)) as BX. rewrite firstn_length_le in BX by lia.
  pose proof (value_nonneg B HB _ (below_skipn B n X DX)) as Hu.
  assert (HXd : 0 <= val X < d * p n).
  { split; [apply value_nonneg; auto|].
    assert (p n * (val (skipn n X) + 1) <= p n * d) by (apply Z.mul_le_mono_nonneg_l; lia). lia. }
  assert (Hs : val (skipn (2 * n) X) = 0 /\ val s = val X).
  { pose proof (value_split B (2 * n) X LX) as V. fold s in V.
    pose proof (value_nonneg B HB _ (below_skipn B (2 * n) X DX)).
    pose proof (value_nonneg B HB s (below_firstn B (2 * n) X DX)).
    destruct (Z.le_gt_cases 1 (val (skipn (2 * n) X))).
    - assert (p (2 * n) * 1 <= p (2 * n) * val (skipn (2 * n) X)) by (apply Z.mul_le_mono_nonneg_l; lia).
      assert (d * p n <= p n * p n) by (apply Z.mul_le_mono_nonneg_r; lia). lia.
    - assert (E : val (skipn (2 * n) X) = 0) by lia. rewrite E in V. lia. }
  destruct Hs as [Hs0 Hs].
  assert (Ds : digs s) by (apply below_firstn; exact DX).
  assert (Lss : length s = (2 * n)%nat) by (unfold s; len).
  pose proof (value_split B m snum ltac:(lia)) as Vn. fold X in Vn.
  pose proof (value_bound B HB _ (below_firstn B m snum Dn)) as Bm. rewrite firstn_length_le in Bm by lia.
  assert (EX : val snum / p m = val X).
  { rewrite Vn, (Z.mul_comm (p m)), Z.div_add, Z.div_small by lia. reflexivity. }
  assert (Q1 : val (firstn m q) = 0 /\ val (firstn n (skipn m q)) = 0).
  { rewrite firstn_plus in Q0. apply (zero_parts B D OK); auto using below_firstn, below_skipn. }
  destruct Q1 as [Q1 Q2].
  assert (Lqs0 : length (firstn n (skipn m q)) = n) by len.
  assert (Dqs0 : digs (firstn n (skipn m q))) by (apply below_firstn, below_skipn; exact Dq).
  assert (Lf : length (firstn m snum) = m) by len.
  assert (Lfq : length (firstn m q) = m) by len.
  destruct (block_open_dec B n Hh (val X) d) as [T|T].
  - apply gives_never. apply (open_2n_n n Hh ltac:(lia)); auto; [fold d; lia|]. rewrite Hs. exact T.
  - (* this block is right *)
    eapply gives_bind.
    { apply (gives_spec (oops false true)).
      apply (bz_2n_n_ok B D 1 false true OK DV n Hh ltac:(discriminate) s sden (firstn n (skipn m q)) work); auto.
      - fold d. lia.
      - apply any_tie. }
    fold d. rewrite Hs.
    intros [[[s' qs] w1] [nq nr]] (L1 & D1 & V1 & L2 & F2 & L3 & D3).
    assert (Ls' : length s' = (2 * n)%nat) by lia.
    assert (Lqs : length qs = n) by lia.
    destruct F2 as (Dqs & _ & Vqs & _).
    pose proof (Z.mod_pos_bound (val X) d Hd) as Hm. pose proof (div_mod_eq (val X) d Hd) as Hdm.
    set (qq := val X / d) in *. set (r := val X mod d) in *.
    set (snum1 := firstn m snum ++ s' ++ skipn (m + 2 * n) snum).
    set (q1 := firstn m q ++ qs ++ skipn (m + n) q).
    assert (Esk : skipn (m + 2 * n) snum = skipn (2 * n) X) by (unfold X; rewrite skipn_skipn; f_equal; lia).
    assert (V2 : val (s' ++ skipn (m + 2 * n) snum) = r) by (rewrite value_app, Esk, Hs0, V1; lia).
    assert (Vn1 : val snum = val snum1 + p m * (qq * d)).
    { unfold snum1. rewrite value_app, V2, Vn, Lf. replace (val X) with (qq * d + r) by lia. ring. }
    assert (Hji : (j < i)%nat).
    { destruct (Nat.eq_dec j i) as [->|]; [|lia]. exfalso. apply T. fold m in HT. rewrite EX in HT.
      rewrite Z.mod_small in HT by exact HXd. exact HT. }
    assert (Lsn1 : length snum1 = length snum) by (unfold snum1; len).
    assert (Lq1 : length q1 = length q) by (unfold q1; len).
    apply (IH snum1 sden q1 w1); auto; fold m d; try lia.
    + unfold snum1. apply below_app. split; [apply below_firstn; exact Dn|]. apply below_app.
        split; [exact D1|apply below_skipn; exact Dn].
    + unfold q1. apply below_app. split; [apply below_firstn; exact Dq|]. apply below_app.
        split; [exact Dqs|apply below_skipn; exact Dq].
    + unfold q1. rewrite firstn_exact by exact Lfq. exact Q1.
    + unfold snum1. rewrite skipn_exact by exact Lf. rewrite V2. lia.
    + exists j. split; [exact Hji|].
        replace ((val snum1 / p (j * n)) mod (d * p n)) with ((val snum / p (j * n)) mod (d * p n)); [exact HT|].
        pose proof (pw_pos B (j * n) HB) as Hpj.
        assert (Em : p m = p (j * n) * (p n * p ((i - j - 1) * n))).
        { rewrite <- !pw_add. f_equal. unfold m. nia. }
        rewrite Vn1, Em. replace (p (j * n) * (p n * p ((i - j - 1) * n)) * (qq * d))
          with ((p ((i - j - 1) * n) * qq * (d * p n)) * p (j * n)) by ring.
        rewrite Z.div_add by lia. apply Z.mod_add. intros E0. apply Z.mul_eq_0 in E0. lia.
Qed.

(** ** The whole division *)
Definition bz_open (num den : digits) : Prop := let nd := length den in let n := block_size nd in
  let off := (n - nd)%nat in exists s j, is_shift B (nth (nd - 1) den 0) s
  /\ val den * 2 ^ s < p nd /\ (j <= (length num - nd) / n)%nat
  /\ block_open B n ((val num * 2 ^ s * p off / p (j * n)) mod (val den * 2 ^ s * p off * p n))
       (val den * 2 ^ s * p off).

Lemma open_bz num den quot work : let nd := length den in
  (20 <= nd)%nat ->
  digs num -> digs den -> digs quot -> digs work -> normal den -> num_lt num den = false ->
  (calc_div_bz_work_size nd <= length work)%nat ->
  bz_open num den ->
  gives (div_big_bz D num den quot work) (never _).
Proof.
  intros nd Hnd Dn Dd Dq Dw Nd Hge Lw (s' & j & HS' & HF2 & Hj & HT).
  assert (Hlen : (nd <= length num)%nat) by (apply num_lt_false_len; exact Hge).
  unfold div_big_bz. fold nd.
  apply gives_any. intros _. apply gives_any. intros _. apply gives_any. intros _. apply gives_any. intros _.
  pose proof (bz_work nd Hnd) as HW. destruct (block_size_ok nd Hnd) as [Hh Hn].
  fold nd in HT, HS', HF2, Hj.
  set (n := block_size nd) in *. set (off := (n - nd)%nat) in *.
  assert (Dz : forall m, digs (zeros m)) by (intros m; apply below_zeros; lia).
  rewrite copy_into_ok by (len; lia). cbn [bind].
  set (sden0 := firstn off (zeros n) ++ den ++ skipn n (zeros n)).
  assert (Hfz : forall a m, (a <= m)%nat -> firstn a (zeros m) = zeros a).
  { intros a m Ha. unfold zeros. replace m with (a + (m - a))%nat by lia.
    rewrite repeat_app. apply firstn_exact, repeat_length. }
  assert (Hsz : forall a m, (a <= m)%nat -> skipn a (zeros m) = zeros (m - a)).
  { intros a m Ha. unfold zeros. replace m with (a + (m - a))%nat at 1 by lia.
    rewrite repeat_app. apply skipn_exact, repeat_length. }
  assert (Es : sden0 = zeros off ++ den).
  { unfold sden0. rewrite Hfz, Hsz by lia. rewrite Nat.sub_diag. cbn [zeros repeat]. rewrite app_nil_r. reflexivity. }
  clearbody sden0. subst sden0.
  assert (Lz : length (zeros off ++ den) = n) by (len; fold nd; lia).
  rewrite get_ok by lia. cbn [bind].
  assert (Et : nth (n - 1) (zeros off ++ den) 0 = nth (nd - 1) den 0).
  { rewrite app_nth2 by (len; lia). f_equal. len. }
  rewrite Et. set (top := nth (nd - 1) den 0) in *.
  assert (Htop : 0 < top < B) by (apply top_pos; auto; fold nd; lia).
  eapply gives_bind; [apply gives_total, (ok_max_shift _ _ OK); lia|]. intros s Hs.
  assert (HS : is_shift B top s) by exact Hs.
  assert (s' = s) by (apply (shift_unique B top); auto; lia). subst s'. clear HS'.
  destruct (shift_bound B top s ltac:(lia) HS) as [Hs2 Hs3]. destruct Hs as [Hs0 Hs1].
  pose proof (pw_pos B off HB) as Hpo. pose proof (pw_pos B n HB) as Hpn. pose proof (pw_pos B nd HB) as Hpd.
  assert (Pn : p n = p off * p nd) by (rewrite <- pw_add; f_equal; lia).
  assert (Hden : 0 < val den).
  { destruct (Z.eq_dec (val den) 0) as [E|]; [|pose proof (value_nonneg B HB den Dd); lia].
    apply (value_normal_zero B HB den Dd Nd) in E. unfold nd in Hnd. rewrite E in Hnd. cbn in Hnd. lia. }
  assert (Vz : val (zeros off ++ den) = p off * val den).
  { rewrite value_app, value_zeros. replace (length (zeros off)) with off by len. lia. }
  eapply gives_bind; [apply gives_total, (shl_within_ok B D OK); [apply below_app; split; [apply Dz|exact Dd]|lia|lia]|].
  intros [sden c] (Lsd & Dsd & Hc & Vsd). rewrite Lz in Lsd, Vsd. rewrite Vz in Vsd.
  set (E := val den * 2 ^ s) in *. set (N := val num * 2 ^ s) in *.
  assert (HE : 0 < E) by (unfold E; apply Z.mul_pos_pos; lia).
  assert (Vd : val sden = E * p off).
  { pose proof (value_nonneg B HB sden Dsd).
    assert (p off * E < p off * p nd) by (apply Z.mul_lt_mono_pos_l; lia).
    replace (p off * val den * 2 ^ s) with (p off * E) in Vsd by (unfold E; ring).
    destruct (Z.le_gt_cases 1 c).
    - assert (p n * 1 <= p n * c) by (apply Z.mul_le_mono_nonneg_l; lia). lia.
    - replace c with 0 in Vsd by lia. lia. }
  clear c Hc Vsd.
  set (nn := length num) in *. set (t1 := ((nn - nd) / n)%nat) in *.
  assert (Hn20 : (20 <= n)%nat) by lia.
  assert (Ht1 : (nn - nd < n * t1 + n)%nat).
  { pose proof (Nat.div_mod (nn - nd) n ltac:(lia)) as X. pose proof (Nat.mod_upper_bound (nn - nd) n ltac:(lia)).
    fold t1 in X. lia. }
  set (T := ((2 + t1) * n)%nat).
  assert (HT1 : (off + nn + 1 <= T)%nat) by (unfold T, off; nia).
  rewrite copy_into_ok by (try (len; lia); fold nn; lia). cbn [bind].
  rewrite Hfz, Hsz by lia.
  set (sn0 := zeros off ++ num ++ zeros (T - (off + nn))).
  assert (Lsn0 : length sn0 = T) by (unfold sn0; len; fold nn; lia).
  assert (Dsn0 : digs sn0) by (unfold sn0; apply below_app; split; [apply Dz|]; apply below_app; split; [exact Dn|apply Dz]).
  assert (Esl : firstn (off + nn + 1 - off) (skipn off sn0) = num ++ [0]).
  { unfold sn0. rewrite skipn_exact by len. replace (off + nn + 1 - off)%nat with (nn + 1)%nat by lia.
    rewrite firstn_plus. rewrite firstn_exact by reflexivity. f_equal.
    rewrite skipn_exact by reflexivity. rewrite Hfz by lia. reflexivity. }
  apply gives_bind with (R := fun '(snum, _) => length snum = T /\ digs snum /\ val snum = N * p off).
  { unfold with_slice. rewrite sub_slice_ok by lia. cbn [bind]. rewrite Esl.
    eapply gives_bind.
    { apply gives_total, (shl_within_ok B D OK); [|lia|lia].
      apply below_app. split; [exact Dn|]. apply below_cons. split; [lia|apply below_nil]. }
    intros [sl0 c] (Lsl & Dsl & Hc & Vsl). apply gives_ret.
    assert (Lsl' : length sl0 = (nn + 1)%nat) by (rewrite Lsl; len).
    assert (Vsl' : val sl0 = N).
    { rewrite value_app in Vsl. cbn [value] in Vsl. replace (length (num ++ [0])) with (nn + 1)%nat in Vsl by len.
      replace (val num + pw B (length num) * (0 + B * 0)) with (val num) in Vsl by ring. fold N in Vsl.
      pose proof (value_nonneg B HB sl0 Dsl). pose proof (value_bound B HB num Dn) as Hb. fold nn in Hb.
      pose proof (pw_pos B nn HB).
      assert (N < p nn * B).
      { unfold N. apply Z.le_lt_trans with (p nn * 2 ^ s).
        - apply Z.mul_le_mono_nonneg_r; lia.
        - apply Z.mul_lt_mono_pos_l; lia. }
      assert (Ep : p (nn + 1) = p nn * B) by (rewrite pw_add; f_equal; cbn; unfold pw; cbn; lia).
      rewrite Ep in Vsl.
      destruct (Z.le_gt_cases 1 c).
      - assert (p nn * B * 1 <= p nn * B * c) by (apply Z.mul_le_mono_nonneg_l; lia). lia.
      - replace c with 0 in Vsl by lia. lia. }
    conj.
    - len.
    - apply below_app. split; [apply below_firstn; exact Dsn0|]. apply below_app.
      split; [exact Dsl|apply below_skipn; exact Dsn0].
    - unfold sn0. rewrite firstn_exact by len. rewrite !value_app, value_zeros.
      replace (length (zeros off)) with off by len. rewrite Vsl'.
      replace (skipn (off + nn + 1) (zeros off ++ num ++ zeros (T - (off + nn)))) with (zeros (T - (off + nn) - 1)).
      + rewrite value_zeros. lia.
      + rewrite app_assoc. replace (off + nn + 1)%nat with (1 + (off + nn))%nat by lia. rewrite <- skipn_skipn.
        rewrite skipn_exact by (len; reflexivity). symmetry. apply Hsz. lia. }
  intros [snum c] (Lsn & Dsn & Vsn).
  replace (2 + t1 - 1)%nat with (t1 + 1)%nat by lia.
  assert (Hnum : 0 <= val num < p nn) by (apply value_bound; auto).
  assert (Hlast : val (skipn ((t1 + 1) * n) snum) < val sden).
  { assert (HQ : N * p off < p ((t1 + 1) * n) * (E * p off)).
    { replace (p ((t1 + 1) * n) * (E * p off)) with ((p ((t1 + 1) * n) * val den) * (2 ^ s * p off)) by (unfold E; ring).
      replace (N * p off) with (val num * (2 ^ s * p off)) by (unfold N; ring).
      apply Z.mul_lt_mono_pos_r; [apply Z.mul_pos_pos; lia|].
      pose proof (normal_lower B HB den Dd Nd ltac:(intros X; unfold nd in Hnd; rewrite X in Hnd; cbn in Hnd; lia)) as Hlow.
      fold nd in Hlow. pose proof (pw_pos B ((t1 + 1) * n) HB) as Hpt. pose proof (pw_pos B (nd - 1) HB).
      apply Z.lt_le_trans with (p ((t1 + 1) * n) * p (nd - 1)).
      - rewrite <- pw_add. pose proof (pw_le B nn ((t1 + 1) * n + (nd - 1)) HB ltac:(nia)). lia.
      - apply Z.mul_le_mono_nonneg_l; lia. }
    rewrite Vd. rewrite <- Vsn in HQ.
    pose proof (value_split B ((t1 + 1) * n) snum ltac:(rewrite Lsn; unfold T; nia)) as V. rewrite V in HQ.
    pose proof (value_nonneg B HB _ (below_firstn B ((t1 + 1) * n) snum Dsn)).
    pose proof (pw_pos B ((t1 + 1) * n) HB) as Hpt.
    apply Z.mul_lt_mono_pos_l with (p ((t1 + 1) * n)); lia. }
  assert (Hstop : B <= 2 * nth (n - 1) sden 0).
  { assert (E2 : 2 ^ (s + 1) = 2 * 2 ^ s) by (rewrite Z.pow_add_r by lia; lia). rewrite E2 in Hs1.
    assert (Hx : top * 2 ^ s <= nth (n - 1) sden 0); [|lia].
    assert (Etop : val sden / p (n - 1) = nth (n - 1) sden 0).
    { rewrite (value_div B D OK) by (auto; lia).
      rewrite (split_last sden (n - 1)) at 1 by lia. rewrite skipn_exact by len. cbn [value]. lia. }
    rewrite <- Etop. apply Z.div_le_lower_bound; [apply pw_pos; exact HB|].
    rewrite Vd. unfold E. rewrite (split_last den (nd - 1)) by (fold nd; lia). fold top.
    rewrite value_app. rewrite firstn_length_le by (fold nd; lia). cbn [value].
    pose proof (value_nonneg B HB _ (below_firstn B (nd - 1) den Dd)) as Hv.
    assert (0 <= val (firstn (nd - 1) den) * (2 ^ s * p off)) by (apply Z.mul_nonneg_nonneg; [lia|]; apply Z.mul_nonneg_nonneg; lia).
    assert (Ep : p (n - 1) = p (nd - 1) * p off) by (rewrite <- pw_add; f_equal; lia).
    rewrite Ep. replace ((val (firstn (nd - 1) den) + p (nd - 1) * (top + B * 0)) * 2 ^ s * p off)
      with (val (firstn (nd - 1) den) * (2 ^ s * p off) + p (nd - 1) * p off * (top * 2 ^ s)) by ring. lia. }
  assert (Hq0 : digs (zeros ((t1 + 1) * n)) /\ val (firstn ((t1 + 1) * n) (zeros ((t1 + 1) * n))) = 0).
  { split; [apply Dz|]. rewrite Hfz by lia. apply value_zeros. }
  apply gives_never.
  apply (open_blocks n Hh Hn20 (t1 + 1) snum sden (zeros ((t1 + 1) * n)) work); auto.
  - lia.
  - rewrite Lsn. unfold T. nia.
  - len.
  - apply Hq0.
  - exists j. split; [lia|]. rewrite Vsn, Vd. exact HT.
Qed.

Lemma div_assign_big_open x y : digs x -> digs y -> normal x -> normal y -> (20 <= length y)%nat ->
  val y <= val x -> bz_open x y ->
  gives (div_assign_big D x y) (fun '(_, res) => match res with ROk _ => False | RErr _ => True end).
Proof.
  intros Dx Dy Nx Ny Hl Hle HT.
  assert (Elt : num_lt x y = false) by (rewrite (num_lt_value B HB) by auto; apply Z.ltb_ge; exact Hle).
  pose proof (num_lt_false_len _ _ Elt) as Hlen.
  unfold div_assign_big. destruct (Nat.ltb_spec (length x) (length y)) as [|_]; [lia|].
  unfold div_big, div_big_with_work. rewrite Elt. rewrite bind_assoc.
  destruct (Nat.leb_spec (length y) 2); [lia|]. cbn [orb].
  destruct (Nat.ltb_spec (length y) BZ_CUTOFF) as [H20|_]; [unfold BZ_CUTOFF in H20; lia|].
  unfold div_big_with_work_gen.
  destruct (Nat.eqb_spec (length y) 0) as [|_]; [lia|]. rewrite Elt.
  destruct (Nat.eqb_spec (length y) 1) as [|_]; [lia|]. destruct (Nat.eqb_spec (length y) 2) as [|_]; [lia|].
  destruct (Nat.ltb_spec (length y) BZ_CUTOFF) as [H20|_]; [unfold BZ_CUTOFF in H20; lia|].
  eapply gives_bind with (R := fun '(s, r) => match r with
    | ROk _ => False | RErr _ => True end).
  { destruct (_ && _); [apply gives_ret; exact I|]. rewrite !bind_assoc. apply gives_any. intros _.
    eapply gives_bind; [apply open_bz; auto; try (apply below_zeros; lia); len|].
    intros a []. }
  intros [[[num' quot'] work'] [[nq nr]|e]] H'; cbn [bind].
  - contradiction.
  - apply gives_ret. exact I.
Qed.
End BzOpen.

(** ** There is only a first digit when there is something to divide *)
Lemma block_open_large B : 1 < B -> forall n a b, block_open B n a b -> 0 <= a ->
  pw B (n - 1) <= b < pw B n -> (1 <= n)%nat -> pw B n <= a.
Proof.
  intros HB n a b T. induction T as [n a b Hn E|h a b c Hh Hc Hlt T IH]; intros Ha Hb H1.
  - pose proof (pw_pos B (n - 1) HB) as Hp. pose proof (pw_pos B (2 * n - 1) HB) as Hp2.
    fold (pw B (n - 1)) in E. fold (pw B (2 * n - 1)) in E.
    assert (E1 : 1 <= b / pw B (n - 1)) by (apply Z.div_le_lower_bound; lia).
    rewrite <- E in E1.
    destruct (Z.le_gt_cases (pw B (2 * n - 1)) a) as [H|H].
    + pose proof (pw_le B n (2 * n - 1) HB ltac:(lia)). lia.
    + rewrite Z.div_small in E1 by lia. lia.
  - fold (pw B h) in *. pose proof (pw_pos B h HB) as Hp.
    assert (E0 : pw B (2 * h) = pw B h * pw B h) by (rewrite <- pw_add; f_equal; lia).
    assert (E1 : pw B (2 * h - 1) = pw B h * pw B (h - 1)) by (rewrite <- pw_add; f_equal; lia).
    assert (Hb' : pw B (h - 1) <= b / pw B h < pw B h).
    { split; [apply Z.div_le_lower_bound; lia|apply Z.div_lt_upper_bound; lia]. }
    pose proof (pw_pos B (2 * h - 1) HB).
    assert (Hca : 0 <= c <= a).
    { destruct Hc as [-> | ->].
      - split; [apply Z.div_pos; lia|]. apply Z.div_le_upper_bound; [lia|]. 
        assert (1 * a <= pw B h * a) by (apply Z.mul_le_mono_nonneg_r; lia). lia.
      - assert (0 < b * pw B h) by (apply Z.mul_pos_pos; lia).
        split; [apply Z.mod_pos_bound; lia|apply Z.mod_le; lia]. }
    assert (Hc0 : 0 <= c / pw B h) by (apply Z.div_pos; lia).
    specialize (IH Hc0 Hb' ltac:(lia)).
    pose proof (Z.mul_div_le c (pw B h) Hp).
    assert (pw B h * pw B h <= pw B h * (c / pw B h)) by (apply Z.mul_le_mono_nonneg_l; lia). lia.
Qed.

(** ** Decimal types *)
Section Decimal.
Variable dbg : bool.
Variable t : dty.
Hypothesis Hd : is_binary t = false.
Notation B := (radix t).
Notation D := (impl dbg t).

Lemma bz_open_intro x y : well_formed t x -> well_formed t y -> (20 <= length y)%nat ->
  scales t (length y) (num t y) -> recursive_open t x y -> bz_open B x y /\ num t y <= num t x.
Proof.
  intros [Vx Nx] [Vy Ny] Hl HSc (s & n & i & Hs & Hpad & Hi & HT).
  pose proof (padded_unique (length y) n _ ltac:(lia) Hpad (block_size_padded _ Hl)) as En.
  pose proof (SliceProof.HB _ _ (impl_ok true t)) as HB.
  pose proof (top_pos B y Vy Ny ltac:(lia)) as Ht.
  pose proof (leading_top t y Vy ltac:(lia)) as EL.
  assert (HS : is_shift B (nth (length y - 1) y 0) s) by (unfold scaling in Hs; rewrite EL in Hs; exact Hs).
  destruct (block_size_ok (length y) Hl) as [_ Hbs]. rewrite <- En in Hbs.
  assert (Hlow : pw B (length y - 1) <= num t y).
  { apply (normal_lower B HB y Vy Ny). intros ->. cbn in Hl. lia. }
  assert (HF : num t y * 2 ^ s < pw B (length y)).
  { apply HSc; [exact (proj1 Hs)|exact (proj1 (proj2 Hs))]. }
  split.
  - exists s, i. rewrite <- En. split; [exact HS|]. split; [exact HF|]. split; [|exact HT].
    apply Nat.div_le_lower_bound; [lia|]. lia.
  - pose proof (pw_pos B (n - length y) HB) as Hpo. pose proof (pw_pos B (i * n) HB) as Hpi.
    pose proof (pw_pos B n HB) as Hpn. pose proof (pw_pos B (length y - 1) HB) as Hpl.
    assert (H2s : 1 <= 2 ^ s) by (pose proof (Z.pow_pos_nonneg 2 s); destruct Hs; lia).
    assert (En2 : pw B n = pw B (length y) * pw B (n - length y)) by (rewrite <- pw_add; f_equal; lia).
    assert (En1 : pw B (n - 1) = pw B (length y - 1) * pw B (n - length y)) by (rewrite <- pw_add; f_equal; lia).
    cbv zeta beta in HT. fold (pw B (n - length y)) in HT. fold (pw B (i * n)) in HT. fold (pw B n) in HT.
    pose proof (value_nonneg B HB x Vx) as Px. fold (num t x) in Px.
    set (F := num t y * 2 ^ s) in *. set (po := pw B (n - length y)) in *.
    assert (Hv : num t y * 1 <= F) by (unfold F; apply Z.mul_le_mono_nonneg_l; lia).
    assert (HFp : pw B (n - 1) <= F * po < pw B n).
    { rewrite En1, En2. split; [apply Z.mul_le_mono_nonneg_r; lia|apply Z.mul_lt_mono_pos_r; lia]. }
    pose proof (pw_pos B (n - 1) HB) as Hpn1.
    assert (HN : 0 <= num t x * 2 ^ s * po) by (apply Z.mul_nonneg_nonneg; [apply Z.mul_nonneg_nonneg|]; lia).
    assert (HNi : 0 <= num t x * 2 ^ s * po / pw B (i * n) <= num t x * 2 ^ s * po).
    { split; [apply Z.div_pos; lia|]. apply Z.div_le_upper_bound; [lia|].
      assert (1 * (num t x * 2 ^ s * po) <= pw B (i * n) * (num t x * 2 ^ s * po)) by (apply Z.mul_le_mono_nonneg_r; lia). lia. }
    assert (HM : 0 < F * po * pw B n) by (apply Z.mul_pos_pos; lia).
    pose proof (block_open_large B HB _ _ _ HT) as HL.
    specialize (HL ltac:(apply Z.mod_pos_bound; lia) HFp ltac:(lia)).
    pose proof (Z.mod_le (num t x * 2 ^ s * po / pw B (i * n)) (F * po * pw B n) ltac:(lia) HM) as Hml.
    apply Z.lt_le_incl.
    assert (HC : num t y * (2 ^ s * po) < num t x * (2 ^ s * po)).
    { replace (num t y * (2 ^ s * po)) with (F * po) by (unfold F; ring).
      replace (num t x * (2 ^ s * po)) with (num t x * 2 ^ s * po) by ring. lia. }
    apply Z.mul_lt_mono_pos_r in HC; [exact HC|apply Z.mul_pos_pos; lia].
Qed.

(** nothing is returned *)
Lemma bz_open_claim x y q r : well_formed t x -> well_formed t y -> (20 <= length y)%nat ->
  scales t (length y) (num t y) -> recursive_open t x y -> div_assign_big D x y <> Ret (q, ROk r).
Proof.
  intros Wx Wy Hl HS HO E. destruct (bz_open_intro x y Wx Wy Hl HS HO) as [H Hle].
  destruct Wx as [Vx Nx], Wy as [Vy Ny].
  assert (DV : digit_div B D 1) by (pose proof (impl_div dbg t) as X; unfold slack in X; rewrite Hd in X; exact X).
  exact (div_assign_big_open B D (impl_ok dbg t) DV x y Vx Vy Nx Ny Hl Hle H _ E).
Qed.

Lemma recursive_open_dec x y : well_formed t y -> (20 <= length y)%nat ->
  recursive_open t x y \/ ~ recursive_open t x y.
Proof.
  intros [Vy Ny] Hl.
  pose proof (SliceProof.HB _ _ (impl_ok true t)) as HB.
  pose proof (top_pos B y Vy Ny ltac:(lia)) as Ht.
  pose proof (leading_top t y Vy ltac:(lia)) as EL.
  destruct (total_inv _ _ (ok_max_shift _ _ (impl_ok dbg t) _ Ht)) as (s & _ & HS).
  assert (Hs : scaling t (length y) (num t y) s) by (unfold scaling; rewrite EL; exact HS).
  destruct (block_size_ok (length y) Hl) as [Hh Hbs]. set (n := block_size (length y)) in *.
  assert (Hpad : padded (length y) n) by (apply block_size_padded, Hl).
  set (T i := let scaled v := v * 2 ^ s * B ^ Z.of_nat (n - length y) in
       block_open B n ((scaled (num t x) / B ^ Z.of_nat (i * n)) mod (scaled (num t y) * B ^ Z.of_nat n))
         (scaled (num t y))).
  assert (HE : forall m, (exists i, (i < m)%nat /\ (i * n <= length x - length y)%nat /\ T i)
     \/ ~ exists i, (i < m)%nat /\ (i * n <= length x - length y)%nat /\ T i).
  { induction m as [|m IH]; [right; intros (i & Hi & _); lia|].
    destruct IH as [(i & Hi & H)|N]; [left; exists i; split; [lia|exact H]|].
    destruct (Nat.le_gt_cases (m * n) (length x - length y)) as [Hm|Hm].
    - destruct (block_open_dec B n Hh ((num t x * 2 ^ s * B ^ Z.of_nat (n - length y) / B ^ Z.of_nat (m * n))
        mod (num t y * 2 ^ s * B ^ Z.of_nat (n - length y) * B ^ Z.of_nat n))
        (num t y * 2 ^ s * B ^ Z.of_nat (n - length y))) as [H|H].
      + left. exists m. split; [lia|]. split; [exact Hm|exact H].
      + right. intros (i & Hi & Hi2 & HT). destruct (Nat.eq_dec i m) as [->|]; [exact (H HT)|].
        apply N. exists i. split; [lia|]. auto.
    - right. intros (i & Hi & Hi2 & HT). destruct (Nat.eq_dec i m) as [->|]; [lia|].
      apply N. exists i. split; [lia|]. auto. }
  destruct (HE (S (length x))) as [(i & _ & Hi & HT)|N].
  - left. exists s, n, i. auto.
  - right. intros (s' & n' & i & Hs' & Hpad' & Hi & HT).
    pose proof (padded_unique (length y) n n' ltac:(lia) Hpad Hpad') as <-.
    pose proof (scaling_unique t (length y) (num t y) s s' ltac:(rewrite EL; lia) Hs Hs') as <-.
    apply N. exists i. split; [nia|]. split; [exact Hi|exact HT].
Qed.

Lemma bz_decimal_claim x y : well_formed t x -> well_formed t y -> (20 <= length y <= 80)%nat ->
  scales t (length y) (num t y) ->
  (recursive_open t x y -> stops dbg t x y PIndex)
  /\ (~ recursive_open t x y -> divided dbg t x y).
Proof.
  intros Wx Wy Hl HS. split.
  - intros HO. destruct (div_mid_tied_claim dbg t x y Hd Wx Wy Hl HS) as [H|H]; [|exact H].
    exfalso. destruct H as (q & r & E & _). exact (bz_open_claim x y q r Wx Wy ltac:(lia) HS HO E).
  - intros HN. apply div_mid_closed_claim; auto.
Qed.

Lemma bz_decimal_large_claim x y : well_formed t x -> well_formed t y -> (20 <= length y)%nat ->
  scales t (length y) (num t y) ->
  (recursive_open t x y -> stops dbg t x y PIndex \/ stops dbg t x y (PUnwrap Underflow) \/ stops dbg t x y PAssert)
  /\ (~ recursive_open t x y ->
      divided dbg t x y \/ stops dbg t x y (PUnwrap Underflow) \/ stops dbg t x y PAssert).
Proof.
  intros Wx Wy Hl HS. split.
  - intros HO. destruct (div_large_tied_claim dbg t x y Hd Wx Wy Hl HS) as [H|H]; [|exact H].
    exfalso. destruct H as (q & r & E & _). exact (bz_open_claim x y q r Wx Wy Hl HS HO E).
  - intros HN. apply div_large_closed_claim; auto.
Qed.

Lemma bz_decimal_explicit_claim x y : well_formed t x -> well_formed t y -> (20 <= length y <= 80)%nat ->
  scales t (length y) (num t y) ->
  (div_assign_big D x y = Panic PIndex <-> recursive_open t x y)
  /\ (~ recursive_open t x y ->
      exists q r, div_assign_big D x y = Ret (q, ROk r)
        /\ div_assign D x y = Ret q /\ rem_assign D x y = Ret r
        /\ num t q = num t x / num t y /\ num t r = num t x mod num t y
        /\ well_formed t q /\ well_formed t r).
Proof.
  intros Wx Wy Hl HS. destruct (bz_decimal_claim x y Wx Wy Hl HS) as [H1 H2].
  split; [split|].
  - intros E.
    destruct (recursive_open_dec x y Wy ltac:(lia)) as [HO|HN]; [exact HO|].
    destruct (H2 HN) as (q & r & E' & _). rewrite E in E'. discriminate E'.
  - intros HO. exact (proj1 (H1 HO)).
  - intros HN. destruct (H2 HN) as (q & r & E1 & _ & E2 & E3 & Wq & Wr & H3 & H4).
    exists q, r. repeat split; auto; try apply Wq; try apply Wr.
    + apply Z.div_unique with (num t r); lia.
    + apply Z.mod_unique with (num t q); lia.
Qed.
End Decimal.

(** ** Checking by computation *)
Fixpoint block_open_b (fuel : nat) (B : Z) (n : nat) (a b : Z) : bool :=
  match fuel with
  | O => true
  | S f =>
      if (n <? 20)%nat then a / B ^ Z.of_nat (2 * n - 1) =? b / B ^ Z.of_nat (n - 1)
      else let h := (n / 2)%nat in
        existsb (fun c => if c / B ^ Z.of_nat (2 * h) <? b / B ^ Z.of_nat h
                          then block_open_b f B h (c / B ^ Z.of_nat h) (b / B ^ Z.of_nat h) else false)
          [a / B ^ Z.of_nat h; a mod (b * B ^ Z.of_nat h)]
  end.
Lemma block_open_check fuel B n a b : block_open B n a b -> block_open_b fuel B n a b = true.
Proof.
  intros H. revert fuel. induction H as [n a b Hn E|h a b c Hh Hc Hlt H IH]; intros [|f]; cbn [block_open_b]; try reflexivity.
  - destruct (Nat.ltb_spec n 20); [|lia]. apply Z.eqb_eq. exact E.
  - destruct (Nat.ltb_spec (2 * h) 20); [lia|].
    rewrite half2. cbv zeta. apply existsb_exists. exists c. split; [destruct Hc as [-> | ->]; cbn; auto|].
    destruct (Z.ltb_spec (c / B ^ Z.of_nat (2 * h)) (b / B ^ Z.of_nat h)); [apply IH|lia].
Qed.
Lemma recursive_open_check t x y s0 n : (0 < length y)%nat -> 0 < leading t (length y) (num t y) ->
  scaling t (length y) (num t y) s0 -> padded (length y) n -> (0 < n)%nat ->
  (let sc v := v * 2 ^ s0 * radix t ^ Z.of_nat (n - length y) in
   let X := sc (num t x) in let Y := sc (num t y) in let R := radix t ^ Z.of_nat n in
   existsb (fun i => block_open_b n (radix t) n ((X / radix t ^ Z.of_nat (i * n)) mod (Y * R)) Y)
     (seq 0 (S ((length x - length y) / n))) = false) -> ~ recursive_open t x y.
Proof.
  intros H0 Hl Hs Hp Hn HF (s & m & i & Hs' & Hp' & Hi & HT).
  pose proof (scaling_unique _ _ _ _ _ Hl Hs Hs') as ->.
  pose proof (padded_unique _ _ _ H0 Hp Hp') as ->.
  cbv zeta in HF, HT. apply (block_open_check m) in HT.
  assert (E : false = true); [|discriminate E]. rewrite <- HF. apply existsb_exists. exists i. split; [|exact HT].
  apply in_seq. assert (i <= (length x - length y) / m)%nat; [|lia].
  apply Nat.div_le_lower_bound; lia.
Qed.
