(** * DivTie: with a tie, a binary division never gives the right quotient.

    When a partial remainder starts with the leading digit of the divisor, the
    estimate of the next quotient digit wraps around to 0 or 1, while the digit is
    close to the base.  Later digits cannot make up for it. *)
From Coq Require Import ZArith List Bool Lia.
From Verif Require Import Base Digit Slice Mul Div UBig Spec Hoare DigitOK ListLemmas Gives
  SliceProof MulProof UBigProof DivProof DivWide DivPairProof DivLongProof DivTopProof TypedProof Cases SpecDiv ClaimsDiv Keeps KeepsDiv.
Import ListNotations.
Open Scope Z_scope.
Open Scope m_scope.

Lemma gives_total {A} (e : M A) Q : total e Q -> gives e Q.
Proof. intros H a ->. exact H. Qed.
Lemma gives_and {A} (e : M A) (Q R : A -> Prop) : gives e Q -> gives e R -> gives e (fun a => Q a /\ R a).
Proof. intros H1 H2 a E. split; auto. Qed.

Lemma nth_skipn_add (l : list Z) i j : nth j (skipn i l) 0 = nth (i + j) l 0.
Proof.
  revert l. induction i as [|i IH]; intros l; [reflexivity|].
  destruct l; [destruct j; reflexivity|]. apply IH.
Qed.
Lemma nth_firstn_lt (l : list Z) i j : (j < i)%nat -> nth j (firstn i l) 0 = nth j l 0.
Proof.
  revert l j. induction i as [|i IH]; intros l j H; [lia|].
  destruct l; [reflexivity|]. destruct j; [reflexivity|]. cbn [nth firstn]. apply IH. lia.
Qed.

Section DivTie.
Variables (B : Z) (D : digit).
Hypothesis OK : digit_ok B D.
Hypothesis Hmax : forall d, 0 <= d < B -> keeps B (d_max_shift D d).
Hypothesis Hshl : forall d s c, 0 <= d < B -> 0 <= c < B -> keeps B (d_shl_carry D d s c).
Hypothesis Hshr : forall d s c, 0 <= d < B -> 0 <= c < B -> keeps B (d_shr_carry D d s c).
Hypothesis Hdiv : forall d f c, keeps B (d_div_carry D d f c).
(** the wrapped estimate *)
Hypothesis Htie : forall d f, 0 <= d < B -> 0 < f < B -> B <= 2 * f ->
  gives (d_div_carry D d f f) (fun '(q, _) => 0 <= q <= 1).
Notation val := (value B).
Notation digs := (below B).
Notation p n := (pw B n).
Let HB : 1 < B := SliceProof.HB B D OK.
Let DV : digit_div B D 0 := digit_div_0 B D OK.

(** ** Long division *)

Lemma loop_frame k : forall num den quot qden,
  gives (div_long_loop D k num den quot qden) (fun '(_, quot', _) =>
    skipn k quot' = skipn k quot /\ length quot' = length quot).
Proof.
  induction k as [|k IH]; intros num den quot qden; cbn [div_long_loop].
  - apply gives_ret. auto.
  - apply gives_bind with (R := fun '(_, quot1, _) =>
      skipn (S k) quot1 = skipn (S k) quot /\ length quot1 = length quot).
    { unfold div_long_step. apply gives_any. intros m. apply gives_any. intros a.
      apply gives_any. intros c. apply gives_any. intros [q r]. apply gives_any. intros [[n1 w1] q1].
      unfold set. destruct (Nat.ltb_spec k (length quot)); [|apply gives_panic].
      apply gives_ret. split; [|len]. rewrite skipn_app, skipn_all2 by len.
      replace (S k - length (firstn k quot))%nat with 1%nat by len. reflexivity. }
    intros [[n1 quot1] w1] [F1 L1]. eapply gives_post; [apply IH|].
    intros [[n2 quot2] w2] [F2 L2]. split; [|lia].
    change (S k) with (1 + k)%nat. rewrite <- !skipn_skipn, F2, !skipn_skipn. exact F1.
Qed.

(** the step at a tie *)
Lemma tied_step iq num den quot qden : let n := length den in let m := nth (n - 1) den 0 in
  (1 <= n)%nat -> digs num -> digs den -> length qden = S n ->
  (iq + n < length num)%nat -> (iq < length quot)%nat -> B <= 2 * m ->
  nth (iq + n) num 0 = m ->
  gives (div_long_step D iq num den quot qden) (fun '(_, quot', _) =>
    exists q, 0 <= q <= 1 /\ quot' = firstn iq quot ++ q :: skipn (S iq) quot).
Proof.
  intros n m Hn Dn Dd Lqd Hnum Hq Hm Etie.
  assert (Hmb : 0 <= m < B).
  { apply (below_nth B den (n - 1)); [exact Dd|]. apply nth_error_nth'. fold n. lia. }
  unfold div_long_step. fold n.
  rewrite get_ok by (fold n; lia). cbn [bind]. fold m.
  rewrite get_ok by lia. cbn [bind]. rewrite get_ok by lia. cbn [bind]. rewrite Etie.
  assert (Ha : 0 <= nth (iq + n - 1) num 0 < B).
  { apply (below_nth B num (iq + n - 1)); [exact Dn|]. apply nth_error_nth'. lia. }
  eapply gives_bind; [apply Htie; [exact Ha|lia|exact Hm]|]. intros [q r] Hq01.
  apply gives_bind with (R := fun '(_, _, q') => q' = q).
  - destruct (Z.eqb_spec q 0) as [E0|Hne]; [apply gives_ret; reflexivity|].
    assert (Eq : q = 1) by lia.
    eapply gives_bind; [apply gives_total, (mul_digit_into_wide B D 0 OK DV); [exact Dd|lia|exact Lqd]|].
    intros r0 (low & top & -> & Llow & Dlow & Htop & Vlow).
    fold n in Llow.
    rewrite sub_slice_ok by lia. cbn [bind].
    set (w := firstn (iq + n + 1 - iq) (skipn iq num)).
    assert (Lw : length w = S n) by (unfold w; len).
    assert (Dw : digs w) by (apply below_firstn, below_skipn; exact Dn).
    assert (Ew : w = firstn n w ++ [nth n w 0]) by (apply split_last; exact Lw).
    assert (En : nth n w 0 = m).
    { rewrite <- Etie. unfold w. rewrite nth_firstn_lt by lia. rewrite nth_skipn_add. reflexivity. }
    assert (Hlt : num_lt w (low ++ [top]) = false).
    { rewrite Ew. rewrite (num_lt_wide B HB) by (try apply below_firstn; auto; len).
      apply Z.ltb_ge. rewrite Vlow, Eq. rewrite En, value_app. cbn [value].
      replace (length (firstn n w)) with n by len.
      pose proof (value_bound B HB den Dd) as Bd. fold n in Bd.
      pose proof (value_nonneg B HB _ (below_firstn B n w Dw)).
      assert (1 <= m) by lia. pose proof (pw_pos B n HB).
      assert (p n * 1 <= p n * m) by (apply Z.mul_le_mono_nonneg_l; lia). lia. }
    rewrite Hlt. cbn [bind]. apply gives_any. intros [n1 u]. apply gives_ret. reflexivity.
  - intros [[n1 w1] q1] ->. rewrite set_ok by exact Hq. cbn [bind]. apply gives_ret.
    exists q. auto.
Qed.

(** at a tie the true digit is one of the two largest *)
Lemma tied_digit W d m P : 0 < P -> B <= 2 * m -> d < (m + 1) * P -> m * (B * P) <= W -> (B - 2) * d <= W.
Proof.
  intros HP Hm Hd HW. assert (100 <= B) by apply (ok_base _ _ OK).
  assert ((B - 2) * d <= (B - 2) * ((m + 1) * P)) by (apply Z.mul_le_mono_nonneg_l; lia).
  assert (((B - 2) * (m + 1)) * P <= (m * B) * P); [|lia].
  apply Z.mul_le_mono_nonneg_r; lia.
Qed.

Lemma loop_tied k num den quot qden : let n := length den in let m := nth (n - 1) den 0 in
  (1 <= n)%nat -> digs num -> digs den -> digs quot -> digs qden -> length qden = S n ->
  (k <= length quot)%nat -> (k + n <= length num)%nat -> B <= 2 * m ->
  val (skipn k num) < val den ->
  (exists i, (1 <= i <= k)%nat /\ ((val num / p i) mod val den) / p (n - 1) = m) ->
  gives (div_long_loop D k num den quot qden) (fun '(_, quot', _) =>
    val (firstn k quot') + (B - 3) <= val num / val den).
Proof.
  intros n m Hn. revert num quot qden.
  induction k as [|k IH]; intros num quot qden Dn Dd Dq Dqd Lqd Hk Hnum Hm HR (i & Hi & Ei);
    [lia|].
  assert (Hmb : 0 <= m < B).
  { apply (below_nth B den (n - 1)); [exact Dd|]. apply nth_error_nth'. fold n. lia. }
  assert (Hden : 0 < val den) by (pose proof (value_nonneg B HB _ (below_skipn B (S k) num Dn)); lia).
  assert (HdenT : val den < (m + 1) * p (n - 1) /\ m * p (n - 1) <= val den).
  { rewrite (split_last den (n - 1)) by (fold n; lia). fold m.
    rewrite value_app, firstn_length_le by (fold n; lia). cbn [value].
    pose proof (value_bound B HB _ (below_firstn B (n - 1) den Dd)) as Hb.
    rewrite firstn_length_le in Hb by (fold n; lia). lia. }
  pose proof (pw_pos B (n - 1) HB) as Hp1.
  assert (Epn : p n = B * p (n - 1)) by (rewrite <- pw_S; f_equal; lia).
  set (T := val (skipn (S k) num)) in *.
  assert (HT0 : 0 <= T) by (apply value_nonneg, below_skipn; assumption).
  assert (ET : (val num / p (S k)) mod val den = T).
  { rewrite (value_div B D OK) by (auto; lia). apply Z.mod_small. fold T. lia. }
  assert (HTm : T / p (n - 1) <= m).
  { assert (T / p (n - 1) < m + 1); [|lia]. apply Z.div_lt_upper_bound; lia. }
  cbn [div_long_loop].
  destruct (Z.eq_dec (T / p (n - 1)) m) as [Etop|Etop].
  - (* the digit at this position is wrong *)
    clear i Hi Ei IH.
    assert (HTlow : m * p (n - 1) <= T).
    { pose proof (Z.mul_div_le T (p (n - 1)) Hp1) as H. rewrite Etop in H. lia. }
    assert (Enth : nth (k + n) num 0 = m).
    { (* the leading digit of the partial remainder *)
      assert (Hlen : (n <= length (skipn (S k) num) \/ length (skipn (S k) num) = n - 1)%nat) by len.
      rewrite <- Etop.
      assert (E1 : T / p (n - 1) = val (skipn (n - 1) (skipn (S k) num))).
      { unfold T. apply (value_div B D OK); [apply below_skipn; exact Dn|len]. }
      rewrite E1, skipn_skipn. replace (n - 1 + S k)%nat with (k + n)%nat by lia.
      rewrite E1, skipn_skipn in Etop. replace (n - 1 + S k)%nat with (k + n)%nat in Etop by lia.
      assert (Dx : digs (skipn (k + n) num)) by (apply below_skipn; exact Dn).
      replace (nth (k + n) num 0) with (nth 0 (skipn (k + n) num) 0)
        by (rewrite nth_skipn_add; f_equal; lia).
      destruct (skipn (k + n) num) as [|x tl] eqn:Ex.
      - exfalso. cbn in Etop. lia.
      - cbn [nth value] in *. apply below_cons in Dx. destruct Dx as [Hx Dtl].
        pose proof (value_nonneg B HB tl Dtl).
        destruct (Z.le_gt_cases 1 (val tl)); [|assert (val tl = 0) as -> by lia; lia].
        assert (B * 1 <= B * val tl) by (apply Z.mul_le_mono_nonneg_l; lia). lia. }
    eapply gives_bind.
    { apply gives_and.
      - apply (tied_step k num den quot qden); auto; try (fold n; lia).
      - apply (a_long_step B D OK Hdiv); assumption. }
    intros [[num1 quot1] qden1] [(q & Hq & Eq1) ((Dn1 & Dq1) & Dqd1)]. cbn [fst snd] in *.
    eapply gives_post.
    { apply gives_and; [apply (loop_frame k num1 den quot1 qden1)|].
      apply (a_long_loop B D OK Hdiv); assumption. }
    intros [[num2 quot2] qden2] [(F2 & L2) ((Dn2 & Dq2) & _)]. cbn [fst snd] in *.
    assert (Lq1 : length quot1 = length quot) by (rewrite Eq1; len).
    assert (Lf : length (firstn k quot) = k) by len.
    replace (S k) with (k + 1)%nat by lia. rewrite firstn_plus, F2, Eq1.
    rewrite skipn_exact by exact Lf. rewrite firstn_one, value_app, firstn_length_le by lia.
    cbn [value]. rewrite Z.mul_0_r, Z.add_0_r.
    pose proof (value_bound B HB _ (below_firstn B k quot2 Dq2)) as Hb.
    rewrite firstn_length_le in Hb by lia.
    assert (HQ : p k * (B - 2) <= val num / val den).
    { apply Z.div_le_lower_bound; [exact Hden|].
      rewrite (value_split B k num) by lia.
      assert (H2 : (B - 2) * val den <= val (skipn k num)).
      { apply (tied_digit _ _ m (p (n - 1))); try lia.
        destruct (skipn k num) as [|x tl] eqn:Ex.
        { apply (f_equal (@length Z)) in Ex. rewrite skipn_length in Ex. cbn in Ex. lia. }
        assert (Dx : digs (x :: tl)) by (rewrite <- Ex; apply below_skipn; exact Dn).
        apply below_cons in Dx. cbn [value].
        assert (Etl : val tl = T).
        { unfold T. replace (S k) with (1 + k)%nat by lia. rewrite <- skipn_skipn, Ex. reflexivity. }
        rewrite Etl. assert (B * (m * p (n - 1)) <= B * T) by (apply Z.mul_le_mono_nonneg_l; lia). lia. }
      pose proof (value_nonneg B HB _ (below_firstn B k num Dn)).
      pose proof (pw_pos B k HB).
      assert (p k * ((B - 2) * val den) <= p k * val (skipn k num)) by (apply Z.mul_le_mono_nonneg_l; lia). lia. }
    pose proof (pw_pos B k HB).
    assert (p k * q <= p k * 1) by (apply Z.mul_le_mono_nonneg_l; lia).
    assert (100 <= B) by apply (ok_base _ _ OK).
    assert (1 * (B - 4) <= p k * (B - 4)) by (apply Z.mul_le_mono_nonneg_r; lia). lia.
  - (* the digit is right, the tie comes later *)
    assert (Hik : (i <= k)%nat).
    { destruct (Nat.eq_dec i (S k)) as [->|]; [|lia]. rewrite ET in Ei. contradiction. }
    eapply gives_bind.
    { apply gives_total, (div_long_step_ok B D 0 OK DV); auto; try (fold n; lia).
      fold n m T. lia. }
    intros [[num1 quot1] qden1] (L1 & D1 & F1 & V1 & Q1 & HQ & Dqd1 & Lqd1).
    set (W := val (skipn k num)) in *.
    assert (Hdm := div_mod_eq W (val den) Hden).
    assert (VN : val num = val num1 + p k * (W / val den * val den)).
    { rewrite (value_split B k num), (value_split B k num1), F1, V1 by lia. fold W.
      replace W with (val den * (W / val den) + W mod val den) at 1 by lia. ring. }
    assert (Lq1 : length quot1 = length quot) by (rewrite Q1; len).
    assert (Lf : length (firstn k quot) = k) by len.
    eapply gives_post.
    { apply gives_and; [|apply (loop_frame k num1 den quot1 qden1)].
      apply IH; auto; try lia.
      { rewrite Q1. apply below_app. split; [apply below_firstn; exact Dq|].
        apply below_cons. split; [exact HQ|apply below_skipn; exact Dq]. }
      exists i. split; [lia|].
      rewrite <- (guard_shift B D OK (val num) (val num1) k i (val den) (W / val den)) by (lia || exact VN).
      exact Ei. }
    intros [[num2 quot2] qden2] [VQ2 (F2 & L2)].
    assert (Sk : skipn k quot1 = (W / val den) :: skipn (S k) quot).
    { rewrite Q1. apply skipn_exact. exact Lf. }
    replace (S k) with (k + 1)%nat by lia. rewrite firstn_plus, F2, Sk, firstn_one.
    rewrite value_app, firstn_length_le by lia. cbn [value]. rewrite VN.
    rewrite Z.mul_assoc, Z.div_add by lia. lia.
Qed.

Definition wrong (q : Z) (x : (digits * digits * digits) * (nat * nat)) : Prop :=
  let '((_, quot', _), (nq, _)) := x in (nq <= length quot')%nat /\ val (firstn nq quot') <> q.

(** the quotient is too small by [d] or more *)
Definition short (d q : Z) (quot : digits) (x : (digits * digits * digits) * (nat * nat)) : Prop :=
  let '((_, quot', _), (nq, _)) := x in (nq <= length quot')%nat /\ val (firstn nq quot') + d <= q
    /\ length quot' = length quot /\ (val quot = 0 -> val quot' = val (firstn nq quot')).

Lemma short_wrong d q quot x : 0 < d -> short d q quot x -> wrong q x.
Proof. destruct x as [[[? quot'] ?] [nq ?]]. intros Hd (H1 & H2 & _). split; [exact H1|lia]. Qed.

Lemma long_scaled_tied num msd den quot work : let n := length den in
  let k := (length num - n)%nat in let m := nth (n - 1) den 0 in
  (1 <= n)%nat -> (n <= length num)%nat -> digs num -> digs den -> digs quot -> digs work ->
  (S n <= length work)%nat -> (k <= length quot)%nat -> B <= 2 * m ->
  0 <= msd < m ->
  let N := val num + p (length num) * msd in
  (exists i, (1 <= i <= k)%nat /\ ((N / p i) mod val den) / p (n - 1) = m) ->
  gives (div_big_long_scaled D num msd den quot work) (short (B - 3) (N / val den) quot).
Proof.
  intros n k m Hn Hnum Dn Dd Dq Dw Lw Hk Hm Hmsd N (i & Hi & Ei).
  unfold div_big_long_scaled. fold n k.
  rewrite get_ok by (fold n; lia). cbn [bind].
  apply gives_any. intros s. apply gives_any. intros _.
  rewrite prefix_ok by lia. cbn [bind]. replace (n + 1)%nat with (S n) by lia.
  assert (EN : N = val (firstn k num) + p k * (val (skipn k num) + p n * msd)).
  { unfold N. rewrite (value_split B k num) by lia.
    rewrite (pw_sub B (length num) k HB) by lia. replace (length num - k)%nat with n by lia. ring. }
  eapply gives_bind.
  { intros x Ex. eapply spec_returns; [|exact Ex].
    apply (div_long_first_ok B D 0 OK DV); auto; try (fold n m; try fold k; lia);
      [apply below_firstn; exact Dw|fold n; len]. }
  fold n k. set (W := val (skipn k num) + p n * msd).
  intros [[[num1 quot1] qden1] nq] (L1 & D1 & F1 & V1 & LQ1 & DQ1 & FQ1 & Hnq & Hnq' & VQ1 & HQ & Dqd1 & Lqd1 & SQ1).
  assert (Hden : 0 < val den).
  { rewrite (split_last den (n - 1)) by (fold n; lia). fold m.
    rewrite value_app, firstn_length_le by (fold n; lia). cbn [value].
    pose proof (value_nonneg B HB _ (below_firstn B (n - 1) den Dd)).
    pose proof (pw_pos B (n - 1) HB).
    assert (0 < p (n - 1) * m) by (apply Z.mul_pos_pos; lia). lia. }
  assert (Hdm := div_mod_eq W (val den) Hden).
  fold W in EN.
  assert (VN : N = val num1 + p k * (W / val den * val den)).
  { rewrite EN, (value_split B k num1), F1, V1 by lia.
    replace W with (val den * (W / val den) + W mod val den) at 1 by lia. ring. }
  eapply gives_bind.
  { apply gives_and; [|apply (loop_frame k num1 den quot1 qden1)].
    apply loop_tied; auto; try (fold n m; lia).
    exists i. split; [exact Hi|]. fold n m.
    rewrite <- (guard_shift B D OK N (val num1) k i (val den) (W / val den)) by (lia || exact VN).
    exact Ei. }
  intros [[num2 quot2] qden2] [VQ2 (SQ2 & LQ2)].
  assert (VNd : N / val den = val num1 / val den + p k * (W / val den)).
  { rewrite VN, Z.mul_assoc, Z.div_add by lia. reflexivity. }
  eapply gives_bind; [apply gives_total, (drop_val B); lia|]. intros nq2 (Q1 & Q2 & Q3).
  apply gives_any. intros nr. apply gives_ret. unfold short. split; [lia|].
  rewrite Q2. split; [|split; [lia|]].
  - rewrite VNd. rewrite (value_split B k (firstn nq quot2)) by len.
    rewrite firstn_firstn, Nat.min_l by lia.
    assert (E : val (skipn k (firstn nq quot2)) = W / val den).
    { rewrite <- VQ1. f_equal. rewrite !skipn_firstn_comm, SQ2. reflexivity. }
    rewrite E. lia.
  - intros Hz. rewrite (value_split B nq quot2) by lia.
    assert (E2 : skipn nq quot2 = skipn nq quot).
    { rewrite <- SQ1. replace nq with ((nq - k) + k)%nat by lia.
      rewrite <- !skipn_skipn, SQ2. reflexivity. }
    rewrite E2.
    pose proof (value_split B nq quot ltac:(lia)) as Vq0. rewrite Hz in Vq0.
    pose proof (value_nonneg B HB _ (below_firstn B nq quot Dq)).
    pose proof (value_nonneg B HB _ (below_skipn B nq quot Dq)).
    pose proof (pw_pos B nq HB).
    assert (0 <= p nq * val (skipn nq quot)) by (apply Z.mul_nonneg_nonneg; lia). lia.
Qed.

(** [x], of [n + m] digits or so, divided by [d] after shifting has a tie *)
Definition ties (x d top : Z) (n m : nat) : Prop := exists s i, is_shift B top s
  /\ d * 2 ^ s < p n /\ (1 <= i <= m)%nat
  /\ ((x * 2 ^ s / p i) mod (d * 2 ^ s)) / p (n - 1) = (d * 2 ^ s) / p (n - 1).

Lemma shift_unique top s s' : 0 < top -> is_shift B top s -> is_shift B top s' -> s = s'.
Proof.
  intros Hl (H0 & H1 & H2) (H0' & H1' & H2').
  assert (A : forall a b, 0 <= a -> 0 <= b -> top * 2 ^ a < top * 2 ^ (b + 1) -> a <= b).
  { intros a b Ha Hb H. apply Z.mul_lt_mono_pos_l in H; [|exact Hl].
    apply Z.pow_lt_mono_r_iff in H; lia. }
  pose proof (A s s' H0 H0' ltac:(lia)). pose proof (A s' s H0' H0 ltac:(lia)). lia.
Qed.

Lemma long_tied num den quot work : let n := length den in
  let k := (length num - n)%nat in let top := nth (n - 1) den 0 in
  (3 <= n)%nat -> (n <= length num)%nat -> digs num -> digs den -> digs quot -> digs work ->
  (S n <= length work)%nat -> top <> 0 -> (k <= length quot)%nat ->
  ties (val num) (val den) top n k ->
  gives (div_big_long D num den quot work) (short (B - 3) (val num / val den) quot).
Proof.
  intros n k top Hn Hnum Dn Dd Dq Dw Lw Htop Hq (s' & i & HS' & HF2 & Hi & Ei).
  assert (Hmb : 0 <= top < B).
  { apply (below_nth B den (n - 1)); [exact Dd|]. apply nth_error_nth'. fold n. lia. }
  assert (Hden : 0 < val den).
  { rewrite (split_last den (n - 1)) by (fold n; lia). fold top.
    rewrite value_app, firstn_length_le by (fold n; lia). cbn [value].
    pose proof (value_nonneg B HB _ (below_firstn B (n - 1) den Dd)).
    pose proof (pw_pos B (n - 1) HB).
    assert (0 < p (n - 1) * top) by (apply Z.mul_pos_pos; lia). lia. }
  unfold div_big_long. fold n k.
  apply gives_any. intros _. apply gives_any. intros _. apply gives_any. intros _. apply gives_any. intros _.
  rewrite get_ok by (fold n; lia). cbn [bind]. fold top.
  eapply gives_bind; [apply gives_total, (ok_max_shift _ _ OK); lia|]. intros s Hs.
  assert (HS : is_shift B top s) by exact Hs.
  assert (s' = s) by (apply (shift_unique top); auto; lia). subst s'. clear HS'.
  destruct (shift_bound B top s ltac:(lia) HS) as [Hs2 Hs3]. destruct Hs as [Hs0 Hs1].
  destruct (unshift (val num) (val den) s Hs0 Hden) as [U1 U2].
  set (N := val num * 2 ^ s) in *. set (E := val den * 2 ^ s) in *.
  assert (HE : 0 < E) by (unfold E; apply Z.mul_pos_pos; lia).
  destruct (Z.eqb_spec s 0) as [E0|Hne].
  - assert (EN : N = val num) by (unfold N; rewrite E0, Z.mul_1_r; reflexivity).
    assert (EE : E = val den) by (unfold E; rewrite E0, Z.mul_1_r; reflexivity).
    rewrite E0 in Hs1. change (2 ^ (0 + 1)) with 2 in Hs1.
    assert (Etop : val den / p (n - 1) = top).
    { rewrite (value_div B D OK) by (auto; fold n; lia). unfold top.
      rewrite (split_last den (n - 1)) at 1 by (fold n; lia). rewrite skipn_exact by len.
      cbn [value]. lia. }
    replace (val num) with (val num + p (length num) * 0) by lia.
    apply long_scaled_tied; auto; try (fold n; try fold top; try fold k; lia).
    exists i. split; [exact Hi|]. fold n top. rewrite Z.mul_0_r, Z.add_0_r, <- EN, <- EE, <- Etop.
    rewrite EE in Ei |- *. exact Ei.
  - eapply gives_bind; [apply gives_total, (shl_within_ok B D OK); [exact Dd|lia|lia]|].
    intros [sden c] (Ls & Ds & Hc & Vs).
    fold n in Ls, Vs. fold E in Vs.
    assert (c = 0) as ->.
    { pose proof (value_nonneg B HB sden Ds).
      destruct (Z.le_gt_cases 1 c); [|lia].
      pose proof (pw_pos B n HB).
      assert (p n * 1 <= p n * c) by (apply Z.mul_le_mono_nonneg_l; lia). lia. }
    rewrite Z.mul_0_r, Z.add_0_r in Vs.
    eapply gives_bind; [apply gives_total, (shl_within_ok B D OK); [exact Dn|lia|lia]|].
    intros [snum msd] (Lsn & Dsn & Hmsd & Vsn).
    fold N in Vsn.
    rewrite prefix_ok by lia. cbn [bind].
    assert (Etop : E / p (n - 1) = nth (n - 1) sden 0).
    { rewrite <- Vs, (value_div B D OK) by (auto; lia).
      rewrite (split_last sden (n - 1)) at 1 by lia. rewrite skipn_exact by len.
      cbn [value]. lia. }
    assert (Htop2 : top * 2 ^ s <= nth (n - 1) sden 0).
    { rewrite <- Etop. apply Z.div_le_lower_bound; [apply pw_pos; exact HB|].
      unfold E. rewrite (split_last den (n - 1)) by (fold n; lia). fold top.
      rewrite value_app. rewrite firstn_length_le by (fold n; lia). cbn [value].
      pose proof (value_nonneg B HB _ (below_firstn B (n - 1) den Dd)).
      assert (0 <= val (firstn (n - 1) den) * 2 ^ s) by (apply Z.mul_nonneg_nonneg; lia). lia. }
    assert (E2 : 2 ^ (s + 1) = 2 * 2 ^ s) by (rewrite Z.pow_add_r by lia; lia).
    rewrite E2 in Hs1.
    assert (Ek : (length snum - n)%nat = k) by (unfold k; lia).
    assert (HDS : gives (div_big_long_scaled D snum msd sden quot (firstn (n + 1) work))
              (short (B - 3) (N / E) quot)).
    { pose proof (long_scaled_tied snum msd sden quot (firstn (n + 1) work)) as X.
      cbv zeta in X. rewrite Ls, Ek, Lsn, Vsn, Vs in X.
      apply X; clear X; auto; try lia.
      - apply below_firstn; exact Dw.
      - len.
      - exists i. split; [exact Hi|]. rewrite <- Etop. exact Ei. }
    eapply gives_bind; [exact HDS|]. rewrite U1.
    intros [[[num1 quot1] work1] [nq nr]] HW.
    apply gives_any. intros [num2 [nr2 c2]]. apply gives_ret. exact HW.
Qed.

(** ** Two-digit divisors *)

Lemma tied_pair_step dl dh d rl : 0 <= dl < B -> 0 < dh < B -> B <= 2 * dh -> 0 <= d < B -> 0 <= rl < B ->
  gives (div_pair_step D dl dh d dh rl) (fun '(q, _) => 0 <= q <= 1).
Proof.
  intros Hdl Hdh H2 Hd Hrl. unfold div_pair_step.
  eapply gives_bind; [apply Htie; [exact Hrl|exact Hdh|exact H2]|]. intros [q r] Hq.
  eapply gives_bind; [apply gives_total, (ok_mul _ _ OK); [exact Hdl|lia|lia]|].
  intros [d1 c1] (Hd1 & Hc1 & E1).
  eapply gives_bind; [apply gives_total, (ok_mul _ _ OK); [split; [lia|apply Hdh]|lia|exact Hc1]|].
  intros [d2 d3] (Hd2 & Hd3 & E2).
  assert (H0 : d3 = 0).
  { assert (H : q = 0 \/ q = 1) by lia. destruct H as [-> | ->].
    - assert (c1 = 0) by (destruct (Z.le_gt_cases 1 c1); [|lia];
        assert (B * 1 <= B * c1) by (apply Z.mul_le_mono_nonneg_l; lia); lia).
      destruct (Z.le_gt_cases 1 d3); [|lia].
      assert (B * 1 <= B * d3) by (apply Z.mul_le_mono_nonneg_l; lia). lia.
    - assert (c1 = 0) by (destruct (Z.le_gt_cases 1 c1); [|lia];
        assert (B * 1 <= B * c1) by (apply Z.mul_le_mono_nonneg_l; lia); lia).
      destruct (Z.le_gt_cases 1 d3); [|lia].
      assert (B * 1 <= B * d3) by (apply Z.mul_le_mono_nonneg_l; lia). lia. }
  assert (Hgt : array_gt [d3; d2; d1] [dh; rl; d] = false).
  { unfold array_gt. cbn [lex_cmp]. rewrite H0. replace (0 ?= dh) with Lt; [reflexivity|].
    symmetry. apply Z.compare_lt_iff. lia. }
  rewrite Hgt. cbn [bind]. apply gives_any. intros [x u]. apply gives_any. intros [y v].
  apply gives_ret. exact Hq.
Qed.

Lemma pair_loop_tied nr dl dh rh rl :
  digs nr -> 0 <= dl < B -> 0 < dh < B -> B <= 2 * dh -> 0 <= rl < B -> 0 <= rh ->
  rl + B * rh < dl + B * dh ->
  let V := val nr + p (length nr) * (rl + B * rh) in let E := dl + B * dh in
  (exists i, (1 <= i <= length nr)%nat /\ ((V / p i) mod E) / B = dh) ->
  gives (div_pair_loop D nr dl dh rh rl) (fun '(q, _) => val q <> V / E).
Proof.
  intros Hn Hdl Hdh H2 Hrl Hrh HR. cbv zeta.
  remember (dl + B * dh) as E eqn:EE.
  assert (HBd : 0 < B * dh) by (apply Z.mul_pos_pos; lia).
  assert (HE : 0 < E) by lia.
  assert (Hrh' : rh < B).
  { destruct (Z.le_gt_cases B rh); [|lia]. assert (B * B <= B * rh) by (apply Z.mul_le_mono_nonneg_l; lia).
    assert (B * dh <= B * (B - 1)) by (apply Z.mul_le_mono_nonneg_l; lia). lia. }
  induction nr as [|d t IH]; intros (i & Hi & Ei); [cbn in Hi; lia|].
  apply below_cons in Hn. destruct Hn as [Hd Ht]. cbn [length value div_pair_loop] in *.
  remember (val t + p (length t) * (rl + B * rh)) as V eqn:EV.
  assert (HV : d + B * val t + p (S (length t)) * (rl + B * rh) = d + B * V)
    by (rewrite pw_S; lia).
  rewrite HV in Ei |- *.
  assert (GV : forall i, (d + B * V) / p (S i) = V / p i).
  { intros j. rewrite pw_S, <- Z.div_div by (try apply (pw_pos B j HB); lia). f_equal.
    symmetry. apply Z.div_unique with d; [left|]; lia. }
  assert (HQQ : (d + B * V) / E / B = V / E).
  { rewrite Z.div_div, (Z.mul_comm E), <- Z.div_div by lia. f_equal.
    symmetry. apply Z.div_unique with d; [left|]; lia. }
  (* either an earlier tie, or the first one is here *)
  assert (Hdec : (exists j, (1 <= j <= length t)%nat /\ ((V / p j) mod E) / B = dh)
            \/ (forall j, (1 <= j <= length t)%nat -> ((V / p j) mod E) / B < dh)).
  { assert (Hle : forall j, ((V / p j) mod E) / B <= dh).
    { intros j. pose proof (Z.mod_pos_bound (V / p j) E HE).
      assert ((V / p j) mod E / B < dh + 1); [|lia]. apply Z.div_lt_upper_bound; lia. }
    clear - Hle. induction (length t) as [|k IHk]; [right; intros; lia|].
    destruct IHk as [(j & Hj & E1)|IHk]; [left; exists j; split; [lia|exact E1]|].
    destruct (Z.eq_dec ((V / p (S k)) mod E / B) dh) as [E1|E1].
    - left. exists (S k). split; [lia|exact E1].
    - right. intros j Hj. destruct (Nat.eq_dec j (S k)) as [->|]; [|apply IHk; lia].
      specialize (Hle (S k)). lia. }
  destruct Hdec as [Hex|Hfree].
  - eapply gives_bind.
    { apply gives_and; [apply (IH Ht); exact Hex|].
      apply (a_pair_loop B D OK Hdiv); auto; lia. }
    intros [q [rh1 rl1]] [VQ (Dq & Hrh1 & Hrl1)]. cbn [fst snd] in *.
    eapply gives_bind; [apply (a_pair_step B D OK Hdiv); auto; lia|].
    intros [q0 r0] (Hq0 & _). apply gives_ret. cbn [value fst] in *. intros Eq. apply VQ.
    rewrite <- HQQ, <- Eq. apply Z.div_unique with q0; [left; exact Hq0|lia].
  - assert (Ei1 : (V mod E) / B = dh).
    { destruct i as [|j]; [lia|]. rewrite GV in Ei. destruct j as [|j].
      - rewrite pw_0, Z.div_1_r in Ei. exact Ei.
      - specialize (Hfree (S j) ltac:(lia)). lia. }
    eapply gives_bind.
    { apply gives_total. rewrite EE in *.
      apply (div_pair_loop_ok B D 0 OK DV); auto.
      rewrite <- EV. intros j Hj. specialize (Hfree j Hj). lia. }
    cbv beta. rewrite <- EE, <- EV.
    intros [q [rh1 rl1]] (L & Dq & Hrh1 & Hrl1 & Vq & R1).
    assert (rh1 = dh) as ->.
    { rewrite <- Ei1, <- R1. apply Z.div_unique with rl1; lia. }
    eapply gives_bind; [apply tied_pair_step; auto|]. intros [q0 r0] Hq0. apply gives_ret.
    cbn [value]. intros Eq. rewrite Vq in Eq.
    assert (Hm := div_mod_eq V E HE).
    assert (E3 : (d + B * V) / E = B * (V / E) + (d + B * (V mod E)) / E).
    { replace (d + B * V) with ((d + B * (V mod E)) + (B * (V / E)) * E) by lia.
      rewrite Z.div_add by lia. lia. }
    assert (100 <= B) by apply (ok_base _ _ OK).
    assert (B - 2 <= (d + B * (V mod E)) / E); [|lia].
    apply Z.div_le_lower_bound; [exact HE|].
    assert ((B - 2) * E <= d + B * (V mod E)); [|lia].
    apply (tied_digit _ _ dh B); lia.
Qed.

Lemma pair_loop_length nr dl dh rh rl :
  gives (div_pair_loop D nr dl dh rh rl) (fun '(q, _) => length q = length nr).
Proof.
  induction nr as [|d t IH]; cbn [div_pair_loop]; [apply gives_ret; reflexivity|].
  eapply gives_bind; [exact IH|]. intros [q [rh1 rl1]] L.
  apply gives_any. intros [q0 [a b]]. apply gives_ret. cbn [length]. lia.
Qed.

Lemma pair_tied nr fl fh : digs nr -> 0 <= fl < B -> 0 < fh < B ->
  let F := fl + B * fh in ties (val nr) F fh 2 (length nr - 2) ->
  gives (div_assign_digit_pair D nr fl fh) (fun '(q, res) =>
    exists n x y, res = ROk (n, x, y) /\ (n <= length q)%nat /\ val (firstn n q) <> val nr / F).
Proof.
  intros Hn Hfl Hfh. cbv zeta. remember (fl + B * fh) as F eqn:EF. intros (s' & i & HS' & HF2 & Hi & Ei).
  assert (HF : B <= F).
  { assert (B * 1 <= B * fh) by (apply Z.mul_le_mono_nonneg_l; lia). lia. }
  unfold div_assign_digit_pair. destruct (Z.eqb_spec fh 0) as [|_]; [lia|].
  destruct nr as [|d [|d' t]]; [cbn in Hi; lia|cbn in Hi; lia|].
  set (nr := d :: d' :: t) in *. assert (Ln : (2 <= length nr)%nat) by (cbn; lia).
  set (n := length nr) in *. clearbody nr. clear d d' t.
  eapply gives_bind; [apply gives_total, (ok_max_shift _ _ OK); exact Hfh|]. intros s Hs.
  assert (HS : is_shift B fh s) by exact Hs.
  assert (s' = s) by (apply (shift_unique fh); auto; lia). subst s'. clear HS'.
  destruct (shift_bound B fh s ltac:(lia) HS) as [Hs2 Hs3]. destruct Hs as [Hs0 Hs1].
  set (N := val nr * 2 ^ s) in *. set (E := F * 2 ^ s) in *.
  assert (Hsc : total
    (if 0 <? s then
       '(den_low, carry) <- d_shl_carry D fl s 0 ;;
       '(den_high, _) <- d_shl_carry D fh s carry ;;
       '(nr, rem_high) <- shl_carry_assign_within_digit D nr s 0 ;;
       Ret (nr, den_low, den_high, rem_high)
     else Ret (nr, fl, fh, 0))
    (fun '(nr', dl, dh, rh) => length nr' = n /\ digs nr' /\ 0 <= dl < B /\ 0 < dh < B
       /\ B <= 2 * dh /\ 0 <= rh < dh /\ dl + B * dh = E /\ val nr' + p n * rh = N)).
  { destruct (Z.ltb_spec 0 s) as [Hpos|Hz].
    - tstep (ok_shl _ _ OK); [exact Hfl|lia|lia|lia|]. intros [dl c] (Hdl & Hc & Edl).
      tstep (ok_shl _ _ OK); [split; [lia|apply Hfh]|lia|lia|exact Hc|].
      intros [dh c2] (Hdh & Hc2 & Edh).
      tstep (shl_within_ok B D OK); [exact Hn|lia|lia|]. intros [nr' rh] (L & Dn & Hrh & Vn).
      ret.
      assert (EE : dl + B * dh + B * B * c2 = E).
      { unfold E. rewrite EF. replace dl with (fl * 2 ^ s - B * c) by lia.
        replace dh with (fh * 2 ^ s + c - B * c2) by lia. ring. }
      assert (Hc20 : c2 = 0).
      { assert (p 2 = B * B) as Ep by (rewrite pw_S, pw_1; reflexivity). rewrite Ep in HF2.
        assert (0 <= B * dh) by (apply Z.mul_nonneg_nonneg; lia).
        assert (0 < B * B) by (apply Z.mul_pos_pos; lia).
        destruct (Z.le_gt_cases 1 c2); [|lia].
        assert (B * B * 1 <= B * B * c2) by (apply Z.mul_le_mono_nonneg_l; lia). lia. }
      rewrite Hc20 in *. rewrite Z.mul_0_r, Z.add_0_r in *.
      assert (2 ^ (s + 1) = 2 * 2 ^ s) as E2 by (rewrite Z.pow_add_r by lia; lia).
      rewrite E2 in Hs1. conj; auto; try lia.
    - assert (s = 0) as E0 by lia. ret. unfold N, E. rewrite E0 in *. change (2 ^ 0) with 1 in *.
      change (2 ^ (0 + 1)) with 2 in *. conj; auto; lia. }
  eapply gives_bind; [apply gives_total, Hsc|]. clear Hsc.
  intros [[[nr' dl] dh] rh] (Ln' & Dn' & Hdl & Hdh & H2 & Hrh & EE & VN).
  rewrite get_ok by lia. cbn [bind]. rewrite set_ok by lia. cbn [bind].
  set (rl := nth (n - 1) nr' 0).
  assert (Enr : nr' = firstn (n - 1) nr' ++ [rl]) by (apply split_last; lia).
  assert (Hrl : 0 <= rl < B).
  { rewrite Enr in Dn'. apply below_app in Dn'. destruct Dn' as [_ H].
    apply below_cons in H. apply H. }
  assert (Lf : length (firstn (n - 1) nr') = (n - 1)%nat) by len.
  assert (EN : val (firstn (n - 1) nr') + p (n - 1) * (rl + B * rh) = N).
  { rewrite <- VN. rewrite Enr at 2. rewrite value_app, Lf. cbn [value].
    rewrite (pw_sub B n (n - 1) HB) by lia. replace (n - (n - 1))%nat with 1%nat by lia.
    rewrite pw_1. ring. }
  assert (HE : 0 < E) by (unfold E; apply Z.mul_pos_pos; lia).
  assert (HRE : rl + B * rh < E).
  { rewrite <- EE. assert (B * (rh + 1) <= B * dh) by (apply Z.mul_le_mono_nonneg_l; lia). lia. }
  set (l := firstn (n - 1) nr' ++ 0 :: skipn (S (n - 1)) nr').
  apply gives_bind with (R := fun '(l', _) => exists q, l' = q ++ [0] /\ length q = (n - 1)%nat
                                /\ val q <> val nr / F).
  { unfold with_prefix, with_slice. rewrite sub_slice_ok by (unfold l; len). cbn [bind].
    replace (firstn (n - 1 - 0) (skipn 0 l)) with (firstn (n - 1) nr').
    2:{ cbn [skipn]. rewrite Nat.sub_0_r. unfold l. symmetry. apply firstn_exact. exact Lf. }
    eapply gives_bind.
    { apply gives_and; [|apply pair_loop_length].
      apply pair_loop_tied; [apply below_firstn; exact Dn'|exact Hdl|exact Hdh|exact H2|exact Hrl|lia|lia|].
      rewrite Lf, EN, EE. exists i. split; [lia|].
      replace (2 - 1)%nat with 1%nat in Ei by lia. rewrite pw_1 in Ei. rewrite Ei.
      symmetry. apply Z.div_unique with dl; lia. }
    rewrite Lf, EN, EE. intros [q rr] [VQ Lq]. apply gives_ret. exists q. split; [|split; [lia|]].
    - cbn [firstn app]. f_equal. unfold l. rewrite skipn_exact by len. f_equal. apply skipn_all2. lia.
    - destruct (unshift (val nr) F s Hs0 ltac:(lia)) as [U1 U2]. fold N E in U1. congruence. }
  intros [l' [rh1 rl1]] (q & -> & Lq & VQ).
  apply gives_any. intros [rh2 rl2].
  eapply gives_bind; [apply gives_total, (drop_val B); len|]. intros k (K1 & K2 & K3).
  apply gives_ret. exists k, rl2, rh2. split; [reflexivity|]. split; [len|].
  rewrite K2. rewrite firstn_all2 by len. rewrite value_app. cbn [value]. lia.
Qed.

(** ** The functions above *)

Lemma div_gen_tied bz num den quot work : let n := length den in
  let k := (length num - n)%nat in
  (2 <= n < BZ_CUTOFF)%nat -> digs num -> digs den -> digs quot -> digs work ->
  normal num -> normal den -> ((3 <= n)%nat -> num_lt num den = false -> (S n <= length work)%nat) ->
  (k + 1 <= length quot)%nat -> num_lt num den = false ->
  ties (val num) (val den) (nth (n - 1) den 0) n k ->
  gives (div_big_with_work_gen D bz num den quot work) (fun '(s, r) => match r with
    | ROk nn => wrong (val num / val den) (s, nn) | RErr _ => True end).
Proof.
  intros n k Hn Dn Dd Dq Dw Nn Nd Lw Hq Elt HG.
  assert (Htop := top_pos B den Dd Nd ltac:(fold n; lia)). fold n in Htop.
  unfold div_big_with_work_gen. fold n k.
  destruct (Nat.eqb_spec n 0) as [|_]; [lia|]. rewrite Elt.
  assert (Hlen : (n <= length num)%nat) by (apply num_lt_false_len; exact Elt).
  destruct (_ && _); [apply gives_ret; exact I|].
  destruct (Nat.eqb_spec n 1) as [|_]; [lia|].
  destruct (Nat.eqb_spec n 2) as [E2|N2].
  - destruct den as [|d0 [|d1 [|]]]; cbn [length] in *; unfold n in *; try lia.
    cbn [nth Nat.sub] in Htop, HG. cbn [get nth_error bind].
    assert (Hd0 : 0 <= d0 < B) by (apply below_cons in Dd; tauto).
    assert (Vd : val [d0; d1] = d0 + B * d1) by (cbn [value]; lia).
    eapply gives_bind; [apply (pair_tied num d0 d1); auto; rewrite <- Vd; exact HG|].
    rewrite <- Vd. intros [q res] (nq & x & y & -> & Hnq & VQ).
    destruct (Nat.ltb_spec (length quot) nq); [apply gives_ret; exact I|].
    rewrite copy_prefix_ok by lia. cbn [bind].
    assert (HP : forall num' nr, wrong (val num / val [d0; d1])
              (num', firstn nq q ++ skipn nq quot, work, (nq, nr))).
    { intros num' nr. split; [len|]. rewrite firstn_exact by len. exact VQ. }
    destruct (y =? 0); [destruct (x =? 0)|].
    + apply gives_ret. apply HP.
    + apply gives_any. intros l. apply gives_ret. apply HP.
    + apply gives_any. intros l. apply gives_any. intros l'. apply gives_ret. apply HP.
  - destruct (Nat.ltb_spec n BZ_CUTOFF) as [_|]; [|lia].
    specialize (Lw ltac:(lia) Elt). apply gives_any. intros _.
    eapply gives_bind; [apply (long_tied num den quot work); auto; try (fold n; try fold k; lia)|].
    fold n k. intros [s nn] H. apply gives_ret. apply short_wrong in H; [exact H|].
    assert (100 <= B) by apply (ok_base _ _ OK). lia.
Qed.

Lemma div_assign_big_tied x y : digs x -> digs y -> normal x -> normal y ->
  (2 <= length y < BZ_CUTOFF)%nat ->
  ties (val x) (val y) (nth (length y - 1) y 0) (length y) (length x - length y) ->
  gives (div_assign_big D x y) (fun '(q, res) => match res with
    | ROk _ => val q <> val x / val y | RErr _ => True end).
Proof.
  intros Dx Dy Nx Ny Hl HT.
  assert (Hlen : (length y < length x)%nat) by (destruct HT as (s & i & _ & _ & Hi & _); lia).
  unfold div_assign_big. destruct (Nat.ltb_spec (length x) (length y)) as [|_]; [lia|].
  assert (Elt : num_lt x y = false).
  { rewrite (num_lt_value B HB) by auto. apply Z.ltb_ge.
    assert (val y < val x) by (apply (value_length_lt B HB); auto). lia. }
  unfold div_big, div_big_with_work. rewrite Elt. rewrite bind_assoc.
  eapply gives_bind.
  { apply div_gen_tied; auto.
    - apply below_zeros; lia.
    - destruct (_ || _); [apply below_nil|]. destruct (_ <? _)%nat; apply below_zeros; lia.
    - intros H3 _. destruct (Nat.leb_spec (length y) 2); [lia|]. cbn [orb].
      destruct (Nat.ltb_spec (length y) BZ_CUTOFF); [len|lia].
    - len. }
  intros [[[num' quot'] work'] [[nq nr]|e]] H; cbn [bind].
  - destruct H as [H1 H2]. apply gives_any. intros r. apply gives_ret. exact H2.
  - apply gives_ret. exact I.
Qed.
End DivTie.

(** ** Binary types *)
Section Binary.
Variable dbg : bool.
Variable t : dty.
Hypothesis Hb : is_binary t = true.
Notation B := (radix t).
Notation D := (impl dbg t).

Lemma bin_tie d f : 0 <= d < B -> 0 < f < B -> B <= 2 * f ->
  gives (d_div_carry D d f f) (fun '(q, _) => 0 <= q <= 1).
Proof.
  intros Hd Hf H2. assert (Hw : 1 <= bits t) by (destruct t; cbn; lia).
  unfold impl. rewrite Hb. cbn [d_div_carry bin_digit]. unfold bin_div_carry.
  rewrite (radix_bin t Hb) in *. set (w := bits t) in *.
  assert (HW : 2 ^ (2 * w) = 2 ^ w * 2 ^ w) by (replace (2 * w) with (w + w) by lia; apply Z.pow_add_r; lia).
  rewrite w_shl_ok; [|lia|].
  2:{ split; [apply Z.mul_nonneg_nonneg; lia|]. rewrite HW. apply Z.mul_lt_mono_pos_r; lia. }
  cbn [bind]. rewrite lor_add by lia. rewrite w_div_ok, w_rem_ok by lia. cbn [bind].
  apply gives_ret.
  assert (E : (f * 2 ^ w + d) / f = d / f + 2 ^ w).
  { rewrite Z.add_comm, (Z.mul_comm f), Z.div_add by lia. reflexivity. }
  assert (0 <= d / f) by (apply Z.div_pos; lia).
  assert (d / f < 2) by (apply Z.div_lt_upper_bound; lia).
  assert (4 <= 2 ^ w \/ 2 ^ w = 2).
  { assert (w = 1 \/ 2 <= w) as [-> | H4] by lia; [right; reflexivity|left].
    change 4 with (2 ^ 2). apply Z.pow_le_mono_r; lia. }
  assert (Ew : ((f * 2 ^ w + d) / f) mod 2 ^ w = d / f).
  { rewrite E. replace (d / f + 2 ^ w) with (d / f + 1 * 2 ^ w) by lia.
    rewrite Z.mod_add by lia. apply Z.mod_small. lia. }
  unfold wrap. rewrite Ew. lia.
Qed.

Lemma ties_intro x y : well_formed t x -> well_formed t y -> (2 <= length y)%nat -> tie t x y ->
  ties B (num t x) (num t y) (nth (length y - 1) y 0) (length y) (length x - length y).
Proof.
  intros [Vx Nx] [Vy Ny] Hl (s & i & Hs & Hi & Ei). exists s, i.
  pose proof (SliceProof.HB _ _ (impl_ok true t)) as HB.
  pose proof (top_pos B y Vy Ny ltac:(lia)) as Ht.
  pose proof (leading_top t y Vy ltac:(lia)) as EL.
  assert (HS : is_shift B (nth (length y - 1) y 0) s) by (unfold scaling in Hs; rewrite EL in Hs; exact Hs).
  split; [exact HS|]. split; [|split; [exact Hi|exact Ei]].
  destruct (radix_pw2 t Hb) as (w & Hw & Ew).
  apply (binary_scales B HB w _ (nth (length y - 1) y 0)); auto; try lia.
  unfold num. rewrite (split_last y (length y - 1)) at 1 by lia. rewrite value_app.
  rewrite firstn_length_le by lia. cbn [value].
  pose proof (value_bound B HB _ (below_firstn B (length y - 1) y Vy)) as H.
  rewrite firstn_length_le in H by lia. lia.
Qed.

Lemma tied_claim x y q r : well_formed t x -> well_formed t y -> (2 <= length y < 20)%nat -> tie t x y ->
  div_assign_big D x y = Ret (q, ROk r) -> num t q <> num t x / num t y.
Proof.
  intros Wx Wy Hl HT E. pose proof (ties_intro x y Wx Wy ltac:(lia) HT) as H.
  destruct Wx as [Vx Nx], Wy as [Vy Ny].
  exact (div_assign_big_tied B D (impl_ok dbg t) (bin_div dbg t Hb) bin_tie x y Vx Vy Nx Ny Hl H _ E).
Qed.

Lemma tied_op_claim x y q : well_formed t x -> well_formed t y -> (2 <= length y < 20)%nat -> tie t x y ->
  div_assign D x y = Ret q -> num t q <> num t x / num t y.
Proof.
  intros Wx Wy Hl HT E. unfold div_assign in E.
  destruct (div_assign_big D x y) as [[s [r|e]]| |] eqn:E1; cbn in E; inversion E; subst.
  eapply tied_claim; eauto.
Qed.

Lemma exact_claim x y : well_formed t x -> well_formed t y -> (2 <= length y < 20)%nat ->
  (divided dbg t x y <-> ~ tie t x y).
Proof.
  intros Wx Wy Hl. split.
  - intros (q & r & E & _ & _ & _ & Wq & Wr & H1 & H2) HT.
    apply (tied_claim x y q r Wx Wy Hl HT E).
    apply Z.div_unique with (num t r); lia.
  - intros HN. apply div_short_claim; auto; [|lia|].
    + intros ->. cbn in Hl. lia.
    + right. unfold divides. rewrite Hb. exact HN.
Qed.

Lemma exact_explicit_claim x y : well_formed t x -> well_formed t y -> (2 <= length y < 20)%nat ->
  (~ tie t x y ->
     exists q r, div_assign_big D x y = Ret (q, ROk r)
       /\ div_assign D x y = Ret q /\ rem_assign D x y = Ret r
       /\ num t q = num t x / num t y /\ num t r = num t x mod num t y
       /\ well_formed t q /\ well_formed t r)
  /\ (tie t x y -> forall q, div_assign D x y = Ret q -> num t q <> num t x / num t y).
Proof.
  intros Wx Wy Hl. split.
  - intros HN. apply (exact_claim x y Wx Wy Hl) in HN.
    destruct HN as (q & r & E1 & _ & E2 & E3 & Wq & Wr & H1 & H2).
    exists q, r. repeat split; auto; try apply Wq; try apply Wr.
    + apply Z.div_unique with (num t r); lia.
    + apply Z.mod_unique with (num t q); lia.
  - intros HT q. apply tied_op_claim; auto.
Qed.
End Binary.
