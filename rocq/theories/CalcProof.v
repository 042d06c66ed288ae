(** * CalcProof: calculating with texts. *)
From Coq Require Import ZArith List Bool Lia.
From Verif Require Import Base Digit Slice UBig Text Calc Spec SpecDiv SpecCalc DigitOK ListLemmas TextProof TypedProof PowExact
  ClaimsBasic ClaimsMul ClaimsText ClaimsDiv ClaimsToom TextLaws LeadZero.
Import ListNotations.
Open Scope Z_scope.
Open Scope m_scope.

Lemma parse_literal dbg t s v : literal s v ->
  exists x, from_str dbg t s = Ret (ROk x) /\ well_formed t x /\ num t x = v.
Proof.
  intros [[N <-]|(h & -> & N & <-)]; [apply parse_dec_claim, N|apply parse_hex_claim, N].
Qed.
Lemma print_canonical t x : well_formed t x -> canonical (is_binary t) (print t x) (num t x).
Proof.
  intros W. unfold canonical, print. destruct (is_binary t) eqn:Eb.
  - destruct (hex_claim t false x Eb W) as (s & _ & E & N & V & M & L). exists s.
    split; [exact E|]. split; [exact N|]. split; [exact V|]. split; [exact M|exact L].
  - destruct (dec_claim t x Eb W) as (s & E & N & V & M). rewrite E. auto.
Qed.
Lemma print_literal t x : valid t x -> literal (print t x) (num t x).
Proof.
  intros V. unfold print. destruct (is_binary t) eqn:Eb.
  - right. destruct (lead_hex t false x Eb V) as (s & _ & E & N & Ev & _). exists s. auto.
  - left. destruct (lead_dec t x Eb V) as (s & E & N & Ev). rewrite E. auto.
Qed.
Lemma calculate_open dbg t op a b v w : literal a v -> literal b w -> exists x y,
  well_formed t x /\ well_formed t y /\ num t x = v /\ num t y = w
  /\ calculate dbg t op a b = (r <- op x y ;; Ret (ROk (print t r))).
Proof.
  intros Ha Hb. destruct (parse_literal dbg t a v Ha) as (x & Ex & Wx & <-).
  destruct (parse_literal dbg t b w Hb) as (y & Ey & Wy & <-).
  exists x, y. unfold calculate. rewrite Ex. cbn [bind]. rewrite Ey. auto.
Qed.

Lemma calc_add_claim dbg t a b v w : literal a v -> literal b w ->
  exists s, calculate dbg t (add_assign (impl dbg t)) a b = Ret (ROk s) /\ canonical (is_binary t) s (v + w).
Proof.
  intros Ha Hb. destruct (calculate_open dbg t (add_assign (impl dbg t)) a b v w Ha Hb) as (x & y & Wx & Wy & <- & <- & ->).
  destruct (add_claim dbg t x y (proj1 Wx) (proj1 Wy)) as (r & -> & V & E & N). cbn [bind].
  exists (print t r). split; [reflexivity|]. rewrite <- E. apply print_canonical. split; [exact V|].
  apply N; [apply Wx|apply Wy].
Qed.
Lemma calc_sub_claim dbg t a b v w : literal a v -> literal b w ->
  (w <= v -> exists s, calculate dbg t (sub_assign (impl dbg t)) a b = Ret (ROk s) /\ literal s (v - w))
  /\ (v < w -> calculate dbg t (sub_assign (impl dbg t)) a b = Panic (PExplicit Underflow)).
Proof.
  intros Ha Hb. destruct (calculate_open dbg t (sub_assign (impl dbg t)) a b v w Ha Hb) as (x & y & Wx & Wy & <- & <- & ->).
  destruct (sub_claim dbg t x y (proj1 Wx) Wy) as [H1 H2]. split; intros H.
  - destruct (H2 H) as (r & -> & V & E). cbn [bind]. exists (print t r). split; [reflexivity|].
    rewrite <- E. apply print_literal, V.
  - rewrite (H1 H). reflexivity.
Qed.
Lemma calc_mul_claim dbg t a b v w : literal a v -> literal b w ->
  (exists s, calculate dbg t (mul_assign (impl dbg t)) a b = Ret (ROk s) /\ canonical (is_binary t) s (v * w))
  \/ (calculate dbg t (mul_assign (impl dbg t)) a b = Panic (PUnwrap Underflow)
      /\ radix t ^ 19 <= v /\ radix t ^ 19 <= w /\ radix t ^ 40 <= Z.max v w).
Proof.
  intros Ha Hb. destruct (calculate_open dbg t (mul_assign (impl dbg t)) a b v w Ha Hb) as (x & y & Wx & Wy & <- & <- & ->).
  assert (P0 : forall z, well_formed t z -> 0 <= num t z) by (intros z W; exact (wf_nonneg' t z W)).
  pose proof (P0 x Wx) as Px. pose proof (P0 y Wy) as Py. pose proof (radix_gt t) as HB.
  assert (SZ : forall z n, well_formed t z -> num t z < radix t ^ Z.of_nat n -> (length z <= n)%nat).
  { intros z n W Hz. destruct (Nat.le_gt_cases (length z) n) as [|Hl]; [assumption|exfalso].
    assert (Hz0 : z <> []) by (intros ->; cbn in Hl; lia).
    pose proof (normal_lower _ HB z (proj1 W) (proj2 W) Hz0) as L. unfold pw in L. fold (num t z) in L.
    assert (radix t ^ Z.of_nat n <= radix t ^ Z.of_nat (length z - 1)) by (apply Z.pow_le_mono_r; lia). lia. }
  assert (R : forall r, mul_assign (impl dbg t) x y = Ret r -> well_formed t r -> num t r = num t x * num t y ->
     exists s, (r <- mul_assign (impl dbg t) x y ;; Ret (ROk (print t r))) = Ret (ROk s)
       /\ canonical (is_binary t) s (num t x * num t y)).
  { intros r -> W <-. exists (print t r). split; [reflexivity|apply print_canonical, W]. }
  destruct (Z.lt_ge_cases (num t x) (radix t ^ 19)) as [Hx|Hx];
    [left; destruct (mul_short_claim dbg t x y (proj1 Wx) (proj1 Wy)) as (r & E & W & Ev);
     [left; pose proof (SZ x 19%nat Wx Hx); lia|exact (R r E W Ev)]|].
  destruct (Z.lt_ge_cases (num t y) (radix t ^ 19)) as [Hy|Hy];
    [left; destruct (mul_short_claim dbg t x y (proj1 Wx) (proj1 Wy)) as (r & E & W & Ev);
     [right; pose proof (SZ y 19%nat Wy Hy); lia|exact (R r E W Ev)]|].
  destruct (Z.lt_ge_cases (Z.max (num t x) (num t y)) (radix t ^ 40)) as [Hm|Hm].
  - left. destruct (mul_mid_claim dbg t x y Wx Wy) as (r & E & W & Ev);
      [apply (SZ x 40%nat Wx); lia|apply (SZ y 40%nat Wy); lia|exact (R r E W Ev)].
  - destruct (PowExact.mul_outcome dbg t x y Wx Wy) as [[_ E]|(_ & r & E & W & Ev)].
    + right. rewrite E. auto.
    + left. exact (R r E W Ev).
Qed.
Lemma calc_div_claim dbg t a b v w : literal a v -> literal b w ->
  (w = 0 -> calculate dbg t (div_assign (impl dbg t)) a b = Panic (PExplicit DivisionByZero)
     /\ calculate dbg t (rem_assign (impl dbg t)) a b = Panic (PExplicit DivisionByZero))
  /\ (0 < w < radix t -> exists p q, calculate dbg t (div_assign (impl dbg t)) a b = Ret (ROk p)
     /\ calculate dbg t (rem_assign (impl dbg t)) a b = Ret (ROk q)
     /\ canonical (is_binary t) p (v / w) /\ canonical (is_binary t) q (v mod w)).
Proof.
  intros Ha Hb. unfold calculate.
  destruct (parse_literal dbg t a v Ha) as (x & -> & Wx & <-).
  destruct (parse_literal dbg t b w Hb) as (y & -> & Wy & <-). cbn [bind].
  pose proof (radix_gt t) as HB. split; intros H.
  - assert (y = []) as ->.
    { destruct y as [|d y]; [reflexivity|exfalso].
      pose proof (normal_lower _ HB (d :: y) (proj1 Wy) (proj2 Wy) ltac:(discriminate)) as L. unfold pw in L.
      fold (num t (d :: y)) in L.
      assert (0 < radix t ^ Z.of_nat (length (d :: y) - 1)) by (apply Z.pow_pos_nonneg; lia). lia. }
    destruct (div_zero_claim dbg t x) as (_ & _ & -> & ->). split; reflexivity.
  - assert (Hy0 : y <> []) by (intros ->; cbn in H; lia).
    assert (Ly : length y = 1%nat).
    { assert (length y <> 0%nat) by (destruct y; [congruence|discriminate]).
      destruct (Nat.le_gt_cases (length y) 1) as [|Hl]; [lia|exfalso].
      pose proof (normal_lower _ HB y (proj1 Wy) (proj2 Wy) Hy0) as L. unfold pw in L. fold (num t y) in L.
      assert (radix t ^ 1 <= radix t ^ Z.of_nat (length y - 1)) by (apply Z.pow_le_mono_r; lia). lia. }
    assert (Dv : divided dbg t x y).
    { destruct (is_binary t) eqn:Eb;
        [apply div_binary_claim|apply div_decimal_claim]; try assumption; try lia; left; exact Ly. }
    destruct Dv as (q & r & _ & _ & -> & -> & Wq & Wr & Eu & Er). cbn [bind].
    exists (print t q), (print t r). split; [reflexivity|]. split; [reflexivity|].
    replace (num t x / num t y) with (num t q) by (apply Z.div_unique with (num t r); [left; exact Er|lia]).
    replace (num t x mod num t y) with (num t r) by (apply Z.mod_unique with (num t q); [left; exact Er|lia]).
    split; apply print_canonical; assumption.
Qed.
Lemma refuse_literal dbg t s : no_literal s -> from_str dbg t s = Ret (RErr InvalidNumber).
Proof.
  intros (H1 & H2 & H3 & H4). apply parse_reject_claim; auto.
  - intros N. apply (H4 (numeral_value 10 s)). left. auto.
  - intros h E N. apply (H4 (numeral_value 16 h)). right. exists h. auto.
Qed.
Lemma calc_error_claim dbg t op a b : no_literal a \/ (exists v, literal a v) /\ no_literal b ->
  calculate dbg t op a b = Ret (RErr InvalidNumber).
Proof.
  unfold calculate. intros [H|[[v H] Hb]]; [rewrite (refuse_literal dbg t a H); reflexivity|].
  destruct (parse_literal dbg t a v H) as (x & -> & _). cbn [bind]. rewrite (refuse_literal dbg t b Hb). reflexivity.
Qed.
Lemma calc_compare_claim dbg t a b v w : literal a v -> literal b w -> exists x y,
  from_str dbg t a = Ret (ROk x) /\ from_str dbg t b = Ret (ROk y)
  /\ ubig_cmp x y = (v ?= w) /\ ubig_eqb x y = (v =? w).
Proof.
  intros Ha Hb. destruct (parse_literal dbg t a v Ha) as (x & Ex & Wx & <-).
  destruct (parse_literal dbg t b w Hb) as (y & Ey & Wy & <-). exists x, y.
  split; [exact Ex|]. split; [exact Ey|]. split; [apply cmp_claim; assumption|].
  apply eq_true_iff_eq. rewrite (eq_claim t x y Wx Wy). symmetry. apply Z.eqb_eq.
Qed.
(** the text of the result is a literal again *)
Lemma canonical_literal h s v : canonical h s v -> literal s v.
Proof.
  unfold canonical, literal. destruct h; [|tauto]. intros (l & -> & N & V & _). right. exists l. auto.
Qed.
Lemma canonical_unique h s s' v : canonical h s v -> canonical h s' v -> s = s'.
Proof.
  unfold canonical. destruct h.
  - intros (l & -> & N & V & M & L) (l' & -> & N' & V' & M' & L'). f_equal.
    apply (minimal_unique 16); auto; [right; reflexivity|congruence].
  - assert (D : forall l, numeral_of 10 l -> lower_case l).
    { intros l [_ H]. eapply Forall_impl; [|exact H]. intros c [[_ C]|[C _]]; [unfold dec_char in C; lia|discriminate C]. }
    intros (N & V & M) (N' & V' & M'). apply (minimal_unique 10); auto; [left; reflexivity|congruence].
Qed.
Lemma canonical_claim h s v : canonical h s v -> literal s v /\ forall s', canonical h s' v -> s = s'.
Proof. intros H. split; [exact (canonical_literal h s v H)|]. intros s' H'. exact (canonical_unique h s s' v H H'). Qed.
(** concrete literals *)
Ltac chars := repeat (constructor; [first [left; split; [reflexivity|split; discriminate]
  |right; split; [reflexivity|first [left; split; discriminate|right; left; split; discriminate|right; right; split; discriminate]]]|]);
  constructor.
Ltac numeral_fact := split; [split; [discriminate|chars]|first [vm_compute; reflexivity|split; [vm_compute; reflexivity|right; discriminate]]].
