(** * ClaimsBz: the exact outcome of division by divisors of 20 digits and more. *)
From Coq Require Import ZArith List Bool Lia.
From Verif Require Import Base Digit Slice Mul Div UBig Spec SpecDiv SpecMul SpecToom SpecBz Hoare DigitOK ListLemmas
  SliceProof KaratsubaProof UBigProof DivProof DivWide DivPairProof DivLongProof DivTopProof DivSize DivBzProof
  WorkSize KaraExact ToomLen ToomExact ToomJam DivBzJam TypedProof Cases ClaimsBasic ClaimsDiv ClaimsDivBig ClaimsKara ClaimsToom.
From Verif Require DivTie DivBzTie DivBzOpen.
Import ListNotations.
Open Scope Z_scope.
Open Scope m_scope.

(** ** A multiplication only stops when there is something to divide *)
Lemma jam_at_long B v w : jam_at B v w -> (20 <= places B v)%nat /\ (20 <= places B w)%nat.
Proof.
  unfold jam_at. intros H.
  inversion H as [? ? ? ? _ S|? ? ? ? [L1 L2] _|? ? ? ? [L1 L2] _|? ? ? ? ? [L1 L2] _|? ? ? ? [L1 L2] _]; try lia.
  apply stuck_inv in S. destruct S as [[L1 L2] _]. lia.
Qed.

Section Large.
Variables (B : Z) (D : digit).
Hypothesis OK : digit_ok B D.
Let HB : 1 < B := SliceProof.HB B D OK.

Lemma step_parts h a b c : (1 <= h)%nat -> 0 <= a -> pw B (2 * h - 1) <= b < pw B (2 * h) ->
  c = a / pw B h \/ c = a mod (b * pw B h) ->
  0 <= c <= a /\ pw B (h - 1) <= b / pw B h < pw B h /\ 0 <= b mod pw B h /\ 0 <= guess B h c b.
Proof.
  intros Hh Ha Hb Hc. pose proof (pw_pos B h HB) as Hp.
  assert (E0 : pw B (2 * h) = pw B h * pw B h) by (rewrite <- pw_add; f_equal; lia).
  assert (E1 : pw B (2 * h - 1) = pw B h * pw B (h - 1)) by (rewrite <- pw_add; f_equal; lia).
  assert (Hb' : pw B (h - 1) <= b / pw B h < pw B h).
  { split; [apply Z.div_le_lower_bound; lia|apply Z.div_lt_upper_bound; lia]. }
  pose proof (pw_pos B (2 * h - 1) HB). pose proof (pw_pos B (h - 1) HB).
  assert (Hca : 0 <= c <= a).
  { destruct Hc as [-> | ->].
    - split; [apply Z.div_pos; lia|]. apply Z.div_le_upper_bound; [lia|].
      assert (1 * a <= pw B h * a) by (apply Z.mul_le_mono_nonneg_r; lia). lia.
    - assert (0 < b * pw B h) by (apply Z.mul_pos_pos; lia).
      split; [apply Z.mod_pos_bound; lia|apply Z.mod_le; lia]. }
  conj; auto; try lia; [apply Z.mod_pos_bound; lia|].
  unfold guess. fold (pw B (2 * h)) (pw B h). destruct (Z.ltb_spec (c / pw B (2 * h)) (b / pw B h)); [|lia].
  apply Z.div_pos; [apply Z.div_pos; lia|lia].
Qed.

Lemma block_jam_large n a b : block_jam B n a b -> 0 <= a ->
  pw B (n - 1) <= b < pw B n -> (1 <= n)%nat -> pw B n <= a.
Proof.
  intros T. induction T as [h a b c Hh Hc HJ|h a b c Hh Hc Hlt T IH]; intros Ha Hb H1;
    fold (pw B h) in *; pose proof (pw_pos B h HB) as Hp;
    assert (E0 : pw B (2 * h) = pw B h * pw B h) by (rewrite <- pw_add; f_equal; lia);
    destruct (step_parts h a b c ltac:(lia) Ha Hb Hc) as (Hca & Hb' & Hm & Hg).
  - apply jam_at_long in HJ. destruct HJ as [HJ _].
    pose proof (pw_pos B (h - 1) HB) as Hp1. pose proof (pw_pos B (2 * h) HB) as Hp2.
    assert (HG : B <= guess B h c b).
    { destruct (Z.le_gt_cases B (guess B h c b)) as [|Hlt]; [assumption|]. exfalso.
      pose proof (places_le B D OK (guess B h c b) 1 ltac:(rewrite pw_1; lia)). lia. }
    revert HG. unfold guess. fold (pw B (2 * h)) (pw B h).
    destruct (Z.ltb_spec (c / pw B (2 * h)) (b / pw B h)) as [Hl|Hl]; intros HG.
    + assert (pw B h <= c / pw B h).
      { pose proof (Z.mul_div_le (c / pw B h) (b / pw B h) ltac:(lia)).
        assert (b / pw B h * B <= b / pw B h * (c / pw B h / (b / pw B h))) by (apply Z.mul_le_mono_nonneg_l; lia).
        assert (pw B (h - 1) * B <= b / pw B h * B) by (apply Z.mul_le_mono_nonneg_r; lia).
        assert (Eh : pw B h = pw B (h - 1) * B).
        { replace h with (h - 1 + 1)%nat at 1 by lia. rewrite pw_add, pw_1. reflexivity. }
        lia. }
      pose proof (Z.mul_div_le c (pw B h) Hp).
      assert (pw B h * pw B h <= pw B h * (c / pw B h)) by (apply Z.mul_le_mono_nonneg_l; lia). lia.
    + pose proof (Z.mul_div_le c (pw B (2 * h)) Hp2).
      assert (pw B (2 * h) * 1 <= pw B (2 * h) * (c / pw B (2 * h))) by (apply Z.mul_le_mono_nonneg_l; lia). lia.
  - assert (Hc0 : 0 <= c / pw B h) by (apply Z.div_pos; lia).
    specialize (IH Hc0 Hb' ltac:(lia)).
    pose proof (Z.mul_div_le c (pw B h) Hp).
    assert (pw B h * pw B h <= pw B h * (c / pw B h)) by (apply Z.mul_le_mono_nonneg_l; lia). lia.
Qed.

(** ** Deciding it by computation *)
Definition jam_at_b (v w : Z) : bool :=
  jam_in (S (Nat.max (places B v) (places B w))) B (places B v) v (places B w) w.
Lemma jam_at_b_spec v w : 0 <= v -> 0 <= w -> (jam_at_b v w = true <-> jam_at B v w).
Proof.
  intros Hv Hw. unfold jam_at_b, jam_at. split; [apply jam_in_sound|]. intros H.
  apply (jam_in_complete _ _ OK); [exact H| | |lia]; (split; [assumption|apply (places_lt B D OK); assumption]).
Qed.

Definition step_jam_b (rec : Z -> Z -> bool) (h : nat) (c b : Z) : bool :=
  if jam_at_b (guess B h c b) (b mod B ^ Z.of_nat h) then true else
  if c / B ^ Z.of_nat (2 * h) <? b / B ^ Z.of_nat h
  then rec (c / B ^ Z.of_nat h) (b / B ^ Z.of_nat h) else false.
Fixpoint block_jam_b (fuel : nat) (n : nat) (a b : Z) : bool :=
  match fuel with
  | O => false
  | S f =>
      if (n <? 20)%nat then false else
      if Nat.even n then
        let h := (n / 2)%nat in
        if step_jam_b (block_jam_b f h) h (a / B ^ Z.of_nat h) b then true
        else step_jam_b (block_jam_b f h) h (a mod (b * B ^ Z.of_nat h)) b
      else false
  end.

Lemma block_jam_b_spec f : forall n a b, (n < f)%nat -> (1 <= n)%nat -> 0 <= a -> pw B (n - 1) <= b < pw B n ->
  (block_jam_b f n a b = true <-> block_jam B n a b).
Proof.
  induction f as [|f IH]; intros n a b Hf H1 Ha Hb; [lia|]. cbn [block_jam_b].
  destruct (Nat.ltb_spec n 20) as [Hs|Hs].
  { split; [discriminate|]. intros HJ. inversion HJ; lia. }
  destruct (Nat.even n) eqn:Ev.
  2:{ split; [discriminate|]. intros HJ. exfalso. inversion HJ as [h ? ? ? ? ? ? E|h ? ? ? ? ? ? ? E]; subst n;
      rewrite Nat.even_mul in Ev; discriminate Ev. }
  apply Nat.even_spec in Ev. destruct Ev as [h ->]. rewrite half2. cbv zeta.
  assert (HS : forall c, c = a / pw B h \/ c = a mod (b * pw B h) ->
    (step_jam_b (block_jam_b f h) h c b = true <-> step_jam B h c b)).
  { intros c Hc. destruct (step_parts h a b c ltac:(lia) Ha Hb Hc) as (Hca & Hb' & Hm & Hg).
    unfold step_jam_b, step_jam, est_jam. fold (pw B (2 * h)) (pw B h).
    pose proof (jam_at_b_spec _ _ Hg Hm) as EJ. pose proof (pw_pos B h HB).
    assert (EI := IH h (c / pw B h) (b / pw B h) ltac:(lia) ltac:(lia) ltac:(apply Z.div_pos; lia) Hb').
    destruct (jam_at_b _ _) eqn:E1; [split; [intros _; right; apply EJ; reflexivity|reflexivity]|].
    destruct (Z.ltb_spec (c / pw B (2 * h)) (b / pw B h)) as [Hl|Hl].
    - rewrite EI. split; [auto|]. intros [[_ H0]|H0]; [exact H0|]. apply EJ in H0. discriminate H0.
    - split; [discriminate|]. intros [[H0 _]|H0]; [lia|]. apply EJ in H0. discriminate H0. }
  pose proof (HS _ (or_introl eq_refl)) as S1. pose proof (HS _ (or_intror eq_refl)) as S2.
  fold (pw B h). split.
  - destruct (step_jam_b _ h (a / pw B h) b) eqn:E1.
    + intros _. apply (step_block B h a b (a / pw B h)); auto. apply S1. reflexivity.
    + intros E2. apply (step_block B h a b (a mod (b * pw B h))); auto. apply S2, E2.
  - intros HJ. destruct (block_step B D OK h a b HJ) as [H|H].
    + apply S1 in H. rewrite H. reflexivity.
    + apply S2 in H. rewrite H. destruct (step_jam_b _ h (a / pw B h) b); reflexivity.
Qed.
End Large.

(** ** The scaled and padded numbers *)
Section Typed.
Variable t : dty.
Notation B := (radix t).
Let HB : 1 < B := SliceProof.HB _ _ (impl_ok true t).

Lemma binary_fits y : is_binary t = true -> well_formed t y -> (1 <= length y)%nat ->
  scales t (length y) (num t y).
Proof.
  intros Hb [Vy Ny] Hl s Hs Hlt. rewrite (leading_top t y Vy Hl) in Hlt.
  pose proof (top_pos B y Vy Ny Hl) as Ht. set (top := nth (length y - 1) y 0) in *.
  destruct (total_inv _ _ (ok_max_shift _ _ (impl_ok true t) _ Ht)) as (m & _ & HS).
  assert (Hm : num t y * 2 ^ m < pw B (length y)).
  { destruct (radix_pw2 t Hb) as (w & Hw & Ew).
    apply (binary_scales B HB w _ top); auto; try lia.
    unfold num. rewrite (split_last y (length y - 1)) at 1 by lia. rewrite value_app.
    rewrite firstn_length_le by lia. cbn [value]. fold top.
    pose proof (value_bound B HB _ (below_firstn B (length y - 1) y Vy)) as H.
    rewrite firstn_length_le in H by lia. lia. }
  fold (pw B (length y)). apply Z.le_lt_trans with (num t y * 2 ^ m); [|exact Hm].
  pose proof (value_nonneg B HB y Vy) as Py. fold (num t y) in Py.
  apply Z.mul_le_mono_nonneg_l; [exact Py|]. apply Z.pow_le_mono_r; [lia|].
  destruct HS as (H1 & H2 & H3). destruct (Z.le_gt_cases s m) as [|Hc]; [assumption|]. exfalso.
  assert (2 ^ (m + 1) <= 2 ^ s) by (apply Z.pow_le_mono_r; lia).
  assert (top * 2 ^ (m + 1) <= top * 2 ^ s) by (apply Z.mul_le_mono_nonneg_l; lia). lia.
Qed.

Lemma padded_fits y s n : well_formed t y -> (20 <= length y)%nat -> scales t (length y) (num t y) ->
  scaling t (length y) (num t y) s -> padded (length y) n ->
  pw B (n - 1) <= num t y * 2 ^ s * pw B (n - length y) < pw B n.
Proof.
  intros [Vy Ny] Hl HSc Hs Hpad.
  pose proof (padded_unique (length y) n _ ltac:(lia) Hpad (block_size_padded _ Hl)) as En.
  destruct (block_size_ok (length y) Hl) as [_ Hbs]. rewrite <- En in Hbs.
  assert (Hlow : pw B (length y - 1) <= num t y).
  { apply (normal_lower B HB y Vy Ny). intros ->. cbn in Hl. lia. }
  assert (HF : num t y * 2 ^ s < pw B (length y)) by (apply HSc; apply Hs).
  pose proof (pw_pos B (n - length y) HB) as Hpo. pose proof (pw_pos B (length y - 1) HB) as Hpl.
  assert (H2s : 1 <= 2 ^ s) by (pose proof (Z.pow_pos_nonneg 2 s); destruct Hs; lia).
  assert (En2 : pw B n = pw B (length y) * pw B (n - length y)) by (rewrite <- pw_add; f_equal; lia).
  assert (En1 : pw B (n - 1) = pw B (length y - 1) * pw B (n - length y)) by (rewrite <- pw_add; f_equal; lia).
  assert (Hv : num t y * 1 <= num t y * 2 ^ s) by (apply Z.mul_le_mono_nonneg_l; lia).
  rewrite En1, En2. split; [apply Z.mul_le_mono_nonneg_r; lia|apply Z.mul_lt_mono_pos_r; lia].
Qed.

Lemma some_block_large (T : Z -> nat -> Z -> Z -> Prop) : (forall n a b, T B n a b -> 0 <= a -> pw B (n - 1) <= b < pw B n ->
    (1 <= n)%nat -> pw B n <= a) ->
  forall x y, valid t x -> well_formed t y -> (20 <= length y)%nat -> scales t (length y) (num t y) ->
  some_block T t x y -> num t y < num t x.
Proof.
  intros HTL x y Vx Wy Hl HSc (s & n & i & Hs & Hpad & Hi & HT).
  pose proof (padded_fits y s n Wy Hl HSc Hs Hpad) as HFp. destruct Wy as [Vy Ny].
  cbv zeta beta in HT. fold (pw B (n - length y)) in HT. fold (pw B (i * n)) in HT. fold (pw B n) in HT.
  pose proof (value_nonneg B HB x Vx) as Px. fold (num t x) in Px.
  pose proof (pw_pos B (n - length y) HB) as Hpo. pose proof (pw_pos B (i * n) HB) as Hpi.
  pose proof (pw_pos B n HB) as Hpn. pose proof (pw_pos B (n - 1) HB) as Hpn1.
  assert (H2s : 1 <= 2 ^ s) by (pose proof (Z.pow_pos_nonneg 2 s); destruct Hs; lia).
  assert (H1n : (1 <= n)%nat) by (destruct Hpad as (j & k & _ & H & _); lia).
  set (po := pw B (n - length y)) in *. set (F := num t y * 2 ^ s * po) in *.
  assert (HN : 0 <= num t x * 2 ^ s * po) by (apply Z.mul_nonneg_nonneg; [apply Z.mul_nonneg_nonneg|]; lia).
  assert (HNi : 0 <= num t x * 2 ^ s * po / pw B (i * n) <= num t x * 2 ^ s * po).
  { split; [apply Z.div_pos; lia|]. apply Z.div_le_upper_bound; [lia|].
    assert (1 * (num t x * 2 ^ s * po) <= pw B (i * n) * (num t x * 2 ^ s * po)) by (apply Z.mul_le_mono_nonneg_r; lia). lia. }
  assert (HM : 0 < F * pw B n) by (apply Z.mul_pos_pos; lia).
  pose proof (HTL _ _ _ HT) as HL.
  specialize (HL ltac:(apply Z.mod_pos_bound; lia) HFp H1n).
  pose proof (Z.mod_le (num t x * 2 ^ s * po / pw B (i * n)) (F * pw B n) ltac:(lia) HM) as Hml.
  assert (HC : num t y * (2 ^ s * po) < num t x * (2 ^ s * po)).
  { replace (num t y * (2 ^ s * po)) with F by (unfold F; ring).
    replace (num t x * (2 ^ s * po)) with (num t x * 2 ^ s * po) by ring. lia. }
  apply Z.mul_lt_mono_pos_r in HC; [exact HC|apply Z.mul_pos_pos; lia].
Qed.

Lemma whole_recursive x y : valid t x -> well_formed t y -> (20 <= length y)%nat ->
  scales t (length y) (num t y) -> (whole_jam B x y <-> recursive_jam t x y).
Proof.
  intros Vx Wy Hl HSc.
  assert (HSh : forall s, scaling t (length y) (num t y) s <-> is_shift B (nth (length y - 1) y 0) s).
  { intros s. unfold scaling. rewrite (leading_top t y (proj1 Wy)) by lia. reflexivity. }
  pose proof (block_size_padded _ Hl) as Hpad. destruct (block_size_ok (length y) Hl) as [_ Hbs].
  split.
  - intros [_ (s & Hs & j & Hj & HJ)]. exists s, (block_size (length y)), j. conj; auto.
    + apply HSh, Hs.
    + pose proof (Nat.mul_div_le (length x - length y) (block_size (length y)) ltac:(lia)). nia.
  - intros HR. split.
    + destruct (num_lt x y) eqn:E; [exfalso|reflexivity].
      apply (num_lt_true_value B HB x y Vx (proj1 Wy) (proj2 Wy)) in E.
      pose proof (some_block_large block_jam (block_jam_large B _ (impl_ok true t)) x y Vx Wy Hl HSc HR) as K.
      unfold num in K. lia.
    + destruct HR as (s & n & i & Hs & Hp & Hi & HJ).
      pose proof (padded_unique (length y) n _ ltac:(lia) Hp Hpad) as ->.
      exists s. split; [apply HSh, Hs|]. exists i. split; [|exact HJ].
      apply Nat.div_le_lower_bound; lia.
Qed.

(** by computation *)
Definition recursive_jam_b (s : Z) (n : nat) (x y : digits) : bool :=
  let sc v := v * 2 ^ s * B ^ Z.of_nat (n - length y) in
  let X := sc (num t x) in let Y := sc (num t y) in let R := B ^ Z.of_nat n in
  existsb (fun i => block_jam_b B (S n) n ((X / B ^ Z.of_nat (i * n)) mod (Y * R)) Y)
    (seq 0 (S ((length x - length y) / n))).
Lemma recursive_jam_check x y s n : valid t x -> well_formed t y -> (20 <= length y)%nat ->
  scales t (length y) (num t y) -> scaling t (length y) (num t y) s -> padded (length y) n ->
  (recursive_jam_b s n x y = true <-> recursive_jam t x y).
Proof.
  intros Wx Wy Hl HSc Hs Hpad.
  pose proof (padded_fits y s n Wy Hl HSc Hs Hpad) as HF. fold (pw B (n - length y)) in HF.
  assert (Hn : (20 <= n)%nat) by (destruct Hpad as (j & k & _ & H & _); lia).
  pose proof (pw_pos B (n - 1) HB). pose proof (pw_pos B n HB).
  assert (HI : forall i, (block_jam_b B (S n) n
      ((num t x * 2 ^ s * B ^ Z.of_nat (n - length y) / B ^ Z.of_nat (i * n))
         mod (num t y * 2 ^ s * B ^ Z.of_nat (n - length y) * B ^ Z.of_nat n))
      (num t y * 2 ^ s * B ^ Z.of_nat (n - length y)) = true
    <-> block_jam B n ((num t x * 2 ^ s * B ^ Z.of_nat (n - length y) / B ^ Z.of_nat (i * n))
         mod (num t y * 2 ^ s * B ^ Z.of_nat (n - length y) * B ^ Z.of_nat n))
      (num t y * 2 ^ s * B ^ Z.of_nat (n - length y)))).
  { intros i. apply (block_jam_b_spec B _ (impl_ok true t)); [lia|lia| |exact HF].
    apply Z.mod_pos_bound. apply Z.mul_pos_pos; [|exact H0]. fold (pw B (n - length y)). lia. }
  unfold recursive_jam_b. cbv zeta. rewrite existsb_exists. split.
  - intros (i & Hi & E). apply in_seq in Hi. apply HI in E. exists s, n, i. conj; auto.
    pose proof (Nat.mul_div_le (length x - length y) n ltac:(lia)). nia.
  - intros (s' & m & i & Hs' & Hp' & Hi & HJ).
    pose proof (padded_unique (length y) n m ltac:(lia) Hpad Hp') as <-.
    assert (HL : 0 < leading t (length y) (num t y)).
    { rewrite (leading_top t y (proj1 Wy)) by lia. apply (top_pos B y (proj1 Wy) (proj2 Wy)). lia. }
    pose proof (scaling_unique _ _ _ _ _ HL Hs Hs') as <-.
    exists i. split; [|apply HI, HJ]. apply in_seq.
    assert (i <= (length x - length y) / n)%nat; [|lia]. apply Nat.div_le_lower_bound; lia.
Qed.
End Typed.

(** ** The outcome *)
Lemma div_jam_pad dbg t idx x y : valid t x -> (num_lt x y = true -> normal x) -> well_formed t y -> (20 <= length y)%nat ->
  is_binary t = true \/ scales t (length y) (num t y) ->
  (is_binary t = false /\ (idx = true \/ ~ recursive_open t x y)) \/ ~ recursive_tie t x y ->
  (divided dbg t x y /\ ~ recursive_jam t x y)
  \/ (recursive_jam t x y /\ stops dbg t x y (PUnwrap Underflow))
  \/ (idx = true /\ stops dbg t x y PIndex).
Proof.
  intros Vx Nx Wy Hl HS HR.
  pose proof (large_guard t idx x y Vx Wy Hl HS HR) as HG.
  assert (HSc : scales t (length y) (num t y)).
  { destruct HS as [Hb|HS]; [|exact HS]. apply binary_fits; auto. lia. }
  pose proof (whole_recursive t x y Vx Wy Hl HSc) as EW.
  assert (Hy : y <> []) by (intros ->; cbn in Hl; lia).
  pose proof (num_pos t y Wy Hy) as Py. destruct Wy as [Vy Ny].
  pose proof (div_assign_big_jam _ _ (slack t) idx (impl_ok dbg t) (impl_div dbg t) x y Vx Vy Nx Ny
    Hl (fun _ => HG)) as H1.
  pose proof (rem_assign_big_jam _ _ (slack t) idx (impl_ok dbg t) (impl_div dbg t) x y Vx Vy Nx Ny
    Hl (fun _ => HG)) as H2.
  destruct (div_assign_big (impl dbg t) x y) as [[q res]|w|] eqn:E1; cbn in H1; [| |contradiction].
  - left. destruct H1 as [H1 HN]. split; [|intros HJ; apply HN, EW, HJ].
    destruct (rem_assign_big (impl dbg t) x y) as [[r' res']|w|] eqn:E2; cbn in H2; [| |contradiction].
    + destruct H1 as (r & -> & Q1 & Q2 & Q3 & Q4 & Q5 & Q6). destruct H2 as [(-> & R1 & R2 & R3) _].
      eapply divided_intro; eauto; split; auto.
    + exfalso. unfold div_assign_big in E1. unfold rem_assign_big in E2.
      destruct (Nat.ltb_spec (length x) (length y)), (Nat.leb_spec (length y) (length x)); try lia; try discriminate E2.
      destruct (div_big _ _ _ _) as [[[? ?] [[? ?]|]]| |]; discriminate.
  - right.
    assert (HSt : stops dbg t x y w).
    { unfold div_assign_big in E1.
      destruct (Nat.ltb_spec (length x) (length y)) as [Hlt|Hge].
      + destruct (total_inv _ _ (new_ok (radix t) x Vx)) as (r & E & _). rewrite E in E1. discriminate E1.
      + apply stops_intro; [|lia].
        destruct (div_big _ _ _ _) as [[[rem self] [[nq nr]|e]]|w'|] eqn:E; cbn [bind] in E1; try discriminate E1; [|congruence].
        exfalso.
        destruct (total_inv _ _ (drop_ok (truncate nr rem) (length (truncate nr rem)) ltac:(lia))) as (m & Em & _).
        unfold ubig_new, ubig_drop_leading_zeros in E1. rewrite Em in E1. discriminate E1. }
    destruct H1 as [[-> HJ]|[Ei ->]]; [left; split; [apply EW, HJ|exact HSt]|right; auto].
Qed.
Lemma div_jam dbg t idx x y : well_formed t x -> well_formed t y -> (20 <= length y)%nat ->
  is_binary t = true \/ scales t (length y) (num t y) ->
  (is_binary t = false /\ (idx = true \/ ~ recursive_open t x y)) \/ ~ recursive_tie t x y ->
  (divided dbg t x y /\ ~ recursive_jam t x y)
  \/ (recursive_jam t x y /\ stops dbg t x y (PUnwrap Underflow))
  \/ (idx = true /\ stops dbg t x y PIndex).
Proof. intros [Vx Nx]. apply div_jam_pad; auto. Qed.

(** binary: without a tie, exactly the multiplications decide *)
Lemma bz_untied_claim dbg t x y : is_binary t = true -> well_formed t x -> well_formed t y ->
  (20 <= length y)%nat -> ~ recursive_tie t x y ->
  (recursive_jam t x y -> stops dbg t x y (PUnwrap Underflow))
  /\ (~ recursive_jam t x y -> divided dbg t x y).
Proof.
  intros Hb Wx Wy Hl HT.
  destruct (div_jam dbg t false x y Wx Wy Hl (or_introl Hb) (or_intror HT)) as [[H1 H2]|[[H1 H2]|[H _]]];
    [split; [contradiction|auto]|split; [auto|contradiction]|discriminate H].
Qed.
Lemma bz_binary_claim dbg t x y : is_binary t = true -> well_formed t x -> well_formed t y ->
  (20 <= length y)%nat -> Z.of_nat (length y) < 2 ^ 64 ->
  (divided dbg t x y <-> ~ recursive_tie t x y /\ ~ recursive_jam t x y).
Proof.
  intros Hb Wx Wy Hl H64. split.
  - intros HD. assert (HT : ~ recursive_tie t x y).
    { intros HT. destruct HD as (q & r & E & _ & _ & _ & Wq & Wr & H1 & H2).
      apply (DivBzTie.bz_tied_claim dbg t Hb x y q r Wx Wy Hl H64 HT E).
      apply Z.div_unique with (num t r); lia. }
    split; [exact HT|]. intros HJ.
    destruct (proj1 (bz_untied_claim dbg t x y Hb Wx Wy Hl HT) HJ) as [E _].
    destruct HD as (q & r & E' & _). rewrite E in E'. discriminate E'.
  - intros [HT HJ]. exact (proj2 (bz_untied_claim dbg t x y Hb Wx Wy Hl HT) HJ).
Qed.
(** decimal *)
Lemma bz_scaling_claim dbg t x y : is_binary t = false -> well_formed t x -> well_formed t y ->
  (20 <= length y)%nat -> scales t (length y) (num t y) ->
  (~ recursive_open t x y -> ~ recursive_jam t x y -> divided dbg t x y)
  /\ (~ recursive_open t x y -> recursive_jam t x y -> stops dbg t x y (PUnwrap Underflow))
  /\ (recursive_open t x y -> ~ recursive_jam t x y -> stops dbg t x y PIndex)
  /\ (recursive_open t x y -> recursive_jam t x y ->
        stops dbg t x y PIndex \/ stops dbg t x y (PUnwrap Underflow)).
Proof.
  intros Hb Wx Wy Hl HS.
  assert (HO : ~ recursive_open t x y ->
    (divided dbg t x y /\ ~ recursive_jam t x y) \/ (recursive_jam t x y /\ stops dbg t x y (PUnwrap Underflow))).
  { intros HN. destruct (div_jam dbg t false x y Wx Wy Hl (or_intror HS) (or_introl (conj Hb (or_intror HN))))
      as [H|[H|[H _]]]; [auto|auto|discriminate H]. }
  assert (HP : recursive_open t x y -> ~ divided dbg t x y).
  { intros HN (q & r & E & _). exact (DivBzOpen.bz_open_claim dbg t Hb x y q r Wx Wy Hl HS HN E). }
  pose proof (div_jam dbg t true x y Wx Wy Hl (or_intror HS) (or_introl (conj Hb (or_introl eq_refl)))) as HI.
  conj.
  - intros H1 H2. destruct (HO H1) as [[H _]|[H _]]; [exact H|contradiction].
  - intros H1 H2. destruct (HO H1) as [[_ H]|[_ H]]; [contradiction|exact H].
  - intros H1 H2. destruct HI as [[H _]|[[H _]|[_ H]]]; [destruct (HP H1 H)|contradiction|exact H].
  - intros H1 H2. destruct HI as [[H _]|[[_ H]|[_ H]]]; [destruct (HP H1 H)|right; exact H|left; exact H].
Qed.
Lemma bz_scaling_iff_claim dbg t x y : is_binary t = false -> well_formed t x -> well_formed t y ->
  (20 <= length y)%nat -> scales t (length y) (num t y) ->
  (divided dbg t x y <-> ~ recursive_open t x y /\ ~ recursive_jam t x y).
Proof.
  intros Hb Wx Wy Hl HS. destruct (bz_scaling_claim dbg t x y Hb Wx Wy Hl HS) as (H1 & H2 & H3 & H4).
  split; [|intros [A C]; auto].
  intros HD. pose proof HD as (q & r & E & _). split.
  - intros HN. exact (DivBzOpen.bz_open_claim dbg t Hb x y q r Wx Wy Hl HS HN E).
  - intros HJ.
    pose proof (div_jam dbg t true x y Wx Wy Hl (or_intror HS) (or_introl (conj Hb (or_introl eq_refl)))) as HI.
    destruct HI as [[_ H]|[[_ [H _]]|[_ [H _]]]]; [contradiction|congruence|congruence].
Qed.


(** ** Up to 80 digits no multiplication stops *)
Section Short.
Variables (B : Z) (D : digit).
Hypothesis OK : digit_ok B D.
Let HB : 1 < B := SliceProof.HB B D OK.

Lemma represent n : forall v, 0 <= v < pw B n -> exists l, length l = n /\ below B l /\ value B l = v.
Proof.
  induction n as [|n IH]; intros v Hv.
  - exists []. change (pw B 0) with 1 in Hv. cbn. conj; auto using below_nil. lia.
  - rewrite pw_S in Hv. destruct (IH (v / B)) as (l & L & Dl & V).
    { split; [apply Z.div_pos; lia|apply Z.div_lt_upper_bound; lia]. }
    exists (v mod B :: l). cbn [length value]. pose proof (Z.mod_pos_bound v B ltac:(lia)).
    pose proof (Z.div_mod v B ltac:(lia)). conj; [congruence|constructor; [lia|exact Dl]|lia].
Qed.
Lemma represent_normal n v : 0 <= v < pw B n -> exists l, (length l <= n)%nat /\ below B l /\ normal l /\ value B l = v.
Proof.
  intros Hv. destruct (represent n v Hv) as (l & L & Dl & V).
  destruct (total_inv _ _ (fits_drop B l v Dl V)) as (m & _ & _ & Hm & _ & Vm & Nm).
  exists (firstn m l). conj; auto using below_firstn. rewrite firstn_length. lia.
Qed.

Lemma jam_at_short v w : 0 <= v < pw B 40 -> 0 <= w < pw B 40 -> ~ jam_at B v w.
Proof.
  intros Hv Hw HJ.
  destruct (represent_normal 40 v Hv) as (x & Lx & Dx & Nx & <-).
  destruct (represent_normal 40 w Hw) as (y & Ly & Dy & Ny & <-).
  unfold jam_at in HJ. rewrite !(normal_places B D OK) in HJ by assumption.
  pose proof (pw_pos B 1 HB).
  assert (Dz : forall k, below B (zeros k)) by (intros k; apply below_zeros; lia).
  set (pr := zeros (length x + length y)). set (wk := zeros (need (length x) (length y))).
  assert (Hp : x <> [] -> y <> [] -> (length x + length y <= length pr)%nat) by (intros _ _; unfold pr; rewrite zeros_length; lia).
  assert (Hk : (need (length x) (length y) <= length wk)%nat) by (unfold wk; rewrite zeros_length; lia).
  assert (Hg : good true x y) by (intros _; right; right; auto).
  pose proof (MulTopProof.with_work_ok B D OK true x y pr wk Dx Dy (Dz _) (Dz _) Hg Hp Hk) as H1.
  pose proof (mul_fuel_jam B D OK (S (Nat.max (length x) (length y))) x y pr wk Dx Dy (Dz _) (Dz _) ltac:(lia) Hp Hk) as H2.
  unfold mul_big_into_with_work in H1. destruct (mul_fuel D _ x y pr wk) as [r|e|]; cbn in H1, H2; [|destruct H1 as [H1 _]; discriminate H1|exact H1].
  destruct H2 as [_ H2]. exact (H2 HJ).
Qed.

Lemma block_jam_short n a b : block_jam B n a b -> (n <= 80)%nat -> 0 <= a -> pw B (n - 1) <= b < pw B n ->
  a < b * pw B n -> False.
Proof.
  intros T. induction T as [h a b c Hh Hc HJ|h a b c Hh Hc Hlt T IH]; intros Hn Ha Hb Hab;
    fold (pw B h) in *; pose proof (pw_pos B h HB) as Hp;
    assert (E0 : pw B (2 * h) = pw B h * pw B h) by (rewrite <- pw_add; f_equal; lia);
    destruct (step_parts B D OK h a b c ltac:(lia) Ha Hb Hc) as (Hca & Hb' & Hm & Hg);
    pose proof (pw_pos B (h - 1) HB) as Hp1.
  - assert (P40 : pw B h <= pw B 40) by (apply pw_le; [exact HB|lia]).
    revert HJ. apply jam_at_short.
    + split; [exact Hg|]. apply Z.lt_le_trans with (pw B h); [|exact P40].
      unfold guess. fold (pw B (2 * h)) (pw B h).
      destruct (Z.ltb_spec (c / pw B (2 * h)) (b / pw B h)) as [Hl|Hl]; [|lia].
      apply Z.div_lt_upper_bound; [lia|].
      rewrite E0, <- Z.div_div in Hl by lia.
      pose proof (Z.div_mod (c / pw B h) (pw B h) ltac:(lia)) as E.
      pose proof (Z.mod_pos_bound (c / pw B h) (pw B h) Hp).
      assert (pw B h * (c / pw B h / pw B h + 1) <= pw B h * (b / pw B h)) by (apply Z.mul_le_mono_nonneg_l; lia). lia.
    + pose proof (Z.mod_pos_bound b (pw B h) Hp). lia.
  - apply IH; auto; [lia|apply Z.div_pos; lia|].
    fold (pw B (2 * h)) in Hlt. rewrite E0, <- Z.div_div in Hlt by lia.
    pose proof (Z.div_mod (c / pw B h) (pw B h) ltac:(lia)) as E.
    pose proof (Z.mod_pos_bound (c / pw B h) (pw B h) Hp).
    assert (pw B h * (c / pw B h / pw B h + 1) <= pw B h * (b / pw B h)) by (apply Z.mul_le_mono_nonneg_l; lia). lia.
Qed.
End Short.

Lemma recursive_jam_short t x y : well_formed t x -> well_formed t y -> (20 <= length y <= 80)%nat ->
  scales t (length y) (num t y) -> ~ recursive_jam t x y.
Proof.
  intros Wx Wy Hl HSc (s & n & i & Hs & Hpad & Hi & HJ).
  pose proof (SliceProof.HB _ _ (impl_ok true t)) as HB.
  pose proof (padded_fits t y s n Wy ltac:(lia) HSc Hs Hpad) as HF.
  pose proof (padded_unique (length y) n _ ltac:(lia) Hpad (block_size_padded (length y) ltac:(lia))) as En.
  pose proof (pw_pos (radix t) (n - 1) HB). pose proof (pw_pos (radix t) n HB).
  assert (HM : 0 < num t y * 2 ^ s * radix t ^ Z.of_nat (n - length y) * radix t ^ Z.of_nat n).
  { apply Z.mul_pos_pos; [fold (pw (radix t) (n - length y)); lia|assumption]. }
  apply (block_jam_short _ _ (impl_ok true t) _ _ _ HJ).
  - rewrite En. apply block_small. exact Hl.
  - apply Z.mod_pos_bound. exact HM.
  - exact HF.
  - apply Z.mod_pos_bound. exact HM.
Qed.

(** ** All sizes together: for binary types [division_right] is exact *)
Lemma division_exact_claim dbg t x y : is_binary t = true -> well_formed t x -> well_formed t y -> y <> [] ->
  Z.of_nat (length y) < 2 ^ 64 -> (divided dbg t x y <-> division_right t x y).
Proof.
  intros Hb Wx Wy Hy H64. assert (H1 : (1 <= length y)%nat) by (destruct y; [contradiction|cbn; lia]).
  unfold division_right, divides. rewrite Hb.
  destruct (Nat.eq_dec (length y) 1) as [E1|N1].
  { split; [auto|]. intros _. apply div_short_claim; auto. lia. }
  destruct (Nat.lt_ge_cases (length y) 20) as [Hl|Hl].
  - rewrite (DivTie.exact_claim dbg t Hb x y Wx Wy) by lia. split; [auto|].
    intros [E|[[_ H]|[H _]]]; [lia|exact H|lia].
  - rewrite (bz_binary_claim dbg t x y Hb Wx Wy Hl H64). split.
    + intros [HT HJ]. right. right. auto.
    + intros [E|[[H _]|(_ & H2 & H3)]]; [lia|lia|auto].
Qed.

(** ** Without deciding which *)
Lemma div_either_binary_claim dbg t x y : is_binary t = true -> well_formed t x -> well_formed t y ->
  (20 <= length y)%nat -> ~ recursive_tie t x y -> divided dbg t x y \/ stops dbg t x y (PUnwrap Underflow).
Proof.
  intros Hb Wx Wy Hl HT.
  destruct (div_jam dbg t false x y Wx Wy Hl (or_introl Hb) (or_intror HT)) as [[H _]|[[_ H]|[H _]]]; auto.
  discriminate H.
Qed.
Lemma div_either_scaling_claim dbg t x y : is_binary t = false -> well_formed t x -> well_formed t y ->
  (20 <= length y)%nat -> scales t (length y) (num t y) ->
  divided dbg t x y \/ stops dbg t x y PIndex \/ stops dbg t x y (PUnwrap Underflow).
Proof.
  intros Hb Wx Wy Hl HS.
  destruct (div_jam dbg t true x y Wx Wy Hl (or_intror HS) (or_introl (conj Hb (or_introl eq_refl)))) as [[H _]|[[_ H]|[_ H]]]; auto.
Qed.
Lemma div_open_either_claim dbg t : is_binary t = false -> forall x y,
  well_formed t x -> well_formed t y -> (20 <= length y)%nat -> scales t (length y) (num t y) ->
  (recursive_open t x y -> stops dbg t x y PIndex \/ stops dbg t x y (PUnwrap Underflow))
  /\ (~ recursive_open t x y -> divided dbg t x y \/ stops dbg t x y (PUnwrap Underflow)).
Proof.
  intros Hb x y Wx Wy Hl HS. split; intros HO.
  - destruct (div_either_scaling_claim dbg t x y Hb Wx Wy Hl HS) as [(q & r & E & _)|H]; [exfalso|exact H].
    exact (DivBzOpen.bz_open_claim dbg t Hb x y q r Wx Wy Hl HS HO E).
  - destruct (div_jam dbg t false x y Wx Wy Hl (or_intror HS) (or_introl (conj Hb (or_intror HO))))
      as [[H _]|[[_ H]|[H _]]]; auto. discriminate H.
Qed.
