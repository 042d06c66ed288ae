(** * ClaimsKara: exactly when products with a factor of fewer than 128 digits, and squares of
    fewer than 128 digits, stop. *)
From Coq Require Import ZArith List Bool Lia.
From Verif Require Import Base Digit Slice Mul Div UBig Spec SpecMul Hoare DigitOK ListLemmas SliceProof
  MulProof BufProof WorkSize KaratsubaProof MulTopProof UBigProof PowProof DivProof TypedProof
  KaraExact Cases ClaimsBasic.
Import ListNotations.
Open Scope Z_scope.
Open Scope m_scope.

Section Top.
Variables (B : Z) (D : digit).
Hypothesis OK : digit_ok B D.
Let HB : 1 < B := SliceProof.HB B D OK.
Hint Resolve HB : core.

Lemma mul_big_exact x y : below B x -> below B y -> (Nat.min (length x) (length y) < 128)%nat ->
  spec (stops B x y) (mul_big D x y)
    (fun r => prodpost B (value B x * value B y) r /\ ~ halts B x y).
Proof.
  intros D0 D1 Hm. unfold mul_big.
  destruct (ubig_is_zero x) eqn:E0; cbn [orb].
  { apply is_zero_nil in E0. subst. ret. split; [|apply not_both_free; cbn; lia].
    unfold prodpost, ubig_zero. conj; auto using below_nil, normal_nil. }
  destruct (ubig_is_zero y) eqn:E1.
  { apply is_zero_nil in E1. subst. ret. split; [|apply not_both_free; cbn; lia].
    unfold prodpost, ubig_zero. conj; auto using below_nil, normal_nil. cbn. lia. }
  eapply spec_bind.
  { apply (mul_into_exact B D OK); auto; [apply below_zeros; auto|].
    intros _ _. rewrite zeros_length. lia. }
  intros [r n] ((L & Dr & H1 & H2 & V & N) & Hf). ret. split; [|exact Hf].
  unfold prodpost, truncate. conj; auto. apply below_firstn, Dr.
Qed.

Lemma square_exact x : below B x -> (length x < 128)%nat ->
  spec (stops B x x) (square D x)
    (fun r => prodpost B (value B x * value B x) r /\ ~ halts B x x).
Proof.
  intros D0 HL. unfold square.
  destruct (ubig_is_zero x) eqn:E0.
  { apply is_zero_nil in E0. subst. ret. split; [|apply not_both_free; cbn; lia].
    unfold prodpost, ubig_zero. conj; auto using below_nil, normal_nil. }
  eapply spec_bind.
  { apply (square_into_exact B D OK); auto; [apply below_zeros; auto|rewrite zeros_length; lia]. }
  intros [r n] ((L & Dr & H1 & H2 & V & N) & Hf). ret. split; [|exact Hf].
  unfold prodpost, truncate. conj; auto. apply below_firstn, Dr.
Qed.
End Top.

(** A multiplication of these two numbers stops. *)
Definition stuck_product (t : dty) (x y : digits) : Prop :=
  stuck (radix t) (length x) (num t x) (length y) (num t y).

Lemma mul_exact_claim dbg t x y : valid t x -> valid t y ->
  (length x < 128)%nat \/ (length y < 128)%nat ->
  (stuck_product t x y -> mul_assign (impl dbg t) x y = Panic (PUnwrap Underflow))
  /\ (~ stuck_product t x y -> exists r, mul_assign (impl dbg t) x y = Ret r
        /\ well_formed t r /\ num t r = num t x * num t y).
Proof.
  intros Hx Hy HL. unfold mul_assign.
  assert (Hm : (Nat.min (length x) (length y) < 128)%nat) by lia.
  destruct (spec_exact _ _ _ _ (mul_big_exact _ _ (impl_ok dbg t) x y Hx Hy Hm)) as [H1 H2].
  - intros a [_ Hf]. exact Hf.
  - split; [exact H1|]. intros Hn. destruct (H2 Hn) as (r & E & (P1 & P2 & P3) & _).
    exists r. repeat split; auto.
Qed.

Lemma square_exact_claim dbg t x : valid t x -> (length x < 128)%nat ->
  (stuck_product t x x -> square (impl dbg t) x = Panic (PUnwrap Underflow))
  /\ (~ stuck_product t x x -> exists r, square (impl dbg t) x = Ret r
        /\ well_formed t r /\ num t r = num t x * num t x).
Proof.
  intros Hx HL.
  destruct (spec_exact _ _ _ _ (square_exact _ _ (impl_ok dbg t) x Hx HL)) as [H1 H2].
  - intros a [_ Hf]. exact Hf.
  - split; [exact H1|]. intros Hn. destruct (H2 Hn) as (r & E & (P1 & P2 & P3) & _).
    exists r. repeat split; auto.
Qed.

(** A decision procedure. *)
Fixpoint stuck_in (fuel : nat) (B : Z) (m : nat) (v : Z) (n : nat) (w : Z) : bool :=
  match fuel with
  | O => false
  | S f =>
      let s := half m n in
      let lv := lower B v s in let uv := upper B v s in
      let lw := lower B w s in let uw := upper B w s in
      if ((20 <=? m)%nat && (20 <=? n)%nat)
      then (((places B lv <? m - s)%nat && (uv <? lv))
          || ((places B lw <? n - s)%nat && (uw <? lw))
          || stuck_in f B (gap B m v s) (Z.abs (lv - uv)) (gap B n w s) (Z.abs (lw - uw))
          || stuck_in f B (places B lv) lv (places B lw) lw
          || stuck_in f B (m - s) uv (n - s) uw)
      else false
  end%bool.

Lemma if_and (a b : bool) : (if a then b else false) = (a && b)%bool.
Proof. destruct a; reflexivity. Qed.

Lemma stuck_in_sound f B m v n w : stuck_in f B m v n w = true -> stuck B m v n w.
Proof.
  revert m v n w. induction f as [|f IH]; intros m v n w H; cbn [stuck_in] in H; [discriminate|].
  cbv zeta in H. rewrite if_and, !andb_true_iff, !orb_true_iff, !andb_true_iff in H.
  rewrite !Nat.leb_le, !Nat.ltb_lt, !Z.ltb_lt in H. destruct H as (Hb & H).
  destruct H as [[[[H|H]|H]|H]|H].
  - apply stuck_first; [exact Hb|exact H].
  - apply stuck_second; [exact Hb|exact H].
  - apply stuck_between; [exact Hb|apply IH, H].
  - apply stuck_lower; [exact Hb|apply IH, H].
  - apply stuck_upper; [exact Hb|apply IH, H].
Qed.

(** The recursion is on shorter numbers, so the longer length is fuel enough. *)
Section Complete.
Variables (B : Z) (D : digit).
Hypothesis OK : digit_ok B D.
Let HB : 1 < B := SliceProof.HB B D OK.
Definition fits (m : nat) (v : Z) : Prop := 0 <= v < pw B m.

Lemma places_any v m : v < pw B m -> (places B v <= Nat.max 1 m)%nat.
Proof.
  intros H. destruct (Z.le_gt_cases 0 v) as [H0|H0].
  - pose proof (places_le B D OK v m (conj H0 H)). lia.
  - unfold places. rewrite Z.log2_nonpos by lia. cbn [Z.to_nat places_in].
    destruct (v =? 0); lia.
Qed.

Lemma left_over_le m v n w : v < pw B m -> 0 <= w -> (left_over B m v n w <= Nat.max 1 m)%nat.
Proof.
  intros H Hw. unfold left_over. destruct (_ <? _).
  - destruct (_ =? _); lia.
  - apply places_any. lia.
Qed.

Lemma half_bounds m n : both m n -> (10 <= half m n < Nat.max m n)%nat
  /\ (m - half m n <= half m n)%nat /\ (n - half m n <= half m n)%nat.
Proof.
  intros [H1 H2]. unfold half. pose proof (Nat.div2_odd (Nat.max m n + 1)).
  destruct (Nat.odd (Nat.max m n + 1)); cbn [Nat.b2n] in *; lia.
Qed.

Lemma lower_fits v s : fits s (lower B v s).
Proof. apply Z.mod_pos_bound, pw_pos, HB. Qed.
Lemma upper_fits m v s : fits m v -> fits (m - s) (upper B v s).
Proof.
  intros [H1 H2]. pose proof (pw_pos B s HB). pose proof (pw_pos B (m - s) HB).
  unfold upper. change (B ^ Z.of_nat s) with (pw B s). split; [apply Z.div_pos; lia|].
  apply Z.div_lt_upper_bound; [lia|]. rewrite <- pw_add.
  pose proof (pw_le B m (s + (m - s)) HB ltac:(lia)). lia.
Qed.
Lemma fits_le m n v : fits m v -> (m <= n)%nat -> fits n v.
Proof. intros [H1 H2] H. pose proof (pw_le B m n HB H). split; lia. Qed.

Lemma gap_le m v s : fits m v -> (m - s <= s)%nat -> (1 <= s)%nat -> (gap B m v s <= s)%nat.
Proof.
  intros Hf Hs H1. pose proof (lower_fits v s) as Hl. pose proof (upper_fits m v s Hf) as Hu.
  pose proof (places_le B D OK _ _ Hl) as Hp.
  unfold gap. destruct (_ || _).
  - pose proof (left_over_le (m - s) (upper B v s) (places B (lower B v s)) (lower B v s)
      (proj2 Hu) (proj1 Hl)). lia.
  - pose proof (left_over_le (places B (lower B v s)) (lower B v s) (m - s) (upper B v s)
      (places_lt B D OK _ (proj1 Hl)) (proj1 Hu)). lia.
Qed.

Lemma left_over_fits m v n w : fits m v -> fits n w -> (n <= m)%nat -> w <= v ->
  fits (left_over B m v n w) (v - w).
Proof.
  intros [V1 V2] [W1 W2] Hn Hle. unfold fits, left_over.
  pose proof (pw_pos B n HB) as Pn.
  assert (Ev : v = pw B n * upper B v n + lower B v n) by (apply Z.div_mod; unfold pw in Pn; lia).
  destruct (Z.ltb_spec (lower B v n) w) as [Hc|Hc].
  - assert (Hnm : (n < m)%nat).
    { destruct (Nat.eq_dec n m) as [->|]; [|lia]. exfalso.
      unfold lower in Hc. rewrite Z.mod_small in Hc by (unfold pw in V2; lia). lia. }
    change (B ^ Z.of_nat (m - n - 1)) with (pw B (m - n - 1)).
    destruct (Z.eqb_spec (upper B v n) (pw B (m - n - 1))) as [E|E]; [|lia].
    rewrite E, <- pw_add in Ev. replace (n + (m - n - 1))%nat with (m - 1)%nat in Ev by lia. lia.
  - split; [lia|]. apply (places_lt B D OK). lia.
Qed.

Lemma gap_fits m v s : fits m v -> ~ hidden B m v s -> fits (gap B m v s) (apart B v s).
Proof.
  intros Hf Hh. pose proof (lower_fits v s) as Hl. pose proof (upper_fits m v s Hf) as Hu.
  pose proof (places_lt B D OK _ (proj1 Hl)) as Hp.
  unfold gap, apart, hidden in *. set (low := lower B v s) in *. set (high := upper B v s) in *.
  assert (Hpl : fits (places B low) low) by (split; [apply Hl|exact Hp]).
  destruct (Nat.ltb_spec (places B low) (m - s)) as [H1|H1]; cbn [orb].
  - replace (Z.abs (low - high)) with (high - low) by lia.
    apply left_over_fits; auto; lia.
  - destruct (Z.ltb_spec low high) as [H2|H2].
    + replace (Z.abs (low - high)) with (high - low) by lia.
      apply left_over_fits; auto; [|lia]. apply (places_le B D OK). destruct Hl, Hu. lia.
    + replace (Z.abs (low - high)) with (low - high) by lia. apply left_over_fits; auto.
Qed.

Lemma hidden_dec m v s : {hidden B m v s} + {~ hidden B m v s}.
Proof.
  unfold hidden. destruct (lt_dec (places B (lower B v s)) (m - s)); [|right; tauto].
  destruct (Z_lt_dec (upper B v s) (lower B v s)); [left|right]; tauto.
Qed.

Lemma stuck_in_complete m v n w : stuck B m v n w -> forall f, fits m v -> fits n w ->
  (Nat.max m n < f)%nat -> stuck_in f B m v n w = true.
Proof.
  induction 1 as [m v n w Hb H|m v n w Hb H|m v n w s Hb H IH|m v n w s Hb H IH|m v n w s Hb H IH];
    intros f F1 F2 Hf; (destruct f as [|f]; [lia|]); cbn [stuck_in]; cbv zeta;
    destruct (half_bounds m n Hb) as ((S1 & S2) & S3 & S4);
    rewrite if_and, !andb_true_iff, !orb_true_iff, !andb_true_iff, !Nat.leb_le, !Nat.ltb_lt, !Z.ltb_lt;
    (split; [exact Hb|]).
  - left. left. left. left. exact H.
  - left. left. left. right. exact H.
  - destruct (hidden_dec m v (half m n)) as [H1|H1]; [left; left; left; left; exact H1|].
    destruct (hidden_dec n w (half m n)) as [H2|H2]; [left; left; left; right; exact H2|].
    left. left. right. apply IH; [apply gap_fits; assumption|apply gap_fits; assumption|].
    pose proof (gap_le m v (half m n) F1 S3 ltac:(lia)). pose proof (gap_le n w (half m n) F2 S4 ltac:(lia)).
    unfold s. lia.
  - left. right. pose proof (lower_fits v s) as L1. pose proof (lower_fits w s) as L2.
    apply IH; [split; [apply L1|apply (places_lt B D OK), L1]|split; [apply L2|apply (places_lt B D OK), L2]|].
    pose proof (places_le B D OK _ _ L1). pose proof (places_le B D OK _ _ L2). unfold s in *. lia.
  - right. apply IH; [apply upper_fits; assumption|apply upper_fits; assumption|]. unfold s. lia.
Qed.
End Complete.

Definition stuck_check (t : dty) (x y : digits) : bool :=
  stuck_in (S (Nat.max (length x) (length y))) (radix t) (length x) (num t x) (length y) (num t y).

Lemma stuck_computed t x y : valid t x -> valid t y ->
  (stuck_check t x y = true <-> stuck_product t x y).
Proof.
  intros Hx Hy. split; [apply stuck_in_sound|]. intros H.
  apply (stuck_in_complete _ _ (impl_ok true t)); [exact H| | |lia];
    apply (value_bound _ (radix_gt t)); assumption.
Qed.

(** a consequence: both orders of a product behave alike *)
Lemma stuck_comm B m v n w : stuck B m v n w -> stuck B n w m v.
Proof.
  assert (Eh : forall a b, half a b = half b a) by (intros; unfold half; rewrite Nat.max_comm; reflexivity).
  induction 1 as [m v n w Hb H|m v n w Hb H|m v n w s Hb H IH|m v n w s Hb H IH|m v n w s Hb H IH];
    assert (Hb' : both n m) by (destruct Hb; split; assumption); try (unfold s in IH; rewrite Eh in IH);
    try rewrite Eh in H.
  - apply stuck_second; assumption.
  - apply stuck_first; assumption.
  - apply stuck_between; assumption.
  - apply stuck_lower; assumption.
  - apply stuck_upper; assumption.
Qed.

Lemma mul_comm_exact_claim dbg t x y : valid t x -> valid t y ->
  (length x < 128)%nat \/ (length y < 128)%nat ->
  mul_assign (impl dbg t) x y = mul_assign (impl dbg t) y x.
Proof.
  intros Hx Hy HL. destruct (mul_exact_claim dbg t x y Hx Hy HL) as [A1 A2].
  destruct (mul_exact_claim dbg t y x Hy Hx ltac:(tauto)) as [C1 C2].
  destruct (stuck_check t x y) eqn:E.
  - apply stuck_computed in E; auto. rewrite A1 by assumption. rewrite C1 by (apply stuck_comm, E). reflexivity.
  - assert (N : ~ stuck_product t x y) by (intros H; apply stuck_computed in H; auto; congruence).
    destruct (A2 N) as (r & E1 & (V1 & N1) & R1).
    destruct C2 as (r' & E2 & (V2 & N2) & R2); [intros H; apply N, stuck_comm, H|].
    rewrite E1, E2. f_equal. apply (normal_inj (radix t)); auto using radix_gt.
    unfold num in *. lia.
Qed.

(** squaring is multiplication by itself *)
Lemma square_is_mul_claim dbg t x : valid t x -> (length x < 128)%nat ->
  square (impl dbg t) x = mul_assign (impl dbg t) x x.
Proof.
  intros Hx HL. destruct (mul_exact_claim dbg t x x Hx Hx ltac:(tauto)) as [A1 A2].
  destruct (square_exact_claim dbg t x Hx HL) as [C1 C2].
  destruct (stuck_check t x x) eqn:E.
  - apply stuck_computed in E; auto. rewrite A1, C1 by assumption. reflexivity.
  - assert (N : ~ stuck_product t x x) by (intros H; apply stuck_computed in H; auto; congruence).
    destruct (A2 N) as (r & E1 & (V1 & N1) & R1).
    destruct (C2 N) as (r' & E2 & (V2 & N2) & R2).
    rewrite E1, E2. f_equal. apply (normal_inj (radix t)); auto using radix_gt.
    unfold num in *. lia.
Qed.

(** Two cases in which no product stops. *)
Lemma free_short t x y : (length x < 20)%nat \/ (length y < 20)%nat -> ~ stuck_product t x y.
Proof. intros H. apply not_both_free. exact H. Qed.
