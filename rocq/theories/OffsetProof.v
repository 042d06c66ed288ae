(** * OffsetProof: addition at an offset, digit for digit. *)
From Coq Require Import ZArith List Bool Lia.
From Verif Require Import Base Digit Slice Mul Div UBig Spec SpecMul SpecToom Hoare DigitOK ListLemmas SliceProof
  UBigProof TypedProof Cases ClaimsBasic SliceClaims.
Import ListNotations.
Open Scope Z_scope.
Open Scope m_scope.

Section Offset.
Variables (dbg : bool) (t : dty).
Notation B := (radix t).
Notation D := (impl dbg t).
Notation base n := (B ^ Z.of_nat n).

(** pushing the carry: one digit more exactly if the sum does not fit *)
Lemma carried (s : digits) (c : bool) (n : nat) v : valid t s -> length s = n ->
  num t s + base n * Z.b2z c = v ->
  length (if c then s ++ [1] else s) = wide B n v.
Proof.
  intros V L H. pose proof (num_range t s V) as R. rewrite L in R. unfold wide.
  destruct c; cbn [Z.b2z] in H.
  - destruct (Z.ltb_spec v (base n)); [lia|]. rewrite app_length. cbn. lia.
  - destruct (Z.ltb_spec v (base n)); [exact L|lia].
Qed.

Lemma add_at_length x y o : valid t x -> valid t y ->
  exists r, add_assign_big_at_offset D x y o = Ret r /\ valid t r
    /\ num t r = num t x + base o * num t y
    /\ length r = wide B (Nat.max (length x) (o + length y)) (num t x + base o * num t y).
Proof.
  intros V W. destruct (add_at_claim dbg t x y o V W) as (r & E & Vr & Nr). exists r. split; [exact E|].
  split; [exact Vr|]. split; [exact Nr|]. rewrite <- Nr.
  unfold add_assign_big_at_offset in E. destruct (Nat.leb_spec (length x) o) as [H0|H0].
  { injection E as <-. assert (L : length (x ++ zeros (o - length x) ++ y) = (o + length y)%nat).
    { rewrite !app_length, zeros_length. lia. }
    pose proof (num_range t _ Vr) as R. rewrite L in *. unfold wide. rewrite Nat.max_r by lia.
    destruct (Z.ltb_spec (num t (x ++ zeros (o - length x) ++ y)) (base (o + length y))); lia. }
  assert (G : forall (m : digits) z, valid t m -> valid t z -> (o + length z <= length m)%nat ->
    exists s c, with_suffix m o (fun s => add_assign_big D s z) = Ret (s, c) /\ valid t s /\ length s = length m).
  { intros m z Vm Vz L. unfold with_suffix, with_slice. rewrite sub_slice_ok by lia. cbn [bind].
    rewrite firstn_all2 by (rewrite skipn_length; lia).
    pose proof (add_big_claim dbg t (skipn o m) z (below_skipn _ _ _ Vm) Vz) as A.
    rewrite skipn_length in A. destruct (Nat.leb_spec (length z) (length m - o)); [|lia].
    destruct A as (s & c & Es & Ls & Vs & _). rewrite Es. cbn [bind].
    exists (firstn o m ++ s ++ skipn (length m) m), c.
    split; [reflexivity|]. rewrite skipn_all, app_nil_r. split.
    - apply below_app. split; [apply below_firstn; exact Vm|exact Vs].
    - rewrite app_length, firstn_length, Ls. lia. }
  assert (K : forall (m : digits) z, valid t m -> valid t z -> (o + length z <= length m)%nat ->
    ('(s, c) <- with_suffix m o (fun s => add_assign_big D s z) ;; Ret (if c : bool then s ++ [1] else s)) = Ret r ->
    length r = wide B (length m) (num t r)).
  { intros m z Vm Vz L Er. destruct (G m z Vm Vz L) as (s & c & Es & Vs & Ls). rewrite Es in Er. cbn [bind] in Er.
    injection Er as <-. apply (carried s c); auto. destruct c; cbn [Z.b2z]; unfold num; [|lia].
    rewrite value_app. cbn [value]. rewrite Ls. unfold pw. lia. }
  destruct (Nat.leb_spec (length y) (length x - o)) as [H1|H1].
  - rewrite (K x y V W ltac:(lia) E). f_equal. lia.
  - rewrite suffix_ok in E by lia. cbn [bind] in E. rewrite prefix_ok in E by lia. cbn [bind] in E.
    assert (Lm : length (x ++ skipn (length x - o) y) = (o + length y)%nat) by (rewrite app_length, skipn_length; lia).
    rewrite (K _ _ ltac:(apply below_app; split; [exact V|apply below_skipn, W]) (below_firstn _ _ _ W)
              ltac:(rewrite Lm, firstn_length; lia) E). f_equal. lia.
Qed.

(** the result has a leading zero exactly if nothing is added beyond the end *)
Lemma add_at_normal x y o : well_formed t x -> well_formed t y ->
  exists r, add_assign_big_at_offset D x y o = Ret r /\ valid t r
    /\ num t r = num t x + base o * num t y
    /\ (normal r <-> y <> [] \/ (o <= length x)%nat).
Proof.
  intros [V N] [W M]. destruct (add_at_length x y o V W) as (r & E & Vr & Nr & Lr). exists r.
  split; [exact E|]. split; [exact Vr|]. split; [exact Nr|].
  pose proof (radix_gt t) as HB.
  pose proof (num_range t x V) as Rx. pose proof (num_range t y W) as Ry.
  pose proof (base_pos t o) as Bo.
  split.
  - intros Nn. destruct (Nat.leb_spec o (length x)) as [H|H]; [right; exact H|]. left. intros ->.
    unfold add_assign_big_at_offset in E. destruct (Nat.leb_spec (length x) o); [|lia]. injection E as <-.
    rewrite app_nil_r in Nn. destruct (o - length x)%nat as [|k] eqn:Ek; [lia|].
    apply (Nn (x ++ zeros k)). unfold zeros. rewrite <- app_assoc. f_equal.
    replace (S k) with (k + 1)%nat by lia. rewrite repeat_app. reflexivity.
  - intros Hc. set (n := Nat.max (length x) (o + length y)) in *.
    destruct r as [|d r']; [apply normal_nil|]. set (r := d :: r') in *.
    apply (normal_of_value B D (impl_ok dbg t)); [exact Vr|].
    change (base (length r - 1) <= num t r). rewrite Nr, Lr. unfold wide.
    destruct (Z.ltb_spec (num t x + base o * num t y) (base n)) as [Hs|Hs].
    2:{ replace (S n - 1)%nat with n by lia. exact Hs. }
    assert (Hn : (1 <= n)%nat).
    { unfold wide in Lr. rewrite (proj2 (Z.ltb_lt _ _) Hs) in Lr. unfold r in Lr. cbn in Lr. lia. }
    destruct (Nat.le_gt_cases (o + length y) (length x)) as [H|H].
    + replace n with (length x) by lia.
      assert (x <> []) by (intros ->; cbn in H, n; unfold n in Hn; cbn in Hn; lia).
      pose proof (normal_lower B HB x V N ltac:(assumption)) as Lx. unfold pw in Lx. fold (num t x) in Lx.
      assert (0 <= base o * num t y) by (apply Z.mul_nonneg_nonneg; lia). lia.
    + assert (y <> []) as Hy.
      { destruct Hc as [Hc|Hc]; [exact Hc|]. intros ->. cbn in H. lia. }
      pose proof (normal_lower B HB y W M Hy) as Ly. unfold pw in Ly. fold (num t y) in Ly.
      replace n with (o + length y)%nat by lia.
      assert (length y <> 0)%nat by (destruct y; [contradiction|cbn; lia]).
      replace (o + length y - 1)%nat with (o + (length y - 1))%nat by lia.
      rewrite Nat2Z.inj_add, Z.pow_add_r by lia.
      assert (base o * base (length y - 1) <= base o * num t y) by (apply Z.mul_le_mono_nonneg_l; lia). lia.
Qed.
End Offset.
