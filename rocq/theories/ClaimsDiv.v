(** * ClaimsDiv: division of big numbers in the form of the properties. *)
From Coq Require Import ZArith List Bool Lia.
From Verif Require Import Base Digit Slice Mul Div UBig Spec SpecDiv Hoare DigitOK ListLemmas
  SliceProof MulProof UBigProof DivProof DivWide DivPairProof DivLongProof DivTopProof TypedProof
  Cases ClaimsBasic Gives.
Import ListNotations.
Open Scope Z_scope.
Open Scope m_scope.

Lemma euclid_intro x y : 0 < y -> euclid x y (x / y) (x mod y).
Proof.
  intros H. split; [pose proof (div_mod_eq x y H); lia|apply Z.mod_pos_bound; exact H].
Qed.

Lemma radix_pw2 t : is_binary t = true -> exists w, 0 <= w /\ radix t = 2 ^ w.
Proof. destruct t; intros H; try discriminate H; [exists 8|exists 16|exists 32|exists 64]; split; lia || reflexivity. Qed.

Lemma leading_top t y : valid t y -> (1 <= length y)%nat ->
  leading t (length y) (num t y) = nth (length y - 1) y 0.
Proof.
  intros V L. unfold leading, num. fold (pw (radix t) (length y - 1)).
  rewrite (value_div (radix t) (impl true t) (impl_ok true t)) by (auto; lia).
  rewrite (split_last y (length y - 1)) at 2 by lia. rewrite skipn_exact by len. cbn [value]. lia.
Qed.

(** the condition of the specification gives that of the proofs *)
Lemma divides_guard t x y : valid t x -> well_formed t y -> divides t x y ->
  long_guard (radix t) (slack t) x y.
Proof.
  intros Vx [Vy Ny] H. unfold long_guard. intros Hl s Hs.
  pose proof (SliceProof.HB _ _ (impl_ok true t)) as HB.
  pose proof (top_pos (radix t) y Vy Ny ltac:(lia)) as Ht.
  pose proof (leading_top t y Vy ltac:(lia)) as EL. unfold divides in H.
  destruct (is_binary t) eqn:Eb.
  - split.
    + destruct (radix_pw2 t Eb) as (w & Hw & Ew).
      apply (binary_scales (radix t) HB w _ (nth (length y - 1) y 0)); auto; try lia.
      rewrite (split_last y (length y - 1)) at 1 by lia. rewrite value_app.
      rewrite firstn_length_le by lia. cbn [value].
      pose proof (value_bound (radix t) HB _ (below_firstn (radix t) (length y - 1) y Vy)) as Hb.
      rewrite firstn_length_le in Hb by lia. lia.
    + right. intros i Hi.
      assert (Py : 0 < value (radix t) y * 2 ^ s).
      { destruct Hs as [Hs _]. apply Z.mul_pos_pos; [|apply Z.pow_pos_nonneg; lia].
        apply (val_pos (radix t) (impl true t) (impl_ok true t)); auto. intros ->. cbn in Hl. lia. }
      pose proof (Z.mod_pos_bound (value (radix t) x * 2 ^ s / pw (radix t) i) _ Py) as Hm.
      pose proof (pw_pos (radix t) (length y - 1) HB).
      assert (Hle : (value (radix t) x * 2 ^ s / pw (radix t) i) mod (value (radix t) y * 2 ^ s)
                / pw (radix t) (length y - 1)
              <= value (radix t) y * 2 ^ s / pw (radix t) (length y - 1)) by (apply Z.div_le_mono; lia).
      apply Z.le_neq. split; [exact Hle|]. intros E. apply H. exists s, i. conj.
      * unfold scaling. rewrite EL. exact Hs.
      * lia.
      * lia.
      * exact E.
  - split; [|left; unfold slack; rewrite Eb; reflexivity].
    apply H; [exact (proj1 Hs)|]. rewrite EL. exact (proj1 (proj2 Hs)).
Qed.

(** what a correct division does, as a method and as an operator *)
Definition divided dbg t (x y : digits) : Prop := exists q r,
  div_assign_big (impl dbg t) x y = Ret (q, ROk r)
  /\ rem_assign_big (impl dbg t) x y = Ret (r, ROk tt)
  /\ div_assign (impl dbg t) x y = Ret q /\ rem_assign (impl dbg t) x y = Ret r
  /\ well_formed t q /\ well_formed t r /\ euclid (num t x) (num t y) (num t q) (num t r).

Lemma divided_intro dbg t x y q r r' : div_assign_big (impl dbg t) x y = Ret (q, ROk r) ->
  rem_assign_big (impl dbg t) x y = Ret (r', ROk tt) ->
  well_formed t q -> well_formed t r -> well_formed t r' -> 0 < num t y ->
  num t q = num t x / num t y -> num t r = num t x mod num t y -> num t r' = num t x mod num t y ->
  divided dbg t x y.
Proof.
  intros E1 E2 Wq [Dr Nr] [Dr' Nr'] Hy Vq Vr Vr'.
  assert (r' = r) as ->.
  { pose proof (SliceProof.HB _ _ (impl_ok dbg t)) as HB.
    apply (normal_inj (radix t) HB); auto. unfold num in *. congruence. }
  exists q, r. unfold div_assign, rem_assign. rewrite E1, E2.
  cbn [bind or_panic]. rewrite Vq, Vr. conj; auto; [split; auto|apply euclid_intro; exact Hy].
Qed.

Lemma num_pos t y : well_formed t y -> y <> [] -> 0 < num t y.
Proof.
  intros [V N] H. apply (val_pos (radix t) (impl true t) (impl_ok true t)); auto.
Qed.

(** the dividend may have leading zeros, unless it is returned as the remainder *)
Lemma div_short_pad dbg t x y : valid t x -> (num_lt x y = true -> normal x) -> well_formed t y -> y <> [] ->
  (length y < 20)%nat -> (length y = 1%nat \/ divides t x y) -> divided dbg t x y.
Proof.
  intros Vx Nx Wy Hy Hl H. pose proof (num_pos t y Wy Hy) as Py.
  assert (HG : long_guard (radix t) (slack t) x y).
  { destruct H as [H|H]; [intros Hl2; lia|apply divides_guard; assumption]. }
  destruct Wy as [Vy Ny].
  pose proof (div_assign_big_short_ok _ _ (slack t) (impl_ok dbg t) (impl_div dbg t) x y Vx Vy Nx Ny
    Hy Hl HG) as H1.
  pose proof (rem_assign_big_short_ok _ _ (slack t) (impl_ok dbg t) (impl_div dbg t) x y Vx Vy Nx Ny
    Hy Hl HG) as H2.
  apply total_inv in H1, H2.
  destruct H1 as ([q res] & E1 & r & -> & Q1 & Q2 & Q3 & Q4 & Q5 & Q6).
  destruct H2 as ([r' res] & E2 & -> & R1 & R2 & R3).
  eapply divided_intro; eauto; split; auto.
Qed.

Lemma div_short_claim dbg t x y : well_formed t x -> well_formed t y -> y <> [] ->
  (length y < 20)%nat -> (length y = 1%nat \/ divides t x y) -> divided dbg t x y.
Proof. intros [Vx Nx]. apply div_short_pad; auto. Qed.

Lemma div_smaller_claim dbg t x y : well_formed t x -> well_formed t y -> num t x < num t y ->
  divided dbg t x y /\ div_assign (impl dbg t) x y = Ret [] /\ rem_assign (impl dbg t) x y = Ret x.
Proof.
  intros Wx Wy H. destruct Wx as [Vx Nx], Wy as [Vy Ny].
  destruct (div_smaller_ok _ _ (impl_ok dbg t) x y Vx Vy Nx Ny H) as [E1 E2].
  pose proof (SliceProof.HB _ _ (impl_ok dbg t)) as HB.
  pose proof (value_nonneg (radix t) HB x Vx) as Hx. unfold num in *.
  split; [|unfold div_assign, rem_assign; rewrite E1, E2; split; reflexivity].
  eapply divided_intro; eauto; try (split; auto; fail); unfold num.
  - split; [apply below_nil|apply normal_nil].
  - lia.
  - cbn [value]. rewrite Z.div_small; lia.
  - rewrite Z.mod_small; lia.
  - rewrite Z.mod_small; lia.
Qed.

(** ** Two-digit decimal divisors given as a machine integer *)
Lemma div_pair_claim dbg t x n : valid t x -> storage t n -> radix t <= n -> scales t 2 n ->
  exists q r, div_assign_T dbg t x n = Ret q /\ rem_assign_T dbg t x n = Ret r
    /\ well_formed t q /\ well_formed t r /\ euclid (num t x) n (num t q) (num t r).
Proof.
  intros Vx Sn Hn HS. pose proof (SliceProof.HB _ _ (impl_ok dbg t)) as HB.
  assert (Eb : is_binary t = false).
  { destruct t; try reflexivity; unfold storage, radix in *; lia. }
  unfold div_assign_T, rem_assign_T. rewrite Eb.
  assert (Hf : fits_single t n = false).
  { unfold fits_single. apply Z.ltb_ge. rewrite radix_dec by assumption. exact Hn. }
  rewrite Hf. unfold split_dec. rewrite radix_dec by assumption.
  set (h := n / radix t) in *. set (l := n mod radix t) in *.
  assert (Hl : 0 <= l < radix t) by (apply Z.mod_pos_bound; lia).
  assert (En : l + radix t * h = n) by (pose proof (div_mod_eq n (radix t) ltac:(lia)); unfold l, h; lia).
  assert (Hh : 0 < h < radix t).
  { split; [apply Z.div_str_pos; lia|]. apply Z.div_lt_upper_bound; [lia|].
    destruct t; try discriminate Eb; unfold storage, radix in *; lia. }
  unfold ubig_div_assign_digit_pair.
  pose proof (div_assign_digit_pair_ok _ _ (slack t) (impl_ok dbg t) (impl_div dbg t) x l h Vx Hl Hh)
    as H. cbv zeta in H. rewrite En in H.
  apply total_inv in H.
  2:{ intros s Hs. split; [|left; unfold slack; rewrite Eb; reflexivity].
      apply HS; [exact (proj1 Hs)|]. unfold leading.
      change (Z.of_nat (2 - 1)) with 1. rewrite Z.pow_1_r. exact (proj1 (proj2 Hs)). }
  destruct H as ([q res] & E & Lq & Dq & Vq & m & rl & rh & -> & Hrl & Hrh & Er & Hm & Vm & Nm).
  rewrite E. cbn [bind]. rewrite (trunc_if m) by lia. cbn [bind or_panic].
  eexists. eexists. split; [reflexivity|]. split; [reflexivity|].
  assert (Py : 0 < n) by lia.
  assert (Vq' : num t (firstn m q) = num t x / n) by (unfold num; congruence).
  assert (Wr : well_formed t (if negb (rh =? 0) then [rl; rh] else if negb (rl =? 0) then [rl] else [])
           /\ num t (if negb (rh =? 0) then [rl; rh] else if negb (rl =? 0) then [rl] else [])
              = num t x mod n).
  { unfold num. rewrite <- Er.
    destruct (Z.eqb_spec rh 0) as [->|H1]; [destruct (Z.eqb_spec rl 0) as [->|H2]|]; cbn [negb].
    - split; [split; [apply below_nil|apply normal_nil]|cbn [value]; lia].
    - split; [split; [apply below_cons; split; [lia|apply below_nil]|apply normal_single; assumption]
             |cbn [value]; lia].
    - split; [split|cbn [value]; lia].
      + apply below_cons; split; [lia|]. apply below_cons; split; [lia|apply below_nil].
      + apply (normal_snoc [rl] rh). assumption. }
  destruct Wr as [Wr Vr]. rewrite Vr, Vq'. conj; auto.
  - split; [apply below_firstn; exact Dq|exact Nm].
  - apply euclid_intro; exact Py.
Qed.

(** ** Division by zero *)
Lemma div_zero_claim dbg t x :
  div_assign_big (impl dbg t) x [] = Ret (zeros (length x + 1), RErr DivisionByZero)
  /\ rem_assign_big (impl dbg t) x [] = Ret (x, RErr DivisionByZero)
  /\ div_assign (impl dbg t) x [] = Panic (PExplicit DivisionByZero)
  /\ rem_assign (impl dbg t) x [] = Panic (PExplicit DivisionByZero).
Proof.
  assert (E1 : div_assign_big (impl dbg t) x [] = Ret (zeros (length x + 1), RErr DivisionByZero)).
  { unfold div_assign_big. cbn [length]. change (length x <? 0)%nat with false. cbv iota.
    rewrite div_big_zero. cbn [bind]. rewrite Nat.sub_0_r. reflexivity. }
  assert (E2 : rem_assign_big (impl dbg t) x [] = Ret (x, RErr DivisionByZero)).
  { unfold rem_assign_big. cbn [length]. change (0 <=? length x)%nat with true. cbv iota.
    rewrite div_big_zero. reflexivity. }
  unfold div_assign, rem_assign. rewrite E1, E2. conj; eauto.
Qed.

Lemma last_normal y : normal y -> y <> [] -> last y 0 <> 0.
Proof.
  intros N H. destruct (cut_last y) as (a & x & -> & _); [destruct y; [contradiction|cbn; lia]|].
  rewrite last_last. apply normal_snoc in N. exact N.
Qed.

Lemma div_error_claim dbg t x y s e : normal y ->
  div_assign_big (impl dbg t) x y = Ret (s, RErr e) -> e = DivisionByZero /\ y = [].
Proof.
  intros N E. destruct y as [|d y].
  - destruct (div_zero_claim dbg t x) as [E' _]. rewrite E' in E. injection E as _ <-. auto.
  - pose proof (div_assign_big_no_error (impl dbg t) x (d :: y) ltac:(discriminate)
      (last_normal _ N ltac:(discriminate)) _ E) as (v & H). discriminate H.
Qed.
Lemma rem_error_claim dbg t x y s e : normal y ->
  rem_assign_big (impl dbg t) x y = Ret (s, RErr e) -> e = DivisionByZero /\ y = [] /\ s = x.
Proof.
  intros N E. destruct y as [|d y].
  - destruct (div_zero_claim dbg t x) as (_ & E' & _). rewrite E' in E. injection E as <- <-. auto.
  - pose proof (rem_assign_big_no_error (impl dbg t) x (d :: y) ltac:(discriminate)
      (last_normal _ N ltac:(discriminate)) _ E) as H. discriminate H.
Qed.

(** ** Checking the conditions on concrete numbers *)
Lemma scaling_unique t n v s s' : 0 < leading t n v -> scaling t n v s -> scaling t n v s' -> s = s'.
Proof.
  intros Hl (H0 & H1 & H2) (H0' & H1' & H2').
  assert (A : forall a b, 0 <= a -> 0 <= b -> leading t n v * 2 ^ a < leading t n v * 2 ^ (b + 1) -> a <= b).
  { intros a b Ha Hb H. apply Z.mul_lt_mono_pos_l in H; [|exact Hl].
    apply Z.pow_lt_mono_r_iff in H; lia. }
  pose proof (A s s' H0 H0' ltac:(lia)). pose proof (A s' s H0' H0 ltac:(lia)). lia.
Qed.

Lemma scales_check t n v s0 : 0 < leading t n v -> scaling t n v s0 -> 0 <= v ->
  v * 2 ^ s0 < radix t ^ Z.of_nat n -> scales t n v.
Proof.
  intros Hl (H0 & H1 & H2) Hv H s Hs Hlt.
  assert (s <= s0).
  { assert (leading t n v * 2 ^ s < leading t n v * 2 ^ (s0 + 1)) by lia.
    apply Z.mul_lt_mono_pos_l in H3; [|exact Hl]. apply Z.pow_lt_mono_r_iff in H3; lia. }
  assert (2 ^ s <= 2 ^ s0) by (apply Z.pow_le_mono_r; lia).
  assert (v * 2 ^ s <= v * 2 ^ s0) by (apply Z.mul_le_mono_nonneg_l; lia). lia.
Qed.

Lemma tie_check t x y s0 : 0 < leading t (length y) (num t y) ->
  scaling t (length y) (num t y) s0 ->
  Forall (fun i => leading t (length y) ((num t x * 2 ^ s0 / radix t ^ Z.of_nat i) mod (num t y * 2 ^ s0))
          <> leading t (length y) (num t y * 2 ^ s0)) (seq 1 (length x - length y)) -> ~ tie t x y.
Proof.
  intros Hl Hs HF (s & i & Hs' & Hi & E).
  pose proof (scaling_unique _ _ _ _ _ Hl Hs Hs') as ->.
  rewrite Forall_forall in HF. apply (HF i); [|exact E]. apply in_seq. lia.
Qed.

Lemma div_binary_claim dbg t x y : is_binary t = true -> well_formed t x -> well_formed t y ->
  y <> [] -> (length y < 20)%nat -> (length y = 1%nat \/ ~ tie t x y) -> divided dbg t x y.
Proof.
  intros Hb Wx Wy Hy Hl H. apply div_short_claim; auto. unfold divides. rewrite Hb. exact H.
Qed.
Lemma div_decimal_claim dbg t x y : is_binary t = false -> well_formed t x -> well_formed t y ->
  y <> [] -> (length y < 20)%nat -> (length y = 1%nat \/ scales t (length y) (num t y)) ->
  divided dbg t x y.
Proof.
  intros Hb Wx Wy Hy Hl H. apply div_short_claim; auto. unfold divides. rewrite Hb. exact H.
Qed.

(** [fact] (Cases.v) for statements that use the definitions of SpecDiv.v *)
Ltac dfact := unfold scaling, euclid; fact.
