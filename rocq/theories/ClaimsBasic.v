(** * ClaimsBasic: lemmas in the form of the property statements. *)
From Coq Require Import ZArith List Bool Lia.
From Verif Require Import Base Digit Slice Mul Div UBig Spec Hoare DigitOK ListLemmas SliceProof
  MulProof UBigProof DivProof TypedProof Cases.
Import ListNotations.
Open Scope Z_scope.
Open Scope m_scope.

(** An outcome that panics with cause [c] exactly under condition [C]. *)
Lemma spec_exact {A} (c : panic) (C : Prop) (e : M A) Q :
  spec (fun w => w = c /\ C) e Q -> (forall a, Q a -> ~ C) ->
  (C -> e = Panic c) /\ (~ C -> exists a, e = Ret a /\ Q a).
Proof.
  intros H HQ. destruct e as [a|w|]; cbn in H.
  - split; [intros HC; destruct (HQ a H HC)|eauto].
  - destruct H as [-> HC]. split; [auto|contradiction].
  - contradiction.
Qed.

Lemma new_claim t ds : valid t ds ->
  exists r, ubig_new ds = Ret r /\ well_formed t r /\ num t r = num t ds.
Proof.
  intros H. destruct (total_inv _ _ (new_ok (radix t) ds H)) as (r & E & A1 & A2 & A3).
  exists r. split; [exact E|]. repeat split; auto.
Qed.

Lemma eq_claim t x y : well_formed t x -> well_formed t y ->
  (ubig_eqb x y = true <-> num t x = num t y).
Proof. intros [V1 N1] [V2 N2]. apply (eqb_value _ _ (impl_ok true t)); auto. Qed.

Lemma is_zero_claim t x : well_formed t x -> (ubig_is_zero x = true <-> num t x = 0).
Proof.
  intros [V N]. unfold num. rewrite (value_normal_zero _ (radix_gt t)) by auto.
  destruct x; cbn; split; congruence.
Qed.

Lemma cmp_claim t x y : well_formed t x -> well_formed t y ->
  ubig_cmp x y = (num t x ?= num t y).
Proof. intros [V1 N1] [V2 N2]. apply num_cmp_value; auto using radix_gt. Qed.

Lemma cmp_eq_claim t x y : well_formed t x -> well_formed t y ->
  (ubig_cmp x y = Eq <-> ubig_eqb x y = true).
Proof.
  intros Hx Hy. rewrite (cmp_claim t), (eq_claim t), Z.compare_eq_iff by auto. reflexivity.
Qed.

Lemma from_claim t n : storage t n -> well_formed t (from_T t n) /\ num t (from_T t n) = n.
Proof. intros H. destruct (from_T_ok t n H) as (A1 & A2 & A3). repeat split; auto. Qed.

Lemma add_claim dbg t x y : valid t x -> valid t y ->
  exists r, add_assign (impl dbg t) x y = Ret r /\ valid t r /\ num t r = num t x + num t y
            /\ (normal x -> normal y -> normal r).
Proof. intros Hx Hy. exact (total_inv _ _ (add_assign_ok _ _ (impl_ok dbg t) x y Hx Hy)). Qed.

Lemma add_T_claim dbg t x n : valid t x -> storage t n ->
  exists r, add_assign_T dbg t x n = Ret r /\ valid t r /\ num t r = num t x + n
            /\ (normal x -> normal r).
Proof. intros Hx Hn. exact (total_inv _ _ (add_assign_T_ok dbg t x n Hx Hn)). Qed.

(** [add_assign] as a function on well formed numbers *)
Lemma add_wf dbg t x y : well_formed t x -> well_formed t y ->
  exists r, add_assign (impl dbg t) x y = Ret r /\ well_formed t r /\ num t r = num t x + num t y.
Proof.
  intros [V1 N1] [V2 N2]. destruct (add_claim dbg t x y V1 V2) as (r & E & A1 & A2 & A3).
  exists r. repeat split; auto.
Qed.

Lemma add_comm_claim dbg t x y : well_formed t x -> well_formed t y ->
  exists a b, add_assign (impl dbg t) x y = Ret a /\ add_assign (impl dbg t) y x = Ret b
              /\ ubig_eqb a b = true.
Proof.
  intros Hx Hy. destruct (add_wf dbg t x y Hx Hy) as (a & Ea & Wa & Va).
  destruct (add_wf dbg t y x Hy Hx) as (b & Eb & Wb & Vb).
  exists a, b. repeat split; auto. apply (eq_claim t); auto. lia.
Qed.

Lemma add_assoc_claim dbg t x y z : well_formed t x -> well_formed t y -> well_formed t z ->
  exists xy a yz b, add_assign (impl dbg t) x y = Ret xy /\ add_assign (impl dbg t) xy z = Ret a
     /\ add_assign (impl dbg t) y z = Ret yz /\ add_assign (impl dbg t) x yz = Ret b
     /\ ubig_eqb a b = true.
Proof.
  intros Hx Hy Hz. destruct (add_wf dbg t x y Hx Hy) as (xy & E1 & W1 & V1).
  destruct (add_wf dbg t xy z W1 Hz) as (a & E2 & W2 & V2).
  destruct (add_wf dbg t y z Hy Hz) as (yz & E3 & W3 & V3).
  destruct (add_wf dbg t x yz Hx W3) as (b & E4 & W4 & V4).
  exists xy, a, yz, b. repeat split; auto. apply (eq_claim t); auto. lia.
Qed.

Lemma add_zero_claim dbg t x : well_formed t x ->
  exists a b, add_assign (impl dbg t) x ubig_zero = Ret a /\ add_assign (impl dbg t) ubig_zero x = Ret b
              /\ ubig_eqb a x = true /\ ubig_eqb b x = true.
Proof.
  intros Hx. assert (H0 : well_formed t ubig_zero) by (split; [apply below_nil|apply normal_nil]).
  destruct (add_wf dbg t x _ Hx H0) as (a & E1 & W1 & V1).
  destruct (add_wf dbg t _ x H0 Hx) as (b & E2 & W2 & V2).
  exists a, b. repeat split; auto; apply (eq_claim t); auto; cbn in *; lia.
Qed.

Lemma sub_claim dbg t x y : valid t x -> well_formed t y ->
  (num t x < num t y -> sub_assign (impl dbg t) x y = Panic (PExplicit Underflow))
  /\ (num t y <= num t x -> exists r, sub_assign (impl dbg t) x y = Ret r /\ valid t r
        /\ num t r = num t x - num t y).
Proof.
  intros Vx [Vy Ny].
  destruct (spec_exact _ _ _ _ (sub_assign_ok _ _ (impl_ok dbg t) x y Vx Vy Ny)) as [H1 H2].
  - intros a (A1 & A2 & _). pose proof (value_nonneg _ (radix_gt t) a A1). lia.
  - split; [exact H1|]. intros H. destruct H2 as (r & E & A1 & A2 & _); [unfold num in H; lia|].
    exists r. auto.
Qed.

(** The exact condition under which the difference can come out unnormalised:
    [x] is one digit 1 longer than [y] and the borrow consumes it. *)
Lemma sub_normal_claim dbg t x y r : well_formed t x -> well_formed t y ->
  sub_assign (impl dbg t) x y = Ret r ->
  ~ (num t (skipn (length y) x) = 1 /\ num t r < radix t ^ (Z.of_nat (length y) - 1)) ->
  normal r.
Proof.
  intros [Vx Nx] [Vy Ny] E Hc.
  destruct (spec_returns _ _ _ _ (sub_assign_ok _ _ (impl_ok dbg t) x y Vx Vy Ny) E)
    as (A1 & A2 & _ & A4).
  apply A4; auto. intros [H1 H2]. apply Hc. split; [exact H1|].
  unfold pw in H2. destruct y as [|d y]; cbn [length] in *.
  - exfalso. rewrite Z.pow_0_r in H2. cbn [value] in A2. 
    cbn [skipn] in H1. pose proof (value_nonneg _ (radix_gt t) r A1). lia.
  - replace (Z.of_nat (S (length y)) - 1) with (Z.of_nat (S (length y) - 1)) by lia. exact H2.
Qed.

Lemma sub_T_claim dbg t x n : well_formed t x -> storage t n -> n < radix t ->
  (num t x < n -> sub_assign_T dbg t x n = Panic (PExplicit Underflow))
  /\ (n <= num t x -> exists r, sub_assign_T dbg t x n = Ret r /\ valid t r
        /\ num t r = num t x - n /\ (normal r <-> n < num t x \/ n = 0)).
Proof.
  intros [Vx Nx] Sn Hlt.
  destruct (spec_exact _ _ _ _ (sub_assign_T_ok dbg t x n Vx Sn Hlt)) as [H1 H2].
  - intros a (A1 & A2 & _). pose proof (value_nonneg _ (radix_gt t) a A1). lia.
  - split; [exact H1|]. intros H. destruct H2 as (r & E & A1 & A2 & A3 & A4); [unfold num in H; lia|].
    exists r. repeat split; auto.
    + intros Nr. destruct (Z.eq_dec n 0); [auto|left].
      destruct (Z.eq_dec (value (radix t) r) 0) as [Hz|Hz].
      * rewrite (A4 Nx n0 Hz) in Nr. apply normal_single in Nr. contradiction.
      * unfold num in *. lia.
    + intros [Hc|Hc]; apply A3; auto. left. unfold num in *. lia.
Qed.

Lemma mul_T_claim dbg t x n : valid t x -> storage t n ->
  exists r, mul_assign_T dbg t x n = Ret r /\ valid t r /\ num t r = num t x * n
            /\ (normal x -> normal r).
Proof. intros Hx Hn. exact (total_inv _ _ (mul_assign_T_ok dbg t x n Hx Hn)). Qed.

Lemma divrem_T_claim dbg t x n : valid t x -> storage t n -> n < radix t ->
  (n = 0 -> div_assign_T dbg t x n = Panic (PExplicit DivisionByZero)
            /\ rem_assign_T dbg t x n = Panic (PExplicit DivisionByZero))
  /\ (n <> 0 -> exists q r, div_assign_T dbg t x n = Ret q /\ rem_assign_T dbg t x n = Ret r
        /\ well_formed t q /\ well_formed t r
        /\ num t x = num t q * n + num t r /\ 0 <= num t r < n).
Proof.
  intros Vx Sn Hlt. pose proof (storage_nonneg t n Sn) as H0.
  destruct (spec_exact _ _ _ _ (div_assign_T_ok dbg t x n Vx Sn Hlt)) as [D1 D2]; [tauto|].
  destruct (spec_exact _ _ _ _ (rem_assign_T_ok dbg t x n Vx Sn Hlt)) as [R1 R2]; [tauto|].
  split; [auto|]. intros H. destruct (D2 H) as (q & E1 & _ & A1 & A2 & A3).
  destruct (R2 H) as (r & E2 & _ & B1 & B2 & B3). exists q, r. repeat split; auto.
  - unfold num. rewrite A3, B3. rewrite (Z.div_mod (value (radix t) x) n) at 1 by lia. lia.
  - unfold num. rewrite B3. apply Z.mod_pos_bound. lia.
  - unfold num. rewrite B3. apply Z.mod_pos_bound. lia.
Qed.

Lemma shl_bin_claim dbg t x n : is_binary t = true -> valid t x -> 0 <= n ->
  exists r, shl_assign dbg t x n = Ret r /\ valid t r /\ num t r = num t x * 2 ^ n
            /\ (normal x -> x <> [] \/ n < bits t -> normal r).
Proof. intros Hb Hx Hn. exact (total_inv _ _ (shl_assign_bin_ok dbg t x n Hb Hx Hn)). Qed.

Lemma shr_claim dbg t x n : well_formed t x -> 0 <= n ->
  (if is_binary t then n / bits t <= Z.of_nat (length x)
   else n <= 4 * Z.of_nat (MAX_HEX_PLACES t)) ->
  exists r, shr_assign dbg t x n = Ret r /\ well_formed t r /\ num t r = num t x / 2 ^ n.
Proof.
  intros [Vx Nx] Hn Hc. destruct (is_binary t) eqn:Hb.
  - destruct (total_inv _ _ (shr_assign_bin_ok dbg t x n Hb Vx Nx Hn Hc)) as (r & E & A1 & A2 & A3).
    exists r. repeat split; auto.
  - destruct (total_inv _ _ (shr_assign_dec_ok dbg t x n Hb Vx (conj Hn Hc))) as (r & E & A1 & A2 & A3).
    exists r. repeat split; auto.
Qed.

Lemma shr_panic_claim dbg t x n : 0 <= n ->
  (if is_binary t then Z.of_nat (length x) < n / bits t
   else 4 * Z.of_nat (MAX_HEX_PLACES t) < n) ->
  shr_assign dbg t x n = Panic (if is_binary t then PIndex else PUnimplemented).
Proof.
  intros Hn Hc. destruct (is_binary t) eqn:Hb.
  - apply shr_assign_bin_panic; auto.
  - apply shr_assign_dec_panic; auto.
Qed.

Lemma zero_claim t x : well_formed t x -> (num t x = 0 <-> x = []).
Proof. intros [V N]. exact (value_normal_zero _ (radix_gt t) x V N). Qed.
