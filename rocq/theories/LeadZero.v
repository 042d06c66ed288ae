(** * LeadZero: what shows of leading zeros.

    Equality, order and text of digit vectors that need not be normalised, as
    subtractions leave them. *)
From Coq Require Import ZArith List Bool Lia.
From Verif Require Import Base Digit Slice UBig Text Spec Hoare ListLemmas UBigProof TextProof
  ClaimsBasic ClaimsText TypedProof.
Import ListNotations.
Open Scope Z_scope.
Open Scope m_scope.

Lemma eqb_same x y : ubig_eqb x y = true <-> x = y.
Proof.
  revert y. induction x as [|a x IH]; intros [|b y]; cbn [ubig_eqb]; split; try discriminate; auto.
  - intros H. apply andb_prop in H. destruct H as [H1 H2]. apply Z.eqb_eq in H1. apply IH in H2. congruence.
  - intros [= -> ->]. apply andb_true_intro. split; [apply Z.eqb_refl|apply IH; reflexivity].
Qed.
Lemma lead_eq t x y : valid t x -> valid t y ->
  (ubig_eqb x y = true <-> length x = length y /\ num t x = num t y).
Proof.
  intros V W. rewrite eqb_same. split; [intros ->; auto|]. intros [L E].
  exact (value_inj (radix t) (radix_gt t) x y L V W E).
Qed.
Lemma lead_cmp t x y : valid t x -> valid t y ->
  ubig_cmp x y = match (length x ?= length y)%nat with Eq => num t x ?= num t y | c => c end.
Proof.
  intros V W. unfold ubig_cmp. destruct (Nat.compare_spec (length x) (length y)) as [L|L|L].
  - apply num_cmp_same; auto using radix_gt.
  - unfold num_cmp. apply Nat.compare_lt_iff in L. rewrite L. reflexivity.
  - unfold num_cmp. apply Nat.compare_gt_iff in L. rewrite L. reflexivity.
Qed.
Lemma lead_cmp_eq t x y : valid t x -> valid t y -> (ubig_cmp x y = Eq <-> ubig_eqb x y = true).
Proof.
  intros V W. rewrite (lead_cmp t), (lead_eq t) by assumption.
  destruct (Nat.compare_spec (length x) (length y)) as [L|L|L]; [rewrite Z.compare_eq_iff; tauto| |];
    (split; [discriminate|lia]).
Qed.

(** ** Text *)
Section Text.
Variables (base : Z) (upper : bool) (k : nat).
Hypothesis Hb : good_base base.
Hypothesis Hk : (0 < k)%nat.
Notation B := (base ^ Z.of_nat k).

Lemma concat_length rest : below B rest ->
  length (concat (map (fmt_padded base upper k) rest)) = (k * length rest)%nat.
Proof.
  induction rest as [|d rest IH]; intros H; cbn [map concat length]; [lia|].
  apply below_cons in H. destruct H as [Hd H]. rewrite app_length, (IH H).
  destruct (padded_ok base upper k d Hb Hk Hd) as [-> _]. lia.
Qed.

Lemma lead_text x top : below B x -> 0 <= top < B -> exists s,
  numeral_of base s /\ numeral_value base s = value B (x ++ [top]) /\ cased upper s
  /\ length s = (length (numeral base upper top) + k * length x)%nat
  /\ (exists u, s = numeral base upper top ++ u)
  /\ forall f, fmt_ubig base upper k f (x ++ [top]) = pad_integral f (prefix_of base) s.
Proof.
  intros Hx Ht. assert (Hb0 : 1 < base) by (unfold good_base in Hb; lia).
  destruct (numeral_ok base upper top Hb ltac:(lia)) as ((S1 & S2) & S3 & S4 & S5).
  unfold fmt_ubig. rewrite rev_app_distr. cbn [rev app].
  assert (Hr : below B (rev x)).
  { unfold below in *. rewrite Forall_forall in *. intros y Hy. apply Hx. apply in_rev. exact Hy. }
  pose proof (concat_length (rev x) Hr) as HL. rewrite rev_length in HL.
  destruct (concat_padded base upper k (rev x) Hb Hk Hr) as (A1 & A2 & A3 & A4).
  rewrite rev_involutive, ?rev_length in *.
  exists (numeral base upper top ++ concat (map (fmt_padded base upper k) (rev x))).
  split; [|split; [|split; [|split; [|split]]]].
  - split; [destruct (numeral base upper top); [contradiction|discriminate]|apply Forall_app; auto].
  - rewrite nv_app, S3, A3, A1, value_app. cbn [value]. ring.
  - apply cased_app. auto.
  - rewrite app_length, HL. reflexivity.
  - eexists. reflexivity.
  - intros f. destruct (rev x) as [|r rest] eqn:E; [|reflexivity]. cbn [map concat]. rewrite app_nil_r. reflexivity.
Qed.
End Text.

Lemma snoc_cases (x : digits) : x = [] \/ exists y d, x = y ++ [d].
Proof. destruct x as [|a x] using rev_ind; [left; reflexivity|right; eauto]. Qed.

Lemma lead_hex t upper x : is_binary t = true -> valid t x -> exists s,
  fmt_hex t upper plain x = s /\ fmt_hex t upper alternate x = hex_prefix ++ s
  /\ numeral_of 16 s /\ numeral_value 16 s = num t x /\ (if upper then upper_case s else lower_case s).
Proof.
  intros Hb V. destruct (snoc_cases x) as [->|(y & d & ->)].
  { destruct (hex_claim t upper [] Hb) as (s & H). { split; [exact V|apply normal_nil]. }
    exists s. tauto. }
  destruct (hex_base t Hb) as [E Hk]. unfold valid in V. rewrite <- E in V.
  apply below_app in V. destruct V as [V Vd]. apply below_cons in Vd. destruct Vd as [Vd _].
  destruct (lead_text 16 upper (NR_HEX_PLACES t) (or_intror eq_refl) Hk y d V Vd) as (s & S1 & S2 & S3 & _ & _ & F).
  exists s. unfold fmt_hex. rewrite !F, pad_plain, pad_alternate. rewrite E in S2. conj; auto.
Qed.
Lemma lead_dec t x : is_binary t = false -> valid t x -> exists s,
  fmt_display_dec t plain x = s /\ numeral_of 10 s /\ numeral_value 10 s = num t x.
Proof.
  intros Hb V. destruct (snoc_cases x) as [->|(y & d & ->)].
  { destruct (dec_claim t [] Hb) as (s & H). { split; [exact V|apply normal_nil]. }
    exists s. tauto. }
  destruct (dec_base t Hb) as [E Hk]. unfold valid in V. rewrite <- E in V.
  apply below_app in V. destruct V as [V Vd]. apply below_cons in Vd. destruct Vd as [Vd _].
  destruct (lead_text 10 false (NR_DECIMAL_PLACES t) (or_introl eq_refl) Hk y d V Vd) as (s & S1 & S2 & S3 & _ & _ & F).
  exists s. unfold fmt_display_dec. rewrite !F, pad_plain. rewrite E in S2. conj; auto.
Qed.

(** a leading zero shows: one zero, and all places of the digits below it *)
Lemma lead_hex_zero t upper y : is_binary t = true -> valid t y -> exists u,
  fmt_hex t upper plain (y ++ [0]) = 48 :: u /\ 16 ^ Z.of_nat (length u) = radix t ^ Z.of_nat (length y).
Proof.
  intros Hb V. destruct (hex_base t Hb) as [E Hk]. unfold valid in V. rewrite <- E in V.
  assert (V0 : 0 <= 0 < 16 ^ Z.of_nat (NR_HEX_PLACES t)) by (rewrite E; pose proof (radix_gt t); lia).
  destruct (lead_text 16 upper (NR_HEX_PLACES t) (or_intror eq_refl) Hk y 0 V V0) as (s & _ & _ & _ & L & (u & Eu) & F).
  change (numeral 16 upper 0) with [48] in *. subst s. exists u. unfold fmt_hex. rewrite F, pad_plain.
  split; [reflexivity|]. cbn [app length] in L. rewrite <- E, <- Z.pow_mul_r by lia. f_equal. lia.
Qed.
Lemma lead_dec_zero t y : is_binary t = false -> valid t y -> exists u,
  fmt_display_dec t plain (y ++ [0]) = 48 :: u /\ 10 ^ Z.of_nat (length u) = radix t ^ Z.of_nat (length y).
Proof.
  intros Hb V. destruct (dec_base t Hb) as [E Hk]. unfold valid in V. rewrite <- E in V.
  assert (V0 : 0 <= 0 < 10 ^ Z.of_nat (NR_DECIMAL_PLACES t)) by (rewrite E; pose proof (radix_gt t); lia).
  destruct (lead_text 10 false (NR_DECIMAL_PLACES t) (or_introl eq_refl) Hk y 0 V V0) as (s & _ & _ & _ & L & (u & Eu) & F).
  change (numeral 10 false 0) with [48] in *. subst s. exists u. unfold fmt_display_dec. rewrite F, pad_plain.
  split; [reflexivity|]. cbn [app length] in L. rewrite <- E, <- Z.pow_mul_r by lia. f_equal. lia.
Qed.

(** reading the text back drops the zeros *)
Lemma lead_hex_round dbg t upper x : is_binary t = true -> valid t x -> exists r,
  from_str dbg t (fmt_hex t upper alternate x) = Ret (ROk r) /\ well_formed t r /\ num t r = num t x.
Proof.
  intros Hb V. destruct (lead_hex t upper x Hb V) as (s & _ & -> & N & Vs & _).
  destruct (parse_hex_claim dbg t s N) as (r & -> & W & Vr). exists r. conj; auto. congruence.
Qed.
Lemma lead_dec_round dbg t x : is_binary t = false -> valid t x -> exists r,
  from_str dbg t (fmt_display_dec t plain x) = Ret (ROk r) /\ well_formed t r /\ num t r = num t x.
Proof.
  intros Hb V. destruct (lead_dec t x Hb V) as (s & -> & N & Vs).
  destruct (parse_dec_claim dbg t s N) as (r & -> & W & Vr). exists r. conj; auto. congruence.
Qed.

(** conversion to decimal below sixteen digits drops them too *)
Lemma lead_small dbg t x : is_binary t = true -> valid t x -> (length x < 16)%nat -> exists r,
  to_decimal dbg t x = Ret r /\ well_formed (decimal_of t) r /\ num (decimal_of t) r = num t x.
Proof.
  intros Hb V Hl. destruct (snoc_cases x) as [->|(lo & top & ->)].
  { apply to_decimal_claim; auto. split; [exact V|apply normal_nil]. }
  apply below_app in V. destruct V as [V Vd]. apply below_cons in Vd. destruct Vd as [Vd _].
  assert (L : length (lo ++ [top]) = S (length lo)) by (rewrite app_length; cbn; lia).
  destruct (from_T_ok (decimal_of t) top (storage_dec t Hb top Vd)) as (F1 & F2 & F3).
  pose proof (build_small_ok dbg t Hb lo _ V F1 F2) as HB. apply total_inv in HB.
  destruct HB as (r & E & R1 & R2 & R3). exists r.
  split; [|split; [split; assumption|]].
  - unfold to_decimal. change TO_DEC_DIV_CUTOFF with 16%nat. rewrite (proj2 (Nat.ltb_lt _ _) Hl). cbn [build_decimal].
    change TO_DEC_DIV_CUTOFF with 16%nat. rewrite (proj2 (Nat.ltb_lt _ _) Hl), L. cbn [Nat.eqb].
    replace (S (length lo) - 1)%nat with (length lo) by lia.
    replace (get (lo ++ [top]) (length lo)) with (Ret top)
      by (unfold get; rewrite nth_error_app2, Nat.sub_diag by lia; reflexivity).
    cbn [bind]. rewrite prefix_ok by lia. cbn [bind]. rewrite firstn_exact by reflexivity. exact E.
  - unfold num in *. rewrite R3, F3, value_app. cbn [value]. ring.
Qed.
Lemma lead_display dbg t x : is_binary t = true -> valid t x -> (length x < 16)%nat -> exists s,
  fmt_display_bin dbg t plain x = Ret s /\ numeral_of 10 s /\ numeral_value 10 s = num t x /\ minimal s.
Proof.
  intros Hb Hx Hl. destruct (lead_small dbg t x Hb Hx Hl) as (r & E & W & V).
  unfold fmt_display_bin. rewrite E. cbn [bind].
  destruct (dec_claim (decimal_of t) r (decimal_of_dec t Hb) W) as (s & S1 & S2 & S3 & S4).
  exists s.
  assert (Ed : fmt_display_dec t plain r = fmt_display_dec (decimal_of t) plain r) by (destruct t; reflexivity).
  rewrite Ed, S1. conj; auto. congruence.
Qed.
