(** * FibProof: the Fibonacci benchmark computes Fibonacci numbers. *)
From Coq Require Import ZArith List Bool Lia.
From Verif Require Import Base Digit Slice Mul Div UBig Forms Bench Spec SpecFib Hoare DigitOK
  ListLemmas SliceProof Cases ClaimsBasic ClaimsMul.
From Verif Require ClaimsToom.
Import ListNotations.
Open Scope Z_scope.
Open Scope m_scope.

(** ** Fibonacci identities *)
Lemma fib_SS n : fib (S (S n)) = fib n + fib (S n).
Proof. reflexivity. Qed.

Lemma fib_nonneg n : 0 <= fib n /\ 0 < fib (S n).
Proof.
  induction n as [|n [IH1 IH2]]; [cbn; lia|]. rewrite fib_SS. lia.
Qed.

Definition sgn (n : nat) : Z := if Nat.even n then 1 else -1.
Lemma sgn_S n : sgn (S n) = - sgn n.
Proof. unfold sgn. rewrite Nat.even_succ, <- Nat.negb_even. destruct (Nat.even n); reflexivity. Qed.

Lemma cassini n : fib (S n) * fib (S n) - fib n * fib (S n) - fib n * fib n = sgn n.
Proof.
  induction n as [|n IH]; [reflexivity|]. rewrite sgn_S, <- IH, fib_SS. ring.
Qed.

Lemma fib_double n : fib (2 * n) = fib n * (2 * fib (S n) - fib n)
  /\ fib (S (2 * n)) = fib n * fib n + fib (S n) * fib (S n).
Proof.
  induction n as [|n [IH1 IH2]]; [split; reflexivity|].
  replace (2 * S n)%nat with (S (S (2 * n))) by lia.
  rewrite (fib_SS (S (2 * n))), (fib_SS (2 * n)), IH1, IH2, fib_SS. split; ring.
Qed.

Lemma fib_mono n : fib n <= fib (S n).
Proof. destruct n as [|n]; [cbn; lia|]. rewrite fib_SS. pose proof (fib_nonneg n). lia. Qed.

(** the four cases of the program *)
Lemma fib_even n : let a := fib n in let b := fib (S n) in
  a * (2 * b - a) = fib (2 * n) /\ b * (2 * b - a) = fib (S (2 * n)) + sgn n.
Proof.
  cbv zeta. destruct (fib_double n) as [-> ->]. rewrite <- cassini. split; ring.
Qed.
Lemma fib_odd n : let a := fib n in let b := fib (S n) in
  a * (2 * a + b) = fib (S (2 * n)) - sgn n /\ b * (2 * a + b) = fib (S (S (2 * n))).
Proof.
  cbv zeta. rewrite fib_SS. destruct (fib_double n) as [-> ->]. rewrite <- cassini. split; ring.
Qed.

Lemma sgn_even n : sgn (2 * n) = 1.
Proof. unfold sgn. rewrite Nat.even_mul. reflexivity. Qed.
Lemma sgn_odd n : sgn (S (2 * n)) = -1.
Proof. rewrite sgn_S, sgn_even. reflexivity. Qed.

Lemma fib_le n m : (n <= m)%nat -> fib n <= fib m.
Proof. induction 1 as [|m _ IH]; [lia|]. pose proof (fib_mono m). lia. Qed.

Section Fib.
Variable dbg : bool.
Variable t : dty.
Notation D := (impl dbg t).
Notation B := (radix t).

Definition multiplication_panic (w : panic) : Prop := w = PUnwrap Underflow.

Lemma small_length x : well_formed t x -> num t x < B ^ 19 -> (length x < 20)%nat.
Proof.
  intros [V N] H. pose proof (SliceProof.HB _ _ (impl_ok dbg t)) as HB.
  destruct (Nat.lt_ge_cases (length x) 20) as [|L]; [assumption|exfalso].
  destruct x as [|d x]; [cbn in L; lia|].
  pose proof (normal_lower B HB (d :: x) V N ltac:(discriminate)) as Hl.
  assert (B ^ 19 <= pw B (length (d :: x) - 1)).
  { unfold pw. apply Z.pow_le_mono_r; lia. }
  unfold num in H. eapply Z.lt_irrefl, Z.lt_le_trans; [exact H|]. eapply Z.le_trans; [eassumption|exact Hl].
Qed.

Lemma mul_step x y : valid t x -> valid t y ->
  forall z, z = x \/ z = y -> well_formed t z ->
  spec (fun w => multiplication_panic w /\ B ^ 19 <= num t z) (mul_vr D x y)
    (fun r => well_formed t r /\ num t r = num t x * num t y).
Proof.
  intros Vx Vy z Hz Wz. unfold mul_vr, mul_rr. change (mul_big D x y) with (mul_assign D x y).
  destruct (Z.le_gt_cases (B ^ 19) (num t z)) as [Hbig|Hs].
  - destruct (ClaimsToom.mul_either_claim dbg t x y Vx Vy) as [(r & -> & H)| ->].
    + exact H.
    + exact (conj eq_refl Hbig).
  - pose proof (small_length z Wz Hs) as L.
    destruct (mul_short_claim dbg t x y Vx Vy) as (r & -> & H); [destruct Hz; subst; auto|]. exact H.
Qed.

Lemma add_step x y : valid t x -> valid t y ->
  total (add_vr D x y) (fun r => valid t r /\ num t r = num t x + num t y /\ (normal x -> normal y -> normal r)).
Proof.
  intros Vx Vy. destruct (add_claim dbg t x y Vx Vy) as (r & E & H). unfold add_vr. rewrite E. exact H.
Qed.
Lemma one_ok : well_formed t ubig_one /\ num t ubig_one = 1.
Proof. split; [destruct t; fact|destruct t; reflexivity]. Qed.

Lemma sub_step x y : valid t x -> well_formed t y -> num t y <= num t x ->
  total (sub_vr D x y) (fun r => valid t r /\ num t r = num t x - num t y).
Proof.
  intros Vx Wy H. destruct (proj2 (sub_claim dbg t x y Vx Wy) H) as (r & E & H1). unfold sub_vr.
  rewrite E. exact H1.
Qed.
Lemma sub_one_step x : well_formed t x -> 1 <= num t x ->
  total (sub_vr D x ubig_one) (fun r => well_formed t r /\ num t r = num t x - 1).
Proof.
  intros Wx H. destruct one_ok as [W1 E1].
  destruct (proj2 (sub_claim dbg t x _ (proj1 Wx) W1) ltac:(lia)) as (r & E & V & En).
  unfold sub_vr. rewrite E. cbn. rewrite En, E1. split; [|reflexivity]. split; [exact V|].
  pose proof (SliceProof.HB _ _ (impl_ok dbg t)) as HB.
  apply (sub_normal_claim dbg t x ubig_one r Wx W1 E). intros [H1 H2].
  change (Z.of_nat (length ubig_one) - 1) with 0 in H2. rewrite Z.pow_0_r, En, E1 in H2.
  assert (Hx : num t x = 1) by lia.
  change (length ubig_one) with 1%nat in H1.
  destruct x as [|d x]; [discriminate H1|]. cbn [skipn] in H1. unfold num in *. cbn [value] in Hx.
  assert (0 <= d < B) by (destruct Wx as [V' _]; apply below_cons in V'; apply V'). lia.
Qed.
Lemma shl_step x : valid t x ->
  total (shl_r dbg t x 1) (fun r => valid t r /\ num t r = num t x * 2).
Proof.
  intros Vx. unfold shl_r, shl_v. destruct (is_binary t) eqn:Eb.
  - destruct (shl_bin_claim dbg t x 1 Eb Vx ltac:(lia)) as (r & -> & V & E & _). split; assumption.
  - destruct (shl_dec_total_claim dbg t x 1 Eb Vx ltac:(lia)) as (r & -> & V & E & _).
    + destruct t; try discriminate Eb; reflexivity.
    + left. destruct t; try discriminate Eb; reflexivity.
    + split; assumption.
Qed.

Definition fib_panic (k : Z) (w : panic) : Prop :=
  multiplication_panic w /\ B ^ 19 <= fib (S (Z.to_nat k)).

Lemma fib_panic_le k k' w : 0 <= k <= k' -> fib_panic k w -> fib_panic k' w.
Proof.
  intros H [H1 H2]. split; [exact H1|].
  eapply Z.le_trans; [exact H2|apply fib_le; clear H2; lia].
Qed.

Lemma work_ok fuel k : 0 <= k -> k < 2 ^ (Z.of_nat fuel - 1) -> (0 < fuel)%nat ->
  spec (fib_panic (k / 2)) (fibonacci_work dbg t fuel k) (fun '(a, b) =>
    well_formed t a /\ well_formed t b /\ num t a = fib (Z.to_nat k) /\ num t b = fib (S (Z.to_nat k))).
Proof.
  revert k. induction fuel as [|fuel IH]; intros k Hk Hf Hpos; [lia|]. cbn [fibonacci_work].
  destruct one_ok as [W1 N1].
  destruct (Z.eqb_spec k 0) as [->|Hne].
  { cbn. split; [split; [apply below_nil|apply normal_nil]|]. split; [exact W1|]. split; [reflexivity|exact N1]. }
  set (m := k / 2). assert (Hd := div_mod_eq k 2 ltac:(lia)). fold m in Hd.
  assert (Hb := Z.mod_pos_bound k 2 ltac:(lia)).
  assert (Hm : 0 <= m < k) by (unfold m; split; [apply Z.div_pos; lia|apply Z.div_lt; lia]).
  assert (Hfm : m < 2 ^ (Z.of_nat fuel - 1) /\ (0 < fuel)%nat).
  { destruct fuel as [|f]; [change (2 ^ (Z.of_nat 1 - 1)) with 1 in Hf; lia|]. split; [|lia].
    replace (Z.of_nat (S (S f)) - 1) with (Z.of_nat (S f) - 1 + 1) in Hf by lia.
    rewrite Z.pow_add_r in Hf by lia. lia. }
  eapply spec_bind.
  { eapply spec_weaken; [apply (IH m); lia|intros w Hw; apply (fib_panic_le (m / 2)); [|exact Hw]|].
    - split; [apply Z.div_pos; lia|]. apply Z.div_le_upper_bound; lia.
    - intros x H. exact H. }
  intros [a b] (Wa & Wb & Na & Nb).
  set (n := Z.to_nat m) in *.
  pose proof (fib_even n) as [FE1 FE2]. pose proof (fib_odd n) as [FO1 FO2].
  pose proof (fib_nonneg n) as [F0 F1]. pose proof (fib_mono n) as Fm.
  assert (Wmul : forall x y z, valid t x -> valid t y -> z = x \/ z = y -> well_formed t z -> num t z <= fib (S n) ->
    spec (fib_panic m) (mul_vr D x y) (fun r => well_formed t r /\ num t r = num t x * num t y)).
  { intros x y z Vx Vy Hz Wz Hle. eapply spec_weaken; [apply (mul_step x y Vx Vy z Hz Wz)| |].
    - intros w [H1 H2]. split; [exact H1|]. fold n. exact (Z.le_trans _ _ _ H2 Hle).
    - intros r H. exact H. }
  assert (TS : forall A (e : M A) Q, total e Q -> spec (fib_panic m) e Q).
  { intros A e Q H. eapply spec_weaken; [exact H|intros w []|intros x Hx; exact Hx]. }
  assert (E4 : k mod 4 = k mod 2 + 2 * (m mod 2)).
  { unfold m. change 4 with (2 * 2). rewrite (Z.rem_mul_r k 2 2) by lia. reflexivity. }
  assert (Hb2 := Z.mod_pos_bound m 2 ltac:(lia)).
  assert (Hd2 := div_mod_eq m 2 ltac:(lia)).
  assert (Hp : m / 2 >= 0) by (apply Z.le_ge, Z.div_pos; lia).
  assert (Sg : sgn n = if m mod 2 =? 0 then 1 else -1).
  { destruct (Z.eqb_spec (m mod 2) 0) as [E|E].
    - replace n with (2 * Z.to_nat (m / 2))%nat by (unfold n; lia). apply sgn_even.
    - replace n with (S (2 * Z.to_nat (m / 2)))%nat by (unfold n; lia). apply sgn_odd. }
  destruct (Z.eqb_spec (k mod 2) 0) as [Ek|Ek].
  - assert (EK : Z.to_nat k = (2 * n)%nat) by (unfold n; lia). rewrite EK.
    pose proof (fib_nonneg (2 * n)) as [G0 G1].
    eapply spec_bind; [apply TS, (shl_step b); apply Wb|]. intros b2 [Vb2 Nb2].
    eapply spec_bind; [apply TS, (sub_step b2 a); [exact Vb2|exact Wa|lia]|]. intros d [Vd Nd].
    assert (Ed : num t d = 2 * fib (S n) - fib n) by lia.
    destruct (Z.eqb_spec (k mod 4) 0) as [E0|E0].
    + eapply spec_bind; [apply (Wmul a d a); auto; [apply Wa|lia]|]. intros x [Wx Nx].
      eapply spec_bind; [apply (Wmul b d b); auto; [apply Wb|lia]|]. intros y [Wy Ny].
      rewrite Na, Ed, FE1 in Nx. rewrite Nb, Ed, FE2, Sg in Ny.
      destruct (Z.eqb_spec (m mod 2) 0) as [_|]; [|lia].
      eapply spec_bind; [apply TS, (sub_one_step y Wy); lia|]. intros y' [Wy' Ny'].
      ret. repeat (split; [assumption|]). lia.
    + eapply spec_bind; [apply (Wmul a d a); auto; [apply Wa|lia]|]. intros x [Wx Nx].
      eapply spec_bind; [apply (Wmul b d b); auto; [apply Wb|lia]|]. intros y [Wy Ny].
      rewrite Na, Ed, FE1 in Nx. rewrite Nb, Ed, FE2, Sg in Ny.
      destruct (Z.eqb_spec (m mod 2) 0) as [|_]; [lia|].
      eapply spec_bind; [apply TS, (add_step y ubig_one); [apply Wy|apply W1]|]. intros y' (Vy' & Ny' & Hy').
      ret. split; [assumption|]. split; [split; [assumption|apply Hy'; [apply Wy|apply W1]]|]. split; [assumption|]. lia.
  - assert (EK : Z.to_nat k = S (2 * n)) by (unfold n; lia). rewrite EK.
    pose proof (fib_nonneg (2 * n)) as [G0 G1].
    eapply spec_bind; [apply TS, (shl_step a); apply Wa|]. intros a2 [Va2 Na2].
    eapply spec_bind; [apply TS, (add_step a2 b); [exact Va2|apply Wb]|]. intros d (Vd & Nd & _).
    assert (Ed : num t d = 2 * fib n + fib (S n)) by lia.
    destruct (Z.eqb_spec (k mod 4) 1) as [E0|E0].
    + eapply spec_bind; [apply (Wmul a d a); auto; [apply Wa|lia]|]. intros x [Wx Nx].
      rewrite Na, Ed, FO1, Sg in Nx. destruct (Z.eqb_spec (m mod 2) 0) as [_|]; [|lia].
      eapply spec_bind; [apply TS, (add_step x ubig_one); [apply Wx|apply W1]|]. intros x' (Vx' & Nx' & Hx').
      eapply spec_bind; [apply (Wmul b d b); auto; [apply Wb|lia]|]. intros y [Wy Ny].
      rewrite Nb, Ed, FO2 in Ny.
      ret. split; [split; [assumption|apply Hx'; [apply Wx|apply W1]]|]. split; [assumption|]. split; [lia|exact Ny].
    + eapply spec_bind; [apply (Wmul a d a); auto; [apply Wa|lia]|]. intros x [Wx Nx].
      rewrite Na, Ed, FO1, Sg in Nx. destruct (Z.eqb_spec (m mod 2) 0) as [|_]; [lia|].
      eapply spec_bind; [apply TS, (sub_one_step x Wx); lia|]. intros x' [Wx' Nx'].
      eapply spec_bind; [apply (Wmul b d b); auto; [apply Wb|lia]|]. intros y [Wy Ny].
      rewrite Nb, Ed, FO2 in Ny.
      ret. split; [assumption|]. split; [assumption|]. split; [lia|exact Ny].
Qed.

Lemma fibonacci_ok k : 0 <= k < 2 ^ 32 ->
  spec (fib_panic ((k - 1) / 2)) (fibonacci dbg t k)
    (fun r => well_formed t r /\ num t r = fib (Z.to_nat k)).
Proof.
  intros Hk. unfold fibonacci. destruct one_ok as [W1 N1].
  destruct (Z.eqb_spec k 0) as [->|H0].
  { ret. split; [split; [apply below_nil|apply normal_nil]|reflexivity]. }
  destruct (Z.eqb_spec k 1) as [->|H1].
  { ret. split; [exact W1|exact N1]. }
  set (m := (k - 1) / 2). assert (Hd := div_mod_eq (k - 1) 2 ltac:(lia)). fold m in Hd.
  assert (Hb := Z.mod_pos_bound (k - 1) 2 ltac:(lia)).
  assert (Hm : 0 <= m) by (unfold m; apply Z.div_pos; lia).
  eapply spec_bind.
  { eapply spec_weaken; [apply (work_ok fibonacci_depth m); [lia|change (m < 2 ^ 32); lia|unfold fibonacci_depth; lia]
      |intros w Hw; apply (fib_panic_le (m / 2)); [|exact Hw]|].
    - split; [apply Z.div_pos; lia|]. apply Z.div_le_upper_bound; lia.
    - intros x H. exact H. }
  intros [a b] (Wa & Wb & Na & Nb).
  set (n := Z.to_nat m) in *.
  pose proof (fib_even n) as [FE1 FE2]. pose proof (fib_odd n) as [FO1 FO2].
  pose proof (fib_nonneg n) as [F0 F1]. pose proof (fib_mono n) as Fm.
  assert (Wmul : forall x, valid t x ->
    spec (fib_panic m) (mul_vr D x b) (fun r => well_formed t r /\ num t r = num t x * num t b)).
  { intros x Vx. eapply spec_weaken; [apply (mul_step x b Vx (proj1 Wb) b (or_intror eq_refl) Wb)| |].
    - intros w [H2 H3]. split; [exact H2|]. fold n. rewrite <- Nb. exact H3.
    - intros r H. exact H. }
  assert (TS : forall A (e : M A) Q, total e Q -> spec (fib_panic m) e Q).
  { intros A e Q H. eapply spec_weaken; [exact H|intros w []|intros x Hx; exact Hx]. }
  assert (Hd2 := div_mod_eq m 2 ltac:(lia)). assert (Hb2 := Z.mod_pos_bound m 2 ltac:(lia)).
  assert (Hp : m / 2 >= 0) by (apply Z.le_ge, Z.div_pos; lia).
  assert (Hk2 := div_mod_eq k 2 ltac:(lia)). assert (Hkb := Z.mod_pos_bound k 2 ltac:(lia)).
  assert (Hk4 := div_mod_eq k 4 ltac:(lia)). assert (Hkb4 := Z.mod_pos_bound k 4 ltac:(lia)).
  assert (Sg : sgn n = if m mod 2 =? 0 then 1 else -1).
  { destruct (Z.eqb_spec (m mod 2) 0) as [E|E].
    - replace n with (2 * Z.to_nat (m / 2))%nat by (unfold n; lia). apply sgn_even.
    - replace n with (S (2 * Z.to_nat (m / 2)))%nat by (unfold n; lia). apply sgn_odd. }
  pose proof (fib_nonneg (2 * n)) as [G0 G1].
  destruct (Z.eqb_spec (k mod 2) 0) as [Ek|Ek].
  - assert (EK : Z.to_nat k = S (S (2 * n))) by (unfold n; lia). rewrite EK.
    eapply spec_bind; [apply TS, (shl_step a); apply Wa|]. intros a2 [Va2 Na2].
    eapply spec_bind; [apply TS, (add_step a2 b); [exact Va2|apply Wb]|]. intros d (Vd & Nd & _).
    assert (Ed : num t d = 2 * fib n + fib (S n)) by lia.
    eapply spec_weaken; [apply Wmul; exact Vd|intros w Hw; exact Hw|]. intros r [Wr Nr].
    split; [exact Wr|]. rewrite Nr, Ed, Nb, <- FO2. ring.
  - assert (EK : Z.to_nat k = S (2 * n)) by (unfold n; lia). rewrite EK.
    eapply spec_bind; [apply TS, (shl_step b); apply Wb|]. intros b2 [Vb2 Nb2].
    eapply spec_bind; [apply TS, (sub_step b2 a); [exact Vb2|exact Wa|lia]|]. intros d [Vd Nd].
    assert (Ed : num t d = 2 * fib (S n) - fib n) by lia.
    eapply spec_bind; [apply Wmul; exact Vd|]. intros y [Wy Ny].
    rewrite Ed, Nb, Z.mul_comm, FE2, Sg in Ny.
    destruct (Z.eqb_spec (k mod 4) 1) as [E4|E4].
    + destruct (Z.eqb_spec (m mod 2) 0) as [_|]; [|lia].
      eapply spec_weaken; [apply TS, (sub_one_step y Wy); lia|intros w Hw; exact Hw|].
      intros r [Wr Nr]. split; [exact Wr|lia].
    + destruct (Z.eqb_spec (m mod 2) 0) as [|_]; [lia|].
      eapply spec_weaken; [apply TS, (add_step y ubig_one); [apply Wy|apply W1]|intros w Hw; exact Hw|].
      intros r (Vr & Nr & Hr). split; [split; [exact Vr|apply Hr; [apply Wy|apply W1]]|lia].
Qed.

Lemma fibonacci_claim k : 0 <= k < 2 ^ 32 ->
  (exists r, fibonacci dbg t k = Ret r /\ well_formed t r /\ num t r = fib (Z.to_nat k))
  \/ fibonacci dbg t k = Panic (PUnwrap Underflow).
Proof.
  intros Hk. pose proof (fibonacci_ok k Hk) as H.
  destruct (fibonacci dbg t k) as [r|w|]; [left; exists r; split; [reflexivity|exact H]| |destruct H].
  destruct H as [-> _]; auto.
Qed.

Lemma fibonacci_total_claim k : 0 <= k < 2 ^ 32 -> fib (Z.to_nat ((k + 1) / 2)) < B ^ 19 ->
  exists r, fibonacci dbg t k = Ret r /\ well_formed t r /\ num t r = fib (Z.to_nat k).
Proof.
  intros Hk Hs. pose proof (fibonacci_ok k Hk) as H.
  destruct (fibonacci dbg t k) as [r|w|] eqn:E; [exists r; split; [reflexivity|exact H]| |destruct H].
  exfalso. destruct (Z.eq_dec k 0) as [->|Hk0]; [discriminate E|].
  destruct H as [_ H]. revert Hs. apply Z.le_ngt. eapply Z.le_trans; [exact H|].
  apply Z.eq_le_incl. f_equal.
  replace ((k + 1) / 2) with ((k - 1) / 2 + 1).
  2:{ replace (k + 1) with (k - 1 + 1 * 2) by lia. rewrite Z.div_add by lia. reflexivity. }
  assert (0 <= (k - 1) / 2) by (apply Z.div_pos; lia). lia.
Qed.
End Fib.
