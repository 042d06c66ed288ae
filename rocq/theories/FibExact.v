(** * FibExact: exactly when the Fibonacci program stops. *)
From Coq Require Import ZArith List Bool Lia.
From Verif Require Import Base Digit Slice Mul Div UBig Forms Bench Spec SpecMul SpecToom SpecFib SpecFibStop Hoare DigitOK
  ListLemmas SliceProof UBigProof TypedProof ToomLen Cases ClaimsBasic ClaimsMul ClaimsToom PowExact FibProof.
Import ListNotations.
Open Scope Z_scope.
Open Scope m_scope.

Lemma lucas_fib n : lucas n = 2 * fib (S n) - fib n /\ lucas (S n) = 2 * fib n + fib (S n).
Proof.
  induction n as [|n [H1 H2]]; [split; reflexivity|]. split.
  - rewrite H2, fib_SS. lia.
  - change (lucas (S (S n))) with (lucas n + lucas (S n)). rewrite H1, H2, fib_SS. lia.
Qed.

Section Fib.
Variable dbg : bool.
Variable t : dty.
Notation D := (impl dbg t).
Notation B := (radix t).

Lemma mul_exact x y a b : well_formed t x -> well_formed t y -> num t x = a -> num t y = b ->
  spec (stop (jam_at B a b)) (mul_vr D x y)
    (fun r => well_formed t r /\ num t r = a * b /\ ~ jam_at B a b).
Proof.
  intros Wx Wy <- <-. unfold mul_vr, mul_rr. change (mul_big D x y) with (mul_assign D x y).
  destruct (mul_outcome dbg t x y Wx Wy) as [[J ->]|[J (r & -> & W & E)]].
  - split; [reflexivity|exact J].
  - cbn. auto.
Qed.
Lemma shl_wf x : well_formed t x ->
  total (shl_r dbg t x 1) (fun r => well_formed t r /\ num t r = num t x * 2).
Proof.
  intros [Vx Nx]. unfold shl_r, shl_v. destruct (is_binary t) eqn:Eb.
  - destruct (shl_bin_claim dbg t x 1 Eb Vx ltac:(lia)) as (r & -> & V & E & N). split; [|exact E].
    split; [exact V|]. apply N; [exact Nx|]. right. destruct t; try discriminate Eb; reflexivity.
  - destruct (shl_dec_total_claim dbg t x 1 Eb Vx ltac:(lia)) as (r & -> & V & E & N).
    + destruct t; try discriminate Eb; reflexivity.
    + left. destruct t; try discriminate Eb; reflexivity.
    + split; [split; auto|exact E].
Qed.
Lemma add_wf x y : well_formed t x -> well_formed t y ->
  total (add_vr D x y) (fun r => well_formed t r /\ num t r = num t x + num t y).
Proof.
  intros [Vx Nx] [Vy Ny]. eapply spec_weaken; [apply add_step; assumption|intros w []|].
  intros r (V & E & N). split; [split; auto|exact E].
Qed.
(** a difference that is not smaller than what is subtracted has no leading zeros *)
Lemma sub_wf x y : well_formed t x -> well_formed t y -> 2 * num t y <= num t x ->
  total (sub_vr D x y) (fun r => well_formed t r /\ num t r = num t x - num t y).
Proof.
  intros Wx Wy H. pose proof (radix_gt t) as HB.
  assert (H0 : 0 <= num t y) by (apply (value_nonneg _ HB), Wy).
  destruct (proj2 (sub_claim dbg t x y (proj1 Wx) Wy) ltac:(lia)) as (r & E & V & En).
  unfold sub_vr. rewrite E. cbn. split; [|exact En]. split; [exact V|].
  apply (sub_normal_claim dbg t x y r Wx Wy E). intros [_ H2]. rewrite En in H2.
  destruct y as [|d y]; [change (Z.of_nat (length (@nil Z)) - 1) with (-1) in H2; rewrite Z.pow_neg_r in H2 by lia; cbn in H2; lia|].
  pose proof (normal_lower B HB (d :: y) (proj1 Wy) (proj2 Wy) ltac:(discriminate)) as Hl. unfold pw in Hl.
  fold (num t (d :: y)) in Hl. replace (Z.of_nat (length (d :: y)) - 1) with (Z.of_nat (length (d :: y) - 1)) in H2 by (cbn [length]; lia).
  lia.
Qed.

(** the pair of [k] stops *)
Definition chain_stops (k : Z) : Prop := exists i, 0 <= i /\ 0 < k / 2 ^ i /\ pair_stops B (k / 2 ^ i).

Lemma chain_zero : ~ chain_stops 0.
Proof. intros (i & Hi & H & _). rewrite Z.div_0_l in H; [lia|]. pose proof (Z.pow_pos_nonneg 2 i). lia. Qed.
Lemma chain_step k : 0 < k -> (chain_stops k <-> chain_stops (k / 2) \/ pair_stops B k).
Proof.
  intros Hk. assert (S : forall i, 0 <= i -> k / 2 / 2 ^ i = k / 2 ^ (i + 1)).
  { intros i Hi. rewrite Z.div_div by (try lia; apply Z.pow_pos_nonneg; lia).
    rewrite Z.pow_add_r by lia. f_equal. lia. }
  split.
  - intros (i & Hi & H1 & H2). destruct (Z.eq_dec i 0) as [->|Hne].
    + right. rewrite Z.pow_0_r, Z.div_1_r in H2. exact H2.
    + left. exists (i - 1). rewrite S by lia. replace (i - 1 + 1) with i by lia. repeat split; auto; lia.
  - intros [(i & Hi & H1 & H2)|H].
    + exists (i + 1). rewrite <- S by lia. repeat split; auto; lia.
    + exists 0. rewrite Z.pow_0_r, Z.div_1_r. repeat split; auto; lia.
Qed.

Lemma weak {A} (P P' : panic -> Prop) (e : M A) Q : spec P e Q -> (forall w, P w -> P' w) -> spec P' e Q.
Proof. intros H HP. eapply spec_weaken; [exact H|exact HP|auto]. Qed.
Lemma of_total {A} P (e : M A) Q : total e Q -> spec P e Q.
Proof. intros H. eapply spec_weaken; [exact H|intros w []|auto]. Qed.

Lemma work_exact fuel k : 0 <= k -> k < 2 ^ (Z.of_nat fuel - 1) -> (0 < fuel)%nat ->
  spec (stop (chain_stops k)) (fibonacci_work dbg t fuel k) (fun '(a, b) =>
    (well_formed t a /\ well_formed t b /\ num t a = fib (Z.to_nat k) /\ num t b = fib (S (Z.to_nat k)))
    /\ ~ chain_stops k).
Proof.
  revert k. induction fuel as [|fuel IH]; intros k Hk Hf Hpos; [lia|].
  pose proof (work_ok dbg t (S fuel) k Hk Hf Hpos) as HV. revert HV. cbn [fibonacci_work].
  destruct one_ok with (t := t) as [W1 N1].
  destruct (Z.eqb_spec k 0) as [->|Hne].
  { intros HV. cbn in HV |- *. split; [exact HV|exact chain_zero]. }
  set (m := k / 2). assert (Hd := div_mod_eq k 2 ltac:(lia)). fold m in Hd.
  assert (Hb := Z.mod_pos_bound k 2 ltac:(lia)).
  assert (Hm : 0 <= m < k) by (unfold m; split; [apply Z.div_pos; lia|apply Z.div_lt; lia]).
  assert (Hfm : m < 2 ^ (Z.of_nat fuel - 1) /\ (0 < fuel)%nat).
  { destruct fuel as [|f]; [change (2 ^ (Z.of_nat 1 - 1)) with 1 in Hf; lia|]. split; [|lia].
    replace (Z.of_nat (S (S f)) - 1) with (Z.of_nat (S f) - 1 + 1) in Hf by lia.
    rewrite Z.pow_add_r in Hf by lia. lia. }
  intros HV.
  assert (HC := chain_step k ltac:(lia)). fold m in HC.
  (* the values are known from [work_ok]; what is left is the panic *)
  match goal with |- spec _ ?e _ => set (prog := e) in * end.
  assert (HP : spec (stop (chain_stops k)) prog (fun _ => ~ chain_stops k)).
  2:{ clear -HV HP. destruct prog as [[a b]|w|]; cbn in *; [split; assumption|exact HP|exact HP]. }
  clear HV. unfold prog.
  eapply spec_bind; [eapply weak; [apply (IH m); lia|intros w [E H]; split; [exact E|tauto]]|].
  intros [a b] [(Wa & Wb & Na & Nb) Hc].
  set (n := Z.to_nat m) in *.
  pose proof (fib_nonneg n) as [F0 F1]. pose proof (fib_mono n) as Fm.
  destruct (lucas_fib n) as [L1 L2].
  assert (Ev : Z.even k = (k mod 2 =? 0)) by (rewrite Zmod_even; destruct (Z.even k); reflexivity).
  assert (HPS : pair_stops B k <-> jam_at B (fib n) (lucas (if k mod 2 =? 0 then n else S n))
                 \/ jam_at B (fib (S n)) (lucas (if k mod 2 =? 0 then n else S n))).
  { unfold pair_stops. fold m. fold n. rewrite Ev. reflexivity. }
  destruct (Z.eqb_spec (k mod 2) 0) as [Ek|Ek].
  - eapply spec_bind; [apply of_total, (shl_wf b Wb)|]. intros b2 [Wb2 Nb2].
    eapply spec_bind; [apply of_total, (sub_wf b2 a Wb2 Wa); lia|]. intros d [Wd Nd].
    assert (Ed : num t d = lucas n) by lia.
    destruct (k mod 4 =? 0).
    + eapply spec_bind; [eapply weak; [apply (mul_exact a d _ _ Wa Wd Na Ed)|intros w [E H]; split; [exact E|tauto]]|].
      intros x (Wx & Nx & Jx).
      eapply spec_bind; [eapply weak; [apply (mul_exact b d _ _ Wb Wd Nb Ed)|intros w [E H]; split; [exact E|tauto]]|].
      intros y (Wy & Ny & Jy).
      eapply spec_bind.
      { apply of_total, (sub_one_step dbg t y Wy). rewrite Ny, L1. clear -F0 F1 Fm.
        assert (1 <= fib (S n)) by lia. assert (1 <= 2 * fib (S n) - fib n) by lia. nia. }
      intros y' _. ret. tauto.
    + eapply spec_bind; [eapply weak; [apply (mul_exact a d _ _ Wa Wd Na Ed)|intros w [E H]; split; [exact E|tauto]]|].
      intros x (Wx & Nx & Jx).
      eapply spec_bind; [eapply weak; [apply (mul_exact b d _ _ Wb Wd Nb Ed)|intros w [E H]; split; [exact E|tauto]]|].
      intros y (Wy & Ny & Jy).
      eapply spec_bind; [apply of_total, (add_wf y ubig_one Wy W1)|]. intros y' _. ret. tauto.
  - eapply spec_bind; [apply of_total, (shl_wf a Wa)|]. intros a2 [Wa2 Na2].
    eapply spec_bind; [apply of_total, (add_wf a2 b Wa2 Wb)|]. intros d [Wd Nd].
    assert (Ed : num t d = lucas (S n)) by lia.
    destruct (Z.eqb_spec (k mod 4) 1) as [E1|E1].
    + eapply spec_bind; [eapply weak; [apply (mul_exact a d _ _ Wa Wd Na Ed)|intros w [E H]; split; [exact E|tauto]]|].
      intros x (Wx & Nx & Jx).
      eapply spec_bind; [apply of_total, (add_wf x ubig_one Wx W1)|]. intros x' _.
      eapply spec_bind; [eapply weak; [apply (mul_exact b d _ _ Wb Wd Nb Ed)|intros w [E H]; split; [exact E|tauto]]|].
      intros y (Wy & Ny & Jy). ret. tauto.
    + eapply spec_bind; [eapply weak; [apply (mul_exact a d _ _ Wa Wd Na Ed)|intros w [E H]; split; [exact E|tauto]]|].
      intros x (Wx & Nx & Jx).
      eapply spec_bind.
      { apply of_total, (sub_one_step dbg t x Wx). rewrite Nx, L2.
        assert (Hm1 : (1 <= n)%nat).
        { destruct (Z.eq_dec m 0) as [E0|E0]; [|unfold n; lia]. exfalso. apply E1.
          replace k with 1 by lia. reflexivity. }
        assert (1 <= fib n) by (pose proof (fib_le 1 n Hm1); assumption). clear -F1 H. nia. }
      intros x' _.
      eapply spec_bind; [eapply weak; [apply (mul_exact b d _ _ Wb Wd Nb Ed)|intros w [E H0]; split; [exact E|tauto]]|].
      intros y (Wy & Ny & Jy). ret. tauto.
Qed.

Lemma fibonacci_exact k : 0 <= k < 2 ^ 32 ->
  (fib_stops B k -> fibonacci dbg t k = Panic (PUnwrap Underflow))
  /\ (~ fib_stops B k -> exists r, fibonacci dbg t k = Ret r /\ well_formed t r /\ num t r = fib (Z.to_nat k)).
Proof.
  intros Hk. assert (HP : spec (stop (fib_stops B k)) (fibonacci dbg t k) (fun _ => ~ fib_stops B k)).
  2:{ pose proof (fibonacci_ok dbg t k Hk) as HV.
      destruct (fibonacci dbg t k) as [r|w|]; cbn in HP, HV; [| |contradiction].
      - split; [intros H; contradiction|]. intros _. exists r. split; [reflexivity|exact HV].
      - destruct HP as [-> HP]. split; [reflexivity|]. intros H. contradiction. }
  unfold fibonacci. destruct one_ok with (t := t) as [W1 N1].
  destruct (Z.eqb_spec k 0) as [->|H0]; [ret; intros [H _]; lia|].
  destruct (Z.eqb_spec k 1) as [->|H1]; [ret; intros [H _]; lia|].
  set (m := (k - 1) / 2). assert (Hd := div_mod_eq (k - 1) 2 ltac:(lia)). fold m in Hd.
  assert (Hb := Z.mod_pos_bound (k - 1) 2 ltac:(lia)).
  assert (Hm : 0 <= m) by (unfold m; apply Z.div_pos; lia).
  assert (HS : fib_stops B k <-> last_stops B k \/ chain_stops m).
  { unfold fib_stops, chain_stops. fold m. split; [intros [_ H]; exact H|intros H; split; [lia|exact H]]. }
  eapply spec_bind.
  { eapply weak; [apply (work_exact fibonacci_depth m); [lia|change (m < 2 ^ 32); lia|unfold fibonacci_depth; lia]
      |intros w [E H]; split; [exact E|tauto]]. }
  intros [a b] [(Wa & Wb & Na & Nb) Hc].
  set (n := Z.to_nat m) in *.
  pose proof (fib_nonneg n) as [F0 F1]. pose proof (fib_mono n) as Fm.
  destruct (lucas_fib n) as [L1 L2].
  assert (Ev : Z.even k = (k mod 2 =? 0)) by (rewrite Zmod_even; destruct (Z.even k); reflexivity).
  assert (HL : last_stops B k <-> jam_at B (lucas (if k mod 2 =? 0 then S n else n)) (fib (S n))).
  { unfold last_stops. fold m. fold n. rewrite Ev. reflexivity. }
  destruct (Z.eqb_spec (k mod 2) 0) as [Ek|Ek].
  - eapply spec_bind; [apply of_total, (shl_wf a Wa)|]. intros a2 [Wa2 Na2].
    eapply spec_bind; [apply of_total, (add_wf a2 b Wa2 Wb)|]. intros d [Wd Nd].
    assert (Ed : num t d = lucas (S n)) by lia.
    eapply spec_weaken; [apply (mul_exact d b _ _ Wd Wb Ed Nb)|intros w [E H]; split; [exact E|tauto]|].
    intros r (_ & _ & J). tauto.
  - eapply spec_bind; [apply of_total, (shl_wf b Wb)|]. intros b2 [Wb2 Nb2].
    eapply spec_bind; [apply of_total, (sub_wf b2 a Wb2 Wa); lia|]. intros d [Wd Nd].
    assert (Ed : num t d = lucas n) by lia.
    eapply spec_bind; [eapply weak; [apply (mul_exact d b _ _ Wd Wb Ed Nb)|intros w [E H]; split; [exact E|tauto]]|].
    intros y (Wy & Ny & J).
    destruct (k mod 4 =? 1).
    + eapply spec_weaken; [apply of_total, (sub_one_step dbg t y Wy)| |].
      * rewrite Ny, L1. clear -F0 F1 Fm. assert (1 <= fib (S n)) by lia. assert (1 <= 2 * fib (S n) - fib n) by lia. nia.
      * intros w Hw; exact Hw.
      * intros r _. tauto.
    + eapply spec_weaken; [apply of_total, (add_wf y ubig_one Wy W1)|intros w Hw; exact Hw|]. intros r _. tauto.
Qed.
End Fib.

(** both builds of the program do the same *)
Lemma fibonacci_builds t k : 0 <= k < 2 ^ 32 -> fibonacci true t k = fibonacci false t k.
Proof.
  intros Hk. destruct (fibonacci_exact true t k Hk) as [A1 A2]. destruct (fibonacci_exact false t k Hk) as [C1 C2].
  destruct (fibonacci_claim true t k Hk) as [(r & E & W & N)|E].
  - assert (J : ~ fib_stops (radix t) k).
    { intros J. apply A1 in J. exact (eq_ind (Ret r) (fun m => match m with Ret _ => True | _ => False end) I _ (eq_trans (eq_sym E) J)). }
    destruct (C2 J) as (r' & E' & W' & N').
    assert (Er : r = r').
    { apply (normal_inj (radix t) (radix_gt t)); [apply W|apply W'|apply W|apply W'|]. unfold num in *. lia. }
    exact (eq_trans E (eq_trans (f_equal Ret Er) (eq_sym E'))).
  - destruct (fibonacci_claim false t k Hk) as [(r' & E' & W' & N')|E'].
    + exfalso. assert (J : ~ fib_stops (radix t) k).
      { intros J. apply C1 in J. exact (eq_ind (Ret r') (fun m => match m with Ret _ => True | _ => False end) I _ (eq_trans (eq_sym E') J)). }
      destruct (A2 J) as (r & E2 & _).
      exact (eq_ind (Ret r) (fun m => match m with Ret _ => True | _ => False end) I _ (eq_trans (eq_sym E2) E)).
    + exact (eq_trans E (eq_sym E')).
Qed.

(** ** No panic while the factors have at most forty digits *)
Lemma represent t n v : 0 <= v < radix t ^ Z.of_nat n ->
  exists x, well_formed t x /\ num t x = v /\ (length x <= n)%nat.
Proof.
  pose proof (radix_gt t) as HB. intros Hv.
  assert (H : exists x, valid t x /\ num t x = v).
  { revert v Hv. induction n as [|n IH]; intros v Hv.
    - exists []. split; [apply below_nil|]. cbn in *. lia.
    - rewrite Nat2Z.inj_succ, Z.pow_succ_r in Hv by lia.
      destruct (IH (v / radix t)) as (x & V & E).
      { split; [apply Z.div_pos; lia|apply Z.div_lt_upper_bound; lia]. }
      exists (v mod radix t :: x). split; [apply below_cons; split; [apply Z.mod_pos_bound; lia|exact V]|].
      unfold num in *. cbn [value]. rewrite E. pose proof (Z.div_mod v (radix t) ltac:(lia)). lia. }
  destruct H as (x & V & E). destruct (new_claim t x V) as (r & _ & W & Er).
  exists r. split; [exact W|]. split; [congruence|].
  destruct (Nat.le_gt_cases (length r) n) as [|Hl]; [assumption|exfalso].
  assert (r <> []) by (intros ->; cbn in Hl; lia).
  pose proof (normal_lower _ HB r (proj1 W) (proj2 W) H) as L. unfold pw in L. fold (num t r) in L.
  assert (radix t ^ Z.of_nat n <= radix t ^ Z.of_nat (length r - 1)) by (apply Z.pow_le_mono_r; lia). lia.
Qed.
Lemma no_jam_forty t v w : 0 <= v < radix t ^ 40 -> 0 <= w < radix t ^ 40 -> ~ jam_at (radix t) v w.
Proof.
  intros Hv Hw J. destruct (represent t 40 v Hv) as (x & Wx & <- & Lx).
  destruct (represent t 40 w Hw) as (y & Wy & <- & Ly).
  destruct (mul_mid_claim true t x y Wx Wy Lx Ly) as (r & E & _).
  destruct (mul_outcome true t x y Wx Wy) as [[_ E']|[J' _]]; [|contradiction].
  exact (eq_ind (Ret r) (fun m => match m with Ret _ => True | _ => False end) I _ (eq_trans (eq_sym E) E')).
Qed.

Lemma lucas_bound n : 0 <= lucas n <= 3 * fib (S n).
Proof.
  destruct (lucas_fib n) as [-> _]. pose proof (fib_nonneg n) as [? ?]. pose proof (fib_mono n). lia.
Qed.
Lemma lucas_bound' n : lucas (S n) <= 3 * fib (S n).
Proof.
  destruct (lucas_fib n) as [_ ->]. pose proof (fib_mono n). lia.
Qed.
Lemma fibonacci_forty dbg t k : 0 <= k < 2 ^ 32 -> 3 * fib (Z.to_nat ((k + 1) / 2)) < radix t ^ 40 ->
  exists r, fibonacci dbg t k = Ret r /\ well_formed t r /\ num t r = fib (Z.to_nat k).
Proof.
  intros Hk Hs. apply (proj2 (fibonacci_exact dbg t k Hk)). intros [H2 H].
  assert (Em : (k + 1) / 2 = (k - 1) / 2 + 1).
  { replace (k + 1) with (k - 1 + 1 * 2) by lia. apply Z.div_add. lia. }
  set (m := (k - 1) / 2) in *. assert (Hm : 0 <= m) by (apply Z.div_pos; lia).
  rewrite Em in Hs. replace (Z.to_nat (m + 1)) with (S (Z.to_nat m)) in Hs by lia.
  assert (F : forall n, (n <= Z.to_nat m)%nat -> 0 <= fib n < radix t ^ 40 /\ 0 <= fib (S n) < radix t ^ 40
    /\ 0 <= lucas n < radix t ^ 40 /\ 0 <= lucas (S n) < radix t ^ 40).
  { intros n Hn. pose proof (fib_le (S n) (S (Z.to_nat m)) ltac:(lia)). pose proof (fib_nonneg n) as [? ?].
    pose proof (fib_mono n). pose proof (lucas_bound n). pose proof (lucas_bound' n).
    pose proof (lucas_bound (S n)). lia. }
  destruct H as [H|(i & Hi & Hp & H)].
  - unfold last_stops in H. fold m in H. destruct (F (Z.to_nat m) ltac:(lia)) as (F1 & F2 & F3 & F4).
    revert H. destruct (Z.even k); apply no_jam_forty; assumption.
  - assert (Hi2 : 0 < 2 ^ i) by (apply Z.pow_pos_nonneg; lia).
    assert (H0 : m / 2 ^ i <= m) by (apply Z.div_le_upper_bound; [lia|nia]).
    set (q := m / 2 ^ i) in *. assert (0 <= q / 2) by (apply Z.div_pos; lia).
    assert (q / 2 <= q) by (apply Z.div_le_upper_bound; lia).
    destruct (F (Z.to_nat (q / 2)) ltac:(lia)) as (F1 & F2 & F3 & F4).
    unfold pair_stops in H. destruct H as [H|H]; revert H; destruct (Z.even q); apply no_jam_forty; assumption.
Qed.
