(** * HistProof: histories of operations. *)
From Coq Require Import ZArith List Bool Lia.
From Verif Require Import Base Digit Slice Mul Div UBig Spec Hoare DigitOK ListLemmas SliceProof
  MulProof UBigProof PowProof DivProof TypedProof Cases ClaimsBasic ClaimsMul ClaimsText ClaimsDiv ClaimsDivBig SpecDiv Text Gives Keeps KeepsDiv SpecHist Hist.
Import ListNotations.
Open Scope Z_scope.
Open Scope m_scope.

Section Keep.
Variable dbg : bool.
Variable t : dty.
Notation D := (impl dbg t).
Notation OK := (impl_ok dbg t).

Lemma put_valid (r : regs) i (e : M digits) : (forall k, valid t (r k)) -> keeps (radix t) e ->
  gives (v <- e ;; Ret (update r i v)) (fun r' => forall k, valid t (r' k)).
Proof.
  intros Hr He. eapply gives_bind; [exact He|]. intros v Hv. apply gives_ret. intros k.
  unfold update. destruct (k =? i)%nat; [exact Hv|apply Hr].
Qed.
Lemma step_valid s r : typed t s -> digit_division t s -> (forall k, valid t (r k)) ->
  gives (model_step dbg t s r) (fun r' => forall k, valid t (r' k)).
Proof.
  intros Ht Hd Hr. pose proof (radix_gt t) as HB.
  destruct s; cbn [typed digit_division] in *; unfold model_step; apply put_valid; auto.
  - apply (k_add_assign _ _ OK); apply Hr.
  - apply (k_sub_assign _ _ OK); apply Hr.
  - apply (k_mul_assign _ _ OK); apply Hr.
  - apply (k_div_bin dbg t Hd); apply Hr.
  - apply (k_rem_bin dbg t Hd); apply Hr.
  - apply (k_square _ _ OK); apply Hr.
  - apply (k_pow _ _ OK); apply Hr.
  - apply k_shl_assign; auto. apply Hr.
  - apply k_shr_assign; auto. apply Hr.
  - apply k_add_T; auto. apply Hr.
  - apply k_sub_T; auto. apply Hr.
  - apply k_mul_T; auto. apply Hr.
  - assert (Hn : 0 <= n < radix t) by (pose proof (storage_nonneg t n Ht); lia).
    unfold div_assign_T. destruct (is_binary t) eqn:Eb; [apply (k_div_d _ _ OK); auto; apply Hr|].
    replace (fits_single t n) with true; [apply (k_div_d _ _ OK); auto; apply Hr|].
    symmetry. apply Z.ltb_lt. rewrite (radix_dec t Eb). lia.
  - assert (Hn : 0 <= n < radix t) by (pose proof (storage_nonneg t n Ht); lia).
    unfold rem_assign_T. destruct (is_binary t) eqn:Eb; [apply (k_rem_d _ _ OK); auto; apply Hr|].
    replace (fits_single t n) with true; [apply (k_rem_d _ _ OK); auto; apply Hr|].
    symmetry. apply Z.ltb_lt. rewrite (radix_dec t Eb). lia.
  - apply keeps_ret, Hr.
  - apply keeps_ret, k_from_T, Ht.
Qed.
Lemma run_valid p : Forall (typed t) p -> Forall (digit_division t) p ->
  forall r, (forall k, valid t (r k)) ->
  gives (model_run dbg t p r) (fun r' => forall k, valid t (r' k)).
Proof.
  induction p as [|s p IH]; intros H1 H2 r Hr; cbn [model_run]; [apply gives_ret, Hr|].
  inversion_clear H1. inversion_clear H2. eapply gives_bind; [apply step_valid; assumption|].
  intros r' Hr'. apply IH; assumption.
Qed.
Lemma run_valid_claim p r r' : Forall (typed t) p -> Forall (digit_division t) p ->
  (forall k, valid t (r k)) -> model_run dbg t p r = Ret r' -> forall k, valid t (r' k).
Proof. intros H1 H2 H3 E. exact (run_valid p H1 H2 r H3 r' E). Qed.
End Keep.

(** ** Values *)
Section Pow.
Variable B : Z.
Variable D : digit.
Hypothesis OK : digit_ok B D.
Let HB : 1 < B := SliceProof.HB _ _ OK.
Notation val := (value B).
Notation digs := (below B).
Notation p n := (pw B n).

Lemma mul_value x y : digs x -> digs y ->
  gives (mul_assign D x y) (fun r => digs r /\ normal r /\ val r = val x * val y).
Proof.
  intros Hx Hy a E.
  pose proof (mul_big_ok B D OK false x y Hx Hy ltac:(discriminate)) as S.
  unfold mul_assign in E. rewrite E in S. exact S.
Qed.
Lemma square_value x : digs x -> (length x <= 1131)%nat ->
  gives (square D x) (fun r => digs r /\ normal r /\ val r = val x * val x).
Proof.
  intros Hx Hl a E. pose proof (square_ok B D OK false x Hx ltac:(discriminate) Hl) as S.
  rewrite E in S. exact S.
Qed.
Lemma pow_loop_value n : forall r q, digs r -> digs q -> (length q <= 1131)%nat ->
  val q ^ Z.pos n < p 1131 ->
  gives (pow_loop D n r q) (fun z => digs z /\ val z = val r * val q ^ (2 * Z.pos n)).
Proof.
  assert (Hsq : forall q sq n n', digs q -> digs sq -> normal sq -> val sq = val q * val q ->
    1 <= n' -> 2 * n' <= n -> val q ^ n < p 1131 ->
    (length sq <= 1131)%nat /\ val sq ^ n' < p 1131).
  { intros q sq n0 n' Dq D1 N1 V1 Hn Hle Hlim. pose proof (value_nonneg B HB q Dq) as Vq.
    assert (val sq ^ n' < p 1131) as Hlt.
    { rewrite V1. apply (lim_next B D OK (val q) n0 n' Vq Hn Hle Hlim). }
    split; [|exact Hlt]. apply (normal_short B D OK); auto.
    pose proof (pow_ge_base (val sq) n' Hn (value_nonneg B HB sq D1)). lia. }
  induction n as [n IH|n IH|]; intros r q Dr Dq Lq Hlim; cbn [pow_loop];
    (eapply gives_bind; [apply square_value; assumption|]); intros sq (D1 & N1 & V1).
  - eapply gives_bind; [apply mul_value; assumption|]. intros r1 (D2 & _ & V2).
    destruct (Hsq q sq (Z.pos n~1) (Z.pos n)) as [L1 H1]; auto; try lia.
    eapply gives_post; [apply IH; assumption|]. intros z [Dz Vz]. split; [exact Dz|].
    rewrite Vz, V2, V1, pow_sq by lia. replace (2 * Z.pos n~1) with (2 * (2 * Z.pos n) + 2) by lia.
    rewrite (Z.pow_add_r _ _ 2) by lia. rewrite Z.pow_2_r. ring.
  - destruct (Hsq q sq (Z.pos n~0) (Z.pos n)) as [L1 H1]; auto; try lia.
    eapply gives_post; [apply IH; assumption|]. intros z [Dz Vz]. split; [exact Dz|].
    rewrite Vz, V1, pow_sq by lia. reflexivity.
  - eapply gives_post; [apply mul_value; assumption|]. intros z (Dz & _ & Vz). split; [exact Dz|].
    rewrite Vz, V1. rewrite Z.pow_2_r. reflexivity.
Qed.
Lemma pow_value x (e : N) : digs x -> (length x <= 1131)%nat ->
  val x ^ Z.of_N (e / 2) < p 1131 ->
  gives (pow D x e) (fun z => digs z /\ val z = val x ^ Z.of_N e).
Proof.
  intros Hx Lx Hlim. unfold pow.
  assert (One : digs ubig_one /\ val ubig_one = 1).
  { unfold ubig_one. split; [apply below_cons; split; [lia|apply below_nil]|unfold value; lia]. }
  assert (Hgen : (3 <= e)%N -> gives
    (let result := if N.even e then ubig_one else x in
     match (e / 2)%N with N0 => Ret result | Npos n => pow_loop D n result x end)
    (fun z => digs z /\ val z = val x ^ Z.of_N e)).
  { intros He. cbv zeta. destruct (e / 2)%N as [|n] eqn:E; [apply N.div_small_iff in E; lia|].
    pose proof (N.div_mod e 2 ltac:(lia)) as Hdm. rewrite E in Hdm.
    eapply gives_post; [apply pow_loop_value; auto; destruct (N.even e); tauto|].
    intros z [Dz Vz]. split; [exact Dz|]. rewrite Vz. destruct (N.even e) eqn:Ee.
    - apply N.even_spec in Ee. destruct Ee as [k Hk].
      assert (e mod 2 = 0)%N by (rewrite Hk, N.mul_comm; apply N.mod_mul; lia).
      rewrite (proj2 One), Z.mul_1_l. f_equal. lia.
    - rewrite <- N.negb_odd in Ee. apply negb_false_iff, N.odd_spec in Ee. destruct Ee as [k Hk].
      assert (e mod 2 = 1)%N by (rewrite Hk, N.add_comm, N.mul_comm; apply N.mod_add; lia).
      replace (Z.of_N e) with (2 * Z.pos n + 1) by lia. rewrite Z.pow_add_r by lia.
      rewrite Z.pow_1_r. ring. }
  assert (H2 : gives (square D x) (fun z => digs z /\ val z = val x ^ 2)).
  { eapply gives_post; [apply square_value; assumption|]. intros z (Dz & _ & Vz).
    rewrite Z.pow_2_r. auto. }
  destruct e as [|[q|[q|q|]|]]; try (apply Hgen; lia).
  - apply gives_ret. exact One.
  - exact H2.
  - apply gives_ret. change (Z.of_N 1) with 1. rewrite Z.pow_1_r. auto.
Qed.
Lemma sub_value x y : digs x -> digs y ->
  gives (sub_assign D x y) (fun r => digs r /\ val r = val x - val y).
Proof.
  intros Hx Hy. unfold sub_assign. eapply gives_bind.
  { intros a E. pose proof (sub_at_zero_ok B D OK x y Hx Hy) as T. rewrite E in T. exact T. }
  intros [r [u|e]] H; cbn [or_panic bind]; [|apply gives_panic].
  apply gives_ret. cbn in H. tauto.
Qed.
End Pow.

Section Run.
Variable dbg : bool.
Variable t : dty.
Notation D := (impl dbg t).
Notation OK := (impl_ok dbg t).

(** a register file denotes integers *)
Definition denotes (r : regs) (z : nat -> Z) : Prop := forall k, valid t (r k) /\ num t (r k) = z k.

Lemma put_denotes r z i (e : M digits) v : denotes r z ->
  gives e (fun x => valid t x /\ num t x = v) ->
  gives (x <- e ;; Ret (update r i x)) (fun r' => denotes r' (update z i v)).
Proof.
  intros Hr He. eapply gives_bind; [exact He|]. intros x Hx. apply gives_ret. intros k.
  unfold update. destruct (k =? i)%nat; [exact Hx|apply Hr].
Qed.
Lemma total_gives {A} (e : M A) Q : total e Q -> gives e Q.
Proof. intros T a ->. exact T. Qed.
Lemma spec_gives {A} P (e : M A) Q : spec P e Q -> gives e Q.
Proof. intros T a ->. exact T. Qed.

Lemma shr_value x n : valid t x -> 0 <= n ->
  gives (shr_assign dbg t x n) (fun r => valid t r /\ num t r = num t x / 2 ^ n).
Proof.
  intros Vx Hn. destruct (is_binary t) eqn:Eb.
  - destruct (Z.le_gt_cases (n / bits t) (Z.of_nat (length x))) as [Hle|Hgt].
    + eapply gives_post; [apply total_gives, shr_assign_bin_val; auto|]. cbn beta. unfold valid, num. tauto.
    + rewrite (shr_assign_bin_panic dbg t x n Eb Hgt). apply gives_panic.
  - destruct (Z.le_gt_cases n (4 * Z.of_nat (MAX_HEX_PLACES t))) as [Hle|Hgt].
    + eapply gives_post; [apply total_gives, shr_assign_dec_ok; auto|]. cbn beta. unfold valid, num. tauto.
    + rewrite (shr_assign_dec_panic dbg t x n Eb Hgt). apply gives_panic.
Qed.

Lemma sound_divided x y : y <> [] -> sound_division t x y ->
  divided dbg t x y \/ exists w, stops dbg t x y w.
Proof.
  intros Hy (Wx & Wy & H). destruct (Nat.le_gt_cases (length y) 1) as [H1|H1].
  { left. destruct y as [|d [|]]; [contradiction| |cbn in H1; lia].
    apply div_short_claim; auto. cbn [length]. lia. }
  destruct H as [H|H]; [lia|].
  destruct (Nat.ltb_spec (length y) 20) as [Hl|Hl].
  - left. apply div_short_claim; try assumption. right. unfold divides. destruct (is_binary t); exact H.
  - destruct (is_binary t) eqn:Eb.
    + destruct (div_large_binary_claim dbg t x y Eb Wx Wy Hl H) as [K|[K|K]]; eauto.
    + destruct (div_large_tied_claim dbg t x y Eb Wx Wy Hl H) as [K|[K|[K|K]]]; eauto.
Qed.
Lemma div_value x y : sound_division t x y ->
  gives (div_assign (impl dbg t) x y) (fun r => valid t r /\ num t r = num t x / num t y)
  /\ gives (rem_assign (impl dbg t) x y) (fun r => valid t r /\ num t r = num t x mod num t y).
Proof.
  intros H. destruct (Nat.eq_dec (length y) 0) as [H0|H0].
  { destruct y; [|discriminate H0].
    destruct (div_zero_claim dbg t x) as (_ & _ & E1 & E2). rewrite E1, E2. split; apply gives_panic. }
  destruct (sound_divided x y ltac:(intros ->; contradiction) H)
    as [(q & r & _ & _ & E1 & E2 & Wq & Wr & Eu & Er)|(w & _ & _ & E1 & E2)].
  - rewrite E1, E2. split; apply gives_ret.
    + split; [apply Wq|]. apply (Z.div_unique _ _ _ (num t r)); lia.
    + split; [apply Wr|]. apply (Z.mod_unique _ _ (num t q)); lia.
  - rewrite E1, E2. split; apply gives_panic.
Qed.

Lemma step_denotes s r z : typed t s -> calm t s r -> denotes r z ->
  gives (model_step dbg t s r) (fun r' => denotes r' (int_step s z)).
Proof.
  intros Ht Hc Hr.
  assert (V : forall k, valid t (r k)) by (intros k; apply Hr).
  assert (E : forall k, z k = num t (r k)) by (intros k; symmetry; apply Hr).
  destruct s; cbn [typed calm] in *; unfold model_step, int_step; apply put_denotes; auto;
    rewrite ?E.
  - eapply gives_post; [apply total_gives, (add_assign_ok _ _ OK); apply V|].
    cbn beta. unfold valid, num. tauto.
  - apply (sub_value _ _ OK); apply V.
  - eapply gives_post; [apply (mul_value _ _ OK); apply V|]. cbn beta. unfold valid, num. tauto.
  - apply (div_value _ _ Hc).
  - apply (div_value _ _ Hc).
  - eapply gives_post; [apply (square_value _ _ OK); [apply V|exact Hc]|].
    cbn beta. unfold valid, num. tauto.
  - destruct Hc as [Hl Hc]. apply (pow_value _ _ OK); [apply V|exact Hl|]. exact Hc.
  - destruct (is_binary t) eqn:Eb.
    + eapply gives_post; [apply total_gives, shl_assign_bin_ok; auto; apply V|].
      cbn beta. unfold valid, num. tauto.
    + destruct Hc as [Hc|Hc]; [discriminate Hc|]. intros x Ex.
      destruct (shl_dec_value_claim dbg t (r i) n x Eb (V i) Ht Hc Ex) as (A1 & A2 & _). auto.
  - apply shr_value; auto.
  - eapply gives_post; [apply total_gives, add_assign_T_ok; auto; apply V|].
    cbn beta. unfold valid, num. tauto.
  - eapply gives_post; [eapply spec_gives, sub_assign_T_ok; auto; apply V|].
    cbn beta. unfold valid, num. tauto.
  - eapply gives_post; [apply total_gives, mul_assign_T_ok; auto; apply V|].
    cbn beta. unfold valid, num. tauto.
  - eapply gives_post; [eapply spec_gives, div_assign_T_ok; auto; apply V|].
    cbn beta. unfold valid, num. tauto.
  - eapply gives_post; [eapply spec_gives, rem_assign_T_ok; auto; apply V|].
    cbn beta. unfold valid, num. tauto.
  - apply gives_ret. split; [apply V|reflexivity].
  - apply gives_ret. pose proof (from_T_ok t n Ht). unfold valid, num. tauto.
Qed.

Lemma int_step_ext s z z' : (forall k, z k = z' k) -> forall k, int_step s z k = int_step s z' k.
Proof.
  intros H k. destruct s; cbn [int_step]; unfold update; destruct (k =? _)%nat; rewrite ?H; reflexivity.
Qed.

Lemma run_denotes p : Forall (typed t) p -> forall r z, calm_run dbg t p r -> denotes r z ->
  gives (model_run dbg t p r) (fun r' => denotes r' (int_run p z)).
Proof.
  induction p as [|s p IH]; intros Ht r z Hc Hr; cbn [model_run int_run]; [apply gives_ret, Hr|].
  inversion_clear Ht. destruct Hc as [Hc Hn].
  intros r2 E. destruct (model_step dbg t s r) as [r1| |] eqn:E1; try discriminate E.
  cbn [bind] in E. eapply IH; [assumption|apply Hn; reflexivity| |exact E].
  exact (step_denotes s r z H Hc Hr r1 E1).
Qed.
Lemma run_denotes_claim p r r' : Forall (typed t) p -> (forall k, valid t (r k)) -> calm_run dbg t p r ->
  model_run dbg t p r = Ret r' ->
  forall k, valid t (r' k) /\ num t (r' k) = int_run p (fun k => num t (r k)) k.
Proof.
  intros H1 H2 H3 E. apply (run_denotes p H1 r (fun k => num t (r k)) H3); [|exact E].
  intros k. auto.
Qed.
Lemma calm_always p : Forall (always_calm t) p -> forall r, calm_run dbg t p r.
Proof.
  induction p as [|s p IH]; intros H r; cbn [calm_run]; [exact I|]. inversion_clear H.
  split; [|intros r' _; apply IH; assumption]. destruct s; cbn [always_calm calm] in *; tauto.
Qed.
Lemma run_always_claim p r r' : Forall (typed t) p -> Forall (always_calm t) p ->
  (forall k, valid t (r k)) -> model_run dbg t p r = Ret r' ->
  forall k, valid t (r' k) /\ num t (r' k) = int_run p (fun k => num t (r k)) k.
Proof. intros H1 H2 H3. apply run_denotes_claim; auto. apply calm_always, H2. Qed.
End Run.

(** ** Reusing witnesses *)
Lemma run_refuted n : (forall dbg, exists x r, length x = n /\ well_formed B8 x
    /\ square (impl dbg B8) x = Ret r /\ num B8 r <> num B8 x * num B8 x) ->
  forall dbg, exists p r r', Forall (typed B8) p /\ (forall k, well_formed B8 (r k))
    /\ model_run dbg B8 p r = Ret r' /\ num B8 (r' 0%nat) <> int_run p (fun k => num B8 (r k)) 0%nat.
Proof.
  intros H dbg. destruct (H dbg) as (x & r & _ & H1 & H2 & H3). exists [SSquare 0], (fun _ => x), (update (fun _ => x) 0%nat r).
  split; [repeat constructor|]. split; [intros _; exact H1|]. split; [|exact H3].
  cbn [model_run model_step]. rewrite H2. reflexivity.
Qed.

(** ** Two number types *)
Lemma int_run_ext p : forall z z', (forall k, z k = z' k) -> forall k, int_run p z k = int_run p z' k.
Proof.
  induction p as [|st p IH]; intros z z' E k; cbn [int_run]; [apply E|]. apply IH. apply int_step_ext, E.
Qed.
Lemma two_programs dbg t t' p r s r' s' : Forall (typed t) p -> Forall (typed t') p ->
  (forall k, valid t (r k)) -> (forall k, valid t' (s k)) -> (forall k, num t (r k) = num t' (s k)) ->
  calm_run dbg t p r -> calm_run dbg t' p s ->
  model_run dbg t p r = Ret r' -> model_run dbg t' p s = Ret s' ->
  forall k, num t (r' k) = num t' (s' k).
Proof.
  intros T1 T2 V1 V2 E C1 C2 M1 M2 k.
  destruct (run_denotes_claim dbg t p r r' T1 V1 C1 M1 k) as [_ N1].
  destruct (run_denotes_claim dbg t' p s s' T2 V2 C2 M2 k) as [_ N2].
  rewrite N1, N2. exact (int_run_ext p _ _ E k).
Qed.
Lemma two_add dbg t t' x y x' y' : valid t x -> valid t y -> valid t' x' -> valid t' y' ->
  num t x = num t' x' -> num t y = num t' y' ->
  exists r r', add_assign (impl dbg t) x y = Ret r /\ add_assign (impl dbg t') x' y' = Ret r'
    /\ num t r = num t' r'.
Proof.
  intros Vx Vy Vx' Vy' Ex Ey.
  pose proof (add_assign_ok _ _ (impl_ok dbg t) x y Vx Vy) as T.
  pose proof (add_assign_ok _ _ (impl_ok dbg t') x' y' Vx' Vy') as T'.
  apply total_inv in T. apply total_inv in T'.
  destruct T as (r & E & _ & V & _), T' as (r' & E' & _ & V' & _).
  exists r, r'. split; [exact E|]. split; [exact E'|]. unfold num in *. lia.
Qed.
Lemma two_sub dbg t t' x y x' y' : well_formed t x -> well_formed t y ->
  well_formed t' x' -> well_formed t' y' ->
  num t x = num t' x' -> num t y = num t' y' -> num t y <= num t x ->
  exists r r', sub_assign (impl dbg t) x y = Ret r /\ sub_assign (impl dbg t') x' y' = Ret r'
    /\ num t r = num t' r'.
Proof.
  intros Vx Vy Vx' Vy' Ex Ey Hle.
  destruct (proj2 (sub_claim dbg t x y (proj1 Vx) Vy) Hle) as (r & E & _ & V).
  destruct (proj2 (sub_claim dbg t' x' y' (proj1 Vx') Vy') ltac:(lia)) as (r' & E' & _ & V').
  exists r, r'. split; [exact E|]. split; [exact E'|]. lia.
Qed.
Lemma two_mul dbg t t' x y x' y' r r' : valid t x -> valid t y -> valid t' x' -> valid t' y' ->
  num t x = num t' x' -> num t y = num t' y' ->
  mul_assign (impl dbg t) x y = Ret r -> mul_assign (impl dbg t') x' y' = Ret r' ->
  num t r = num t' r'.
Proof.
  intros Vx Vy Vx' Vy' Ex Ey E E'.
  destruct (mul_value_claim dbg t x y r Vx Vy E) as [_ V].
  destruct (mul_value_claim dbg t' x' y' r' Vx' Vy' E') as [_ V']. rewrite V, V', Ex, Ey. reflexivity.
Qed.
Lemma two_mul_short dbg t t' x y x' y' : valid t x -> valid t y -> valid t' x' -> valid t' y' ->
  num t x = num t' x' -> num t y = num t' y' ->
  (length x < 20 \/ length y < 20)%nat -> (length x' < 20 \/ length y' < 20)%nat ->
  exists r r', mul_assign (impl dbg t) x y = Ret r /\ mul_assign (impl dbg t') x' y' = Ret r'
    /\ num t r = num t' r'.
Proof.
  intros Vx Vy Vx' Vy' Ex Ey L L'.
  destruct (mul_short_claim dbg t x y Vx Vy L) as (r & E & _ & V).
  destruct (mul_short_claim dbg t' x' y' Vx' Vy' L') as (r' & E' & _ & V').
  exists r, r'. split; [exact E|]. split; [exact E'|]. rewrite V, V', Ex, Ey. reflexivity.
Qed.
Lemma two_parse dbg t t' s : numeral_of 10 s \/ (exists h, s = hex_prefix ++ h /\ numeral_of 16 h) ->
  exists r r', from_str dbg t s = Ret (ROk r) /\ from_str dbg t' s = Ret (ROk r')
    /\ num t r = num t' r'.
Proof.
  intros [H|(h & -> & H)].
  - destruct (parse_dec_claim dbg t s H) as (r & E & _ & V).
    destruct (parse_dec_claim dbg t' s H) as (r' & E' & _ & V'). exists r, r'. rewrite V, V'. auto.
  - destruct (parse_hex_claim dbg t h H) as (r & E & _ & V).
    destruct (parse_hex_claim dbg t' h H) as (r' & E' & _ & V'). exists r, r'. rewrite V, V'. auto.
Qed.
