(** * ExprProof: expressions over texts. *)
From Coq Require Import ZArith List Bool Lia.
From Verif Require Import Base Digit Slice UBig Text Calc Expr Spec SpecDiv SpecMul SpecToom SpecBz SpecCalc SpecExpr DigitOK ListLemmas TextProof
  TypedProof PowExact ClaimsBasic ClaimsMul ClaimsText ClaimsDiv ClaimsToom TextLaws LeadZero CalcProof FibExact.
From Verif Require KaraExact Laws ClaimsMul ClaimsBz ClaimsDivBig.
From Verif Require Import Expr SpecExpr.
Import ListNotations.
Open Scope Z_scope.
Open Scope m_scope.

Section Eval.
Variables (dbg : bool) (t : dty).
Notation D := (impl dbg t).
Notation B := (radix t).

Lemma length_bound z n : well_formed t z -> num t z < B ^ Z.of_nat n -> (length z <= n)%nat.
Proof.
  pose proof (radix_gt t) as HB. intros W Hz. destruct (Nat.le_gt_cases (length z) n) as [|Hl]; [assumption|exfalso].
  assert (Hz0 : z <> []) by (intros ->; cbn in Hl; lia).
  pose proof (normal_lower _ HB z (proj1 W) (proj2 W) Hz0) as L. unfold pw in L. fold (num t z) in L.
  assert (B ^ Z.of_nat n <= B ^ Z.of_nat (length z - 1)) by (apply Z.pow_le_mono_r; lia). lia.
Qed.
Lemma zero_digits y : well_formed t y -> num t y = 0 -> y = [].
Proof.
  intros W E. pose proof (length_bound y 0 W) as H. rewrite E in H. specialize (H ltac:(cbn; lia)).
  destruct y; [reflexivity|cbn in H; lia].
Qed.
Lemma divisible_divided x y : well_formed t x -> well_formed t y -> divisible t (num t x) (num t y) ->
  divided dbg t x y.
Proof.
  intros Wx Wy [H0 H]. apply Laws.right_claim; auto. intros ->. cbn in H0. lia.
Qed.
Lemma divide_stops_all c x y : well_formed t x -> well_formed t y -> divide_stops t c (num t x) (num t y) ->
  ClaimsDivBig.stops dbg t x y c.
Proof.
  intros Wx Wy (x' & y' & Wx' & Wy' & Ex & Ey & L & H).
  assert (x' = x) as -> by (apply (ClaimsMul.wf_eq t); auto). assert (y' = y) as -> by (apply (ClaimsMul.wf_eq t); auto).
  destruct (is_binary t) eqn:Eb.
  - destruct H as (-> & T & J). apply (ClaimsBz.bz_untied_claim dbg t x y Eb Wx Wy L T). exact J.
  - destruct H as (S & H). destruct (ClaimsBz.bz_scaling_claim dbg t x y Eb Wx Wy L S) as (_ & H1 & H2 & _).
    destruct H as [(-> & O & J)|(-> & O & J)]; [apply H1|apply H2]; assumption.
Qed.
Lemma length_places x : well_formed t x -> places B (num t x) = length x.
Proof. intros [V N]. unfold num. apply (KaraExact.normal_places B D (impl_ok dbg t)); assumption. Qed.

Lemma single_ret f p x : p = Ret (ROk x) -> single f p = (r <- f x ;; Ret (ROk r)).
Proof. intros ->. reflexivity. Qed.
Lemma both_ret f p q x y : p = Ret (ROk x) -> q = Ret (ROk y) ->
  both f p q = (r <- f x y ;; Ret (ROk r)).
Proof. intros -> ->. reflexivity. Qed.

Definition stands (e : expr) (v : Z) : Prop :=
  exists x, evaluate dbg t e = Ret (ROk x) /\ well_formed t x /\ num t x = v.
Definition roughly (e : expr) (v : Z) : Prop :=
  exists x, evaluate dbg t e = Ret (ROk x) /\ valid t x /\ num t x = v.

Lemma eval_plus a b v w : stands a v -> stands b w -> stands (Plus a b) (v + w).
Proof.
  intros (x & Ex & Wx & <-) (y & Ey & Wy & <-). unfold stands. cbn [evaluate]. rewrite (both_ret _ _ _ x y Ex Ey).
  destruct (add_claim dbg t x y (proj1 Wx) (proj1 Wy)) as (r & -> & V & E & N). exists r.
  split; [reflexivity|]. split; [split; [exact V|apply N; [apply Wx|apply Wy]]|exact E].
Qed.
Lemma eval_times a b v w : stands a v -> stands b w ->
  (jam_at B v w -> evaluate dbg t (Times a b) = Panic (PUnwrap Underflow))
  /\ (~ jam_at B v w -> stands (Times a b) (v * w)).
Proof.
  intros (x & Ex & Wx & <-) (y & Ey & Wy & <-). unfold stands. cbn [evaluate]. rewrite (both_ret _ _ _ x y Ex Ey).
  destruct (PowExact.mul_outcome dbg t x y Wx Wy) as [[J ->]|(J & r & -> & W & E)]; split; intros H; try contradiction.
  - reflexivity.
  - exists r. split; [reflexivity|]. auto.
Qed.
Lemma eval_div a b v w : stands a v -> stands b w -> divisible t v w ->
  stands (Over a b) (v / w) /\ stands (Modulo a b) (v mod w).
Proof.
  intros (x & Ex & Wx & <-) (y & Ey & Wy & <-) H. unfold stands. cbn [evaluate].
  rewrite !(both_ret _ _ _ x y Ex Ey).
  destruct (divisible_divided x y Wx Wy H) as (q & r & _ & _ & -> & -> & Wq & Wr & Eu & Er). cbn [bind].
  split; [exists q|exists r]; (split; [reflexivity|]); (split; [assumption|]).
  - apply Z.div_unique with (num t r); [left; exact Er|lia].
  - apply Z.mod_unique with (num t q); [left; exact Er|lia].
Qed.
Lemma eval_zero a b v : stands a v -> stands b 0 ->
  evaluate dbg t (Over a b) = Panic (PExplicit DivisionByZero)
  /\ evaluate dbg t (Modulo a b) = Panic (PExplicit DivisionByZero).
Proof.
  intros (x & Ex & Wx & _) (y & Ey & Wy & E). cbn [evaluate]. rewrite !(both_ret _ _ _ x y Ex Ey).
  rewrite (zero_digits y Wy E). destruct (div_zero_claim dbg t x) as (_ & _ & -> & ->). split; reflexivity.
Qed.
Lemma eval_div_stops c a b v w : stands a v -> stands b w -> divide_stops t c v w ->
  evaluate dbg t (Over a b) = Panic c /\ evaluate dbg t (Modulo a b) = Panic c.
Proof.
  intros (x & Ex & Wx & <-) (y & Ey & Wy & <-) H. cbn [evaluate]. rewrite !(both_ret _ _ _ x y Ex Ey).
  destruct (divide_stops_all c x y Wx Wy H) as (_ & _ & -> & ->). split; reflexivity.
Qed.
Lemma eval_power a v n : stands a v -> moderate t v (Z.of_N n) ->
  (jam_power B v (Z.of_N n) -> evaluate dbg t (Power a n) = Panic (PUnwrap Underflow))
  /\ (~ jam_power B v (Z.of_N n) -> stands (Power a n) (v ^ Z.of_N n)).
Proof.
  intros (x & Ex & Wx & <-) H. unfold stands. cbn [evaluate]. rewrite (single_ret _ _ x Ex).
  destruct (pow_exact_claim dbg t x n Wx H) as [H1 H2]. split; intros J.
  - rewrite (H1 J). reflexivity.
  - destruct (H2 J) as (r & -> & W & E). exists r. split; [reflexivity|]. auto.
Qed.
Lemma eval_left a v n : stands a v -> 0 <= n ->
  (if is_binary t then v <> 0 \/ n < bits t else moderate t 2 n /\ ~ shift_jams t v n) ->
  stands (ShiftL a n) (v * 2 ^ n).
Proof.
  intros (x & Ex & Wx & <-) Hn H. unfold stands. cbn [evaluate]. rewrite (single_ret _ _ x Ex).
  destruct (is_binary t) eqn:Eb.
  - destruct (ClaimsBasic.shl_bin_claim dbg t x n Eb (proj1 Wx) Hn) as (r & -> & V & E & N). exists r.
    split; [reflexivity|]. split; [|exact E]. split; [exact V|]. apply N; [apply Wx|].
    destruct H as [H|H]; [left|right; exact H]. intros ->. apply H. reflexivity.
  - destruct H as [L J]. destruct (shl_exact_claim dbg t x n Eb Wx Hn L) as [_ H2].
    destruct (H2 J) as (r & -> & W & E). exists r. split; [reflexivity|]. auto.
Qed.
Lemma eval_left_stops a v n : stands a v -> 0 <= n -> is_binary t = false -> moderate t 2 n -> shift_jams t v n ->
  evaluate dbg t (ShiftL a n) = Panic (PUnwrap Underflow).
Proof.
  intros (x & Ex & Wx & <-) Hn Eb L J. cbn [evaluate]. rewrite (single_ret _ _ x Ex).
  destruct (shl_exact_claim dbg t x n Eb Wx Hn L) as [H1 _]. rewrite (H1 J). reflexivity.
Qed.
Lemma eval_right a v n : stands a v -> 0 <= n ->
  (shiftable t v n -> stands (ShiftR a n) (v / 2 ^ n))
  /\ (~ shiftable t v n ->
      evaluate dbg t (ShiftR a n) = Panic (if is_binary t then PIndex else PUnimplemented)).
Proof.
  intros (x & Ex & Wx & <-) Hn. unfold stands, shiftable. cbn [evaluate]. rewrite (single_ret _ _ x Ex).
  rewrite (length_places x Wx). split; intros H.
  - destruct (ClaimsBasic.shr_claim dbg t x n Wx Hn H) as (r & -> & W & E). exists r. split; [reflexivity|]. auto.
  - rewrite (ClaimsBasic.shr_panic_claim dbg t x n Hn); [reflexivity|]. destruct (is_binary t); lia.
Qed.
Lemma eval_minus a b v w : roughly a v -> stands b w ->
  (w <= v -> roughly (Minus a b) (v - w))
  /\ (v < w -> evaluate dbg t (Minus a b) = Panic (PExplicit Underflow)).
Proof.
  intros (x & Ex & Vx & <-) (y & Ey & Wy & <-). unfold roughly. cbn [evaluate]. rewrite (both_ret _ _ _ x y Ex Ey).
  destruct (sub_claim dbg t x y Vx Wy) as [H1 H2]. split; intros H.
  - destruct (H2 H) as (r & -> & V & E). exists r. split; [reflexivity|]. auto.
  - rewrite (H1 H). reflexivity.
Qed.
Lemma eval_plus_rough a b v w : roughly a v -> roughly b w -> roughly (Plus a b) (v + w).
Proof.
  intros (x & Ex & Vx & <-) (y & Ey & Vy & <-). unfold roughly. cbn [evaluate]. rewrite (both_ret _ _ _ x y Ex Ey).
  destruct (add_claim dbg t x y Vx Vy) as (r & -> & V & E & N). exists r. split; [reflexivity|]. auto.
Qed.
Lemma stands_roughly e v : stands e v -> roughly e v.
Proof. intros (x & E & W & N). exists x. split; [exact E|]. split; [apply W|exact N]. Qed.

Lemma positive_linear e : positive e -> linear e.
Proof. induction e; cbn; tauto. Qed.

Lemma eval_positive e v : means t e v -> positive e -> stands e v.
Proof.
  induction 1; cbn [positive]; intros P.
  - destruct (parse_literal dbg t s v H) as (x & E & W & N). exists x. auto.
  - apply eval_plus; tauto.
  - contradiction.
  - apply eval_times; tauto.
  - apply eval_div; tauto.
  - apply eval_div; tauto.
  - apply eval_power; tauto.
  - apply eval_left; tauto.
  - apply eval_right; tauto.
Qed.
Lemma eval_linear e v : means t e v -> linear e -> roughly e v.
Proof.
  induction 1; intros P.
  - apply stands_roughly, eval_positive; [constructor; assumption|exact P].
  - cbn in P. apply eval_plus_rough; tauto.
  - cbn in P. apply eval_minus; [tauto|apply eval_positive; tauto|assumption].
  - apply stands_roughly, eval_positive; [econstructor; eassumption|exact P].
  - apply stands_roughly, eval_positive; [econstructor; eassumption|exact P].
  - apply stands_roughly, eval_positive; [econstructor; eassumption|exact P].
  - apply stands_roughly, eval_positive; [econstructor; eassumption|exact P].
  - apply stands_roughly, eval_positive; [econstructor; eassumption|exact P].
  - apply stands_roughly, eval_positive; [econstructor; eassumption|exact P].
Qed.

Lemma panic_left f p q c : p = Panic c -> both f p q = Panic c.
Proof. intros ->. reflexivity. Qed.
Lemma panic_right f p q c x : p = Ret (ROk x) -> q = Panic c -> both f p q = Panic c.
Proof. intros -> ->. reflexivity. Qed.
Lemma linear_left f a b : In f [Plus; Minus; Times; Over; Modulo] -> linear (f a b) -> linear a.
Proof.
  intros H L. repeat destruct H as [<-|H]; try contradiction; cbn in L; try tauto; apply positive_linear; tauto.
Qed.
Lemma linear_right f a b : In f [Plus; Minus; Times; Over; Modulo] -> linear (f a b) -> linear b.
Proof.
  intros H L. repeat destruct H as [<-|H]; try contradiction; cbn in L; try tauto; apply positive_linear; tauto.
Qed.
Lemma eval_op f : In f [Plus; Minus; Times; Over; Modulo] -> exists g, forall a b,
  evaluate dbg t (f a b) = both g (evaluate dbg t a) (evaluate dbg t b).
Proof.
  intros H. repeat destruct H as [<-|H]; try contradiction; eexists; intros; reflexivity.
Qed.
Lemma eval_stops c e : stops t c e -> linear e -> evaluate dbg t e = Panic c.
Proof.
  induction 1 as [a b v w Ha Hb Hlt|a b v w Ha Hb J|a b v Ha Hb|a b v Ha Hb|c a b v w Ha Hb J|c a b v w Ha Hb J
    |a v n Ha Hm J|a v n Ha Hn Eb Hm J|a v n Ha Hn J|c f a b Hf H IH|c f a b v Hf Ha H IH|c a n H IH|c a n H IH|c a n H IH];
    intros L.
  - cbn in L. apply (eval_minus a b v w); [apply eval_linear; tauto|apply eval_positive; tauto|exact Hlt].
  - cbn in L. apply (eval_times a b v w); [apply eval_positive; tauto|apply eval_positive; tauto|exact J].
  - cbn in L. apply (eval_zero a b v); apply eval_positive; tauto.
  - cbn in L. apply (eval_zero a b v); apply eval_positive; tauto.
  - cbn in L. apply (eval_div_stops c a b v w); [apply eval_positive; tauto|apply eval_positive; tauto|exact J].
  - cbn in L. apply (eval_div_stops c a b v w); [apply eval_positive; tauto|apply eval_positive; tauto|exact J].
  - cbn in L. apply (eval_power a v n); [apply eval_positive; tauto|exact Hm|exact J].
  - cbn in L. apply (eval_left_stops a v n); [apply eval_positive; tauto|assumption..].
  - cbn in L. apply (eval_right a v n); [apply eval_positive; tauto|exact Hn|exact J].
  - destruct (eval_op f Hf) as (g & ->). apply panic_left, IH, (linear_left f a b Hf L).
  - destruct (eval_op f Hf) as (g & ->). pose proof (linear_left f a b Hf L) as La.
    destruct (eval_linear a v Ha La) as (x & E & _).
    apply (panic_right g _ _ c x E), IH, (linear_right f a b Hf L).
  - cbn [evaluate]. unfold single. rewrite IH; [reflexivity|apply positive_linear, L].
  - cbn [evaluate]. unfold single. rewrite IH; [reflexivity|apply positive_linear, L].
  - cbn [evaluate]. unfold single. rewrite IH; [reflexivity|apply positive_linear, L].
Qed.

Lemma compute_ret e x : evaluate dbg t e = Ret (ROk x) -> compute dbg t e = Ret (ROk (print t x)).
Proof. intros H. unfold compute. rewrite H. reflexivity. Qed.
Lemma expr_right_claim e v : means t e v ->
  (linear e -> exists s, compute dbg t e = Ret (ROk s) /\ literal s v)
  /\ (positive e -> exists s, compute dbg t e = Ret (ROk s) /\ canonical (is_binary t) s v).
Proof.
  intros H. split; intros P.
  - destruct (eval_linear e v H P) as (x & E & V & <-). exists (print t x).
    split; [apply compute_ret, E|apply print_literal, V].
  - destruct (eval_positive e v H P) as (x & E & W & <-). exists (print t x).
    split; [apply compute_ret, E|apply print_canonical, W].
Qed.
Lemma expr_stops_claim c e : stops t c e -> linear e -> compute dbg t e = Panic c.
Proof. intros H L. unfold compute. rewrite (eval_stops c e H L). reflexivity. Qed.
End Eval.

Lemma literal_nonneg s v : literal s v -> 0 <= v.
Proof.
  intros H. destruct (parse_literal true B8 s v H) as (x & _ & W & <-). exact (wf_nonneg' B8 x W).
Qed.
Lemma literal_unique s v w : literal s v -> literal s w -> v = w.
Proof.
  intros H H'. destruct (parse_literal true B8 s v H) as (x & E & _ & <-).
  destruct (parse_literal true B8 s w H') as (y & E' & _ & <-). congruence.
Qed.
Lemma means_unique t e v w : means t e v -> means t e w -> v = w.
Proof.
  intros H. revert w. induction H; intros z Hz; inversion Hz; subst.
  - eapply literal_unique; eassumption.
  - f_equal; auto.
  - f_equal; auto.
  - f_equal; auto.
  - f_equal; auto.
  - f_equal; auto.
  - f_equal; auto.
  - f_equal; auto.
  - f_equal; auto.
Qed.
Lemma means_nonneg t e v : means t e v -> 0 <= v.
Proof.
  pose proof (radix_gt t) as HB.
  assert (DV : forall v w, divisible t v w -> 0 < w) by (intros v' w' [H _]; exact H).
  induction 1.
  - eapply literal_nonneg; eassumption.
  - apply Z.add_nonneg_nonneg; assumption.
  - apply Z.le_0_sub; assumption.
  - apply Z.mul_nonneg_nonneg; assumption.
  - apply Z.div_pos; [assumption|eauto].
  - apply Z.mod_pos_bound. eauto.
  - apply Z.pow_nonneg. assumption.
  - apply Z.mul_nonneg_nonneg; [assumption|apply Z.pow_nonneg; discriminate].
  - apply Z.div_pos; [assumption|apply Z.pow_pos_nonneg; [reflexivity|assumption]].
Qed.
Lemma jam_dec t v w : 0 <= v -> 0 <= w -> jam_at (radix t) v w \/ ~ jam_at (radix t) v w.
Proof.
  pose proof (radix_gt t) as HB. intros Hv Hw.
  assert (R : forall u, 0 <= u -> exists x, well_formed t x /\ num t x = u).
  { intros u Hu. destruct (represent t (Z.to_nat u) u) as (x & W & E & _); [|exists x; auto].
    split; [exact Hu|]. rewrite Z2Nat.id by exact Hu. apply Z.pow_gt_lin_r; [lia|exact Hu]. }
  destruct (R v Hv) as (x & Wx & <-). destruct (R w Hw) as (y & Wy & <-). apply (jam_at_dec true t x y Wx Wy).
Qed.
(** every expression without divisions has a value or stops *)
Lemma expr_total t e : every_literal (fun s => exists v, literal s v) e -> undivided e ->
  (exists v, means t e v) \/ exists c, stops t c e.
Proof.
  assert (I1 : In Plus [Plus; Minus; Times; Over; Modulo]) by (cbn; tauto).
  assert (I2 : In Minus [Plus; Minus; Times; Over; Modulo]) by (cbn; tauto).
  assert (I3 : In Times [Plus; Minus; Times; Over; Modulo]) by (cbn; tauto).
  induction e as [s|a IHa b IHb|a IHa b IHb|a IHa b IHb|a IHa b IHb|a IHa b IHb|a IHa n|a IHa n|a IHa n]; cbn [every_literal undivided];
    intros HL HU; try contradiction;
    try (destruct HU as [Ua Ub]; destruct HL as [La Lb]; specialize (IHa La Ua); specialize (IHb Lb Ub);
         destruct IHa as [[v Ha]|[c Hc]];
         [|right; exists c; apply stops_left; assumption];
         destruct IHb as [[w Hb]|[c Hc]];
         [|right; exists c; eapply stops_right; eassumption]).
  - destruct HL as [v H]. left. exists v. constructor. exact H.
  - left. exists (v + w). constructor; assumption.
  - destruct (Z.lt_ge_cases v w) as [H|H].
    + right. exists (PExplicit Underflow). eapply stops_negative; eassumption.
    + left. exists (v - w). constructor; assumption.
  - destruct (jam_dec t v w (means_nonneg _ _ _ Ha) (means_nonneg _ _ _ Hb)) as [J|J].
    + right. exists (PUnwrap Underflow). eapply stops_jam; eassumption.
    + left. exists (v * w). constructor; assumption.
  - destruct HU as [HU Hn]. destruct (IHa HL HU) as [[v Ha]|[c Hc]]; [|right; exists c; apply stops_right_in, Hc].
    assert (S : shiftable t v n \/ ~ shiftable t v n).
    { unfold shiftable. destruct (is_binary t);
        [destruct (Z.le_gt_cases (n / bits t) (Z.of_nat (places (radix t) v)))
        |destruct (Z.le_gt_cases n (4 * Z.of_nat (MAX_HEX_PLACES t)))]; [left|right|left|right]; lia. }
    destruct S as [S|S].
    + left. exists (v / 2 ^ n). constructor; assumption.
    + right. eexists. eapply stops_shift_right; eassumption.
Qed.
(** products of factors of at most 40 digits, or of at most 19 digits and any other, do not jam *)
Lemma jam_large t v w : 0 <= v -> 0 <= w -> jam_at (radix t) v w ->
  radix t ^ 19 <= v /\ radix t ^ 19 <= w /\ radix t ^ 40 <= Z.max v w.
Proof.
  pose proof (radix_gt t) as HB. intros Hv Hw J.
  assert (R : forall u, 0 <= u -> exists x, well_formed t x /\ num t x = u).
  { intros u Hu. destruct (represent t (Z.to_nat u) u) as (x & W & E & _); [|exists x; auto].
    split; [exact Hu|]. rewrite Z2Nat.id by exact Hu. apply Z.pow_gt_lin_r; [lia|exact Hu]. }
  destruct (R v Hv) as (x & Wx & Ex). destruct (R w Hw) as (y & Wy & Ey).
  assert (K : forall r, mul_assign (impl true t) x y = Ret r -> False).
  { intros r E. destruct (PowExact.mul_outcome true t x y Wx Wy) as [[_ E']|[J' _]];
      [|rewrite Ex, Ey in J'; contradiction].
    exact (eq_ind (Ret r) (fun m => match m with Ret _ => True | _ => False end) I _ (eq_trans (eq_sym E) E')). }
  destruct (Z.lt_ge_cases v (radix t ^ 19)) as [Hx|Hx].
  { exfalso. destruct (mul_short_claim true t x y (proj1 Wx) (proj1 Wy)) as (r & E & _); [|exact (K r E)].
    left. pose proof (length_bound t x 19 Wx). rewrite Ex in H. change (Z.of_nat 19) with 19 in H. specialize (H Hx). lia. }
  destruct (Z.lt_ge_cases w (radix t ^ 19)) as [Hy|Hy].
  { exfalso. destruct (mul_short_claim true t x y (proj1 Wx) (proj1 Wy)) as (r & E & _); [|exact (K r E)].
    right. pose proof (length_bound t y 19 Wy). rewrite Ey in H. change (Z.of_nat 19) with 19 in H. specialize (H Hy). lia. }
  split; [exact Hx|]. split; [exact Hy|]. destruct (Z.lt_ge_cases (Z.max v w) (radix t ^ 40)) as [H|H]; [|exact H].
  exfalso. revert J. apply no_jam_forty; lia.
Qed.
Lemma expr_total_claim t e : every_literal (fun s => exists v, literal s v) e -> undivided e ->
  ((exists v, means t e v) \/ exists c, stops t c e)
  /\ ~ ((exists v, means t e v) /\ exists c, stops t c e /\ linear e).
Proof.
  intros HL HU. split; [apply expr_total; assumption|]. intros [[v H] (c & Hc & L)].
  destruct (eval_linear true t e v H L) as (x & E & _). rewrite (eval_stops true t c e Hc L) in E. discriminate E.
Qed.
(** simple sufficient conditions *)
Lemma divisible_digit t v w : 0 < w < radix t -> divisible t v w.
Proof.
  intros H. split; [lia|]. intros x y _ Wy _ Ey. left.
  pose proof (length_bound t y 1 Wy) as L. rewrite Ey in L. specialize (L ltac:(cbn; lia)).
  destruct y; [cbn in Ey; lia|cbn in *; lia].
Qed.
Lemma moderate_small t v n : 0 <= v -> v ^ n < radix t ^ 40 -> moderate t v n.
Proof.
  pose proof (radix_gt t) as HB. intros Hv H i Hi Hn.
  assert (P : 0 < 2 ^ i) by (apply Z.pow_pos_nonneg; lia).
  assert (E : 2 ^ (i + 1) = 2 * 2 ^ i) by (rewrite Z.pow_add_r by lia; lia).
  assert (radix t ^ 40 < radix t ^ 1131) by (apply Z.pow_lt_mono_r; lia).
  destruct (Z.eq_dec v 0) as [->|Hv0].
  - rewrite Z.pow_0_l by exact P. apply Z.pow_pos_nonneg; lia.
  - assert (v ^ 2 ^ i <= v ^ n) by (apply Z.pow_le_mono_r; lia). lia.
Qed.
Lemma power_small t v n : 0 <= v -> v ^ Z.of_N n < radix t ^ 40 -> ~ jam_power (radix t) v (Z.of_N n).
Proof.
  intros Hv H J. pose proof (moderate_small t v (Z.of_N n) Hv H) as Hm.
  assert (Lt : v < radix t ^ Z.of_nat (Z.to_nat v)).
  { rewrite Z2Nat.id by exact Hv. apply Z.pow_gt_lin_r; [apply radix_gt|exact Hv]. }
  destruct (represent t (Z.to_nat v) v (conj Hv Lt)) as (x & W & <- & _).
  destruct (pow_exact_claim true t x n W Hm) as [H1 _].
  destruct (pow_total_claim true t x n W H) as (r & E & _). specialize (H1 J).
  exact (eq_ind (Ret r) (fun m => match m with Ret _ => True | _ => False end) I _ (eq_trans (eq_sym E) H1)).
Qed.
Lemma simple_claim t v w n : 0 <= v ->
  (0 < w < radix t -> divisible t v w)
  /\ (v ^ Z.of_N n < radix t ^ 40 -> moderate t v (Z.of_N n) /\ ~ jam_power (radix t) v (Z.of_N n)).
Proof.
  intros Hv. split; [apply divisible_digit|]. intros H. split; [apply moderate_small|apply power_small]; assumption.
Qed.
(** the types do not show *)
Lemma means_types t t' e v w : means t e v -> means t' e w -> v = w.
Proof.
  intros H. revert w. induction H; intros z Hz; inversion Hz; subst.
  - eapply literal_unique; eassumption.
  - f_equal; auto.
  - f_equal; auto.
  - f_equal; auto.
  - f_equal; auto.
  - f_equal; auto.
  - f_equal; auto.
  - f_equal; auto.
  - f_equal; auto.
Qed.
Lemma expr_types_claim dbg dbg' t t' e v v' s s' : means t e v -> means t' e v' -> linear e ->
  compute dbg t e = Ret (ROk s) -> compute dbg' t' e = Ret (ROk s') ->
  v = v' /\ literal s v /\ literal s' v /\ (positive e -> is_binary t = is_binary t' -> s = s').
Proof.
  intros H H' L E E'. pose proof (means_types t t' e v v' H H') as <-. split; [reflexivity|].
  destruct (expr_right_claim dbg t e v H) as [A B]. destruct (expr_right_claim dbg' t' e v H') as [A' B'].
  destruct (A L) as (u & U & Lu). destruct (A' L) as (u' & U' & Lu').
  assert (u = s) by congruence. assert (u' = s') by congruence. subst u u'.
  split; [exact Lu|]. split; [exact Lu'|]. intros P K.
  destruct (B P) as (u & Eu & C). destruct (B' P) as (u' & Eu' & C').
  assert (u = s) by congruence. assert (u' = s') by congruence. subst u u'.
  rewrite <- K in C'. exact (canonical_unique _ _ _ _ C C').
Qed.
