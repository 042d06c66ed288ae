(** * KaraExact: exactly when Karatsuba multiplication and squaring stop. *)
From Coq Require Import ZArith List Bool Lia.
From Verif Require Import Base Digit Spec SpecMul Hoare DigitOK Slice Mul ListLemmas SliceProof MulProof
  BufProof WorkSize KaratsubaProof MulTopProof.
Import ListNotations.
Open Scope Z_scope.
Open Scope m_scope.

Section KaraExact.
Variables (B : Z) (D : digit).
Hypothesis OK : digit_ok B D.
Notation val := (value B).
Notation digs := (below B).
Notation "'p' n" := (pw B n) (at level 10, n at level 9).
Notation buf := (buf B).
Let HB : 1 < B := SliceProof.HB B D OK.
Hint Resolve HB : core.

(** ** [places] counts digits *)
Lemma places_in_bound f v n : 0 <= v < 2 ^ Z.of_nat f -> v < p n ->
  (places_in f B v <= n)%nat.
Proof.
  pose proof HB. revert v n. induction f as [|f IH]; intros v n H2 Hn; cbn [places_in]; [lia|].
  destruct (Z.eqb_spec v 0) as [->|Hz]; [lia|].
  destruct n as [|n]; [rewrite pw_0 in Hn; lia|].
  rewrite pw_S in Hn. rewrite Nat2Z.inj_succ, Z.pow_succ_r in H2 by lia.
  apply le_n_S, IH.
  - split; [apply Z.div_pos; lia|]. apply Z.div_lt_upper_bound; [lia|].
    assert (0 < 2 ^ Z.of_nat f) by (apply Z.pow_pos_nonneg; lia). nia.
  - apply Z.div_lt_upper_bound; lia.
Qed.

Lemma places_in_lt f v : 0 <= v < 2 ^ Z.of_nat f -> v < p (places_in f B v).
Proof.
  pose proof HB. revert v. induction f as [|f IH]; intros v H2; cbn [places_in].
  - cbn in H2. rewrite pw_0. lia.
  - destruct (Z.eqb_spec v 0) as [->|Hz]; [rewrite pw_0; lia|].
    rewrite Nat2Z.inj_succ, Z.pow_succ_r in H2 by lia.
    assert (H3 : 0 <= v / B < 2 ^ Z.of_nat f).
    { split; [apply Z.div_pos; lia|]. apply Z.div_lt_upper_bound; [lia|].
      assert (0 < 2 ^ Z.of_nat f) by (apply Z.pow_pos_nonneg; lia). nia. }
    specialize (IH _ H3). rewrite pw_S.
    pose proof (Z.div_mod v B ltac:(lia)). pose proof (Z.mod_pos_bound v B ltac:(lia)). nia.
Qed.

Lemma fuel_enough v : 0 <= v -> 0 <= v < 2 ^ Z.of_nat (S (Z.to_nat (Z.log2 v))).
Proof.
  intros Hv. split; [assumption|]. rewrite Nat2Z.inj_succ, Z2Nat.id by apply Z.log2_nonneg.
  destruct (Z.eq_dec v 0) as [->|]; [reflexivity|]. apply Z.log2_spec. lia.
Qed.

Lemma places_lt v : 0 <= v -> v < p (places B v).
Proof. intros Hv. apply places_in_lt, fuel_enough, Hv. Qed.
Lemma places_le v n : 0 <= v < p n -> (places B v <= n)%nat.
Proof. intros [Hv Hn]. apply places_in_bound; [apply fuel_enough, Hv|assumption]. Qed.

Lemma normal_places l : digs l -> normal l -> places B (val l) = length l.
Proof.
  intros Hd Hn. pose proof (value_bound B HB l Hd) as Hb.
  assert (H1 : (places B (val l) <= length l)%nat) by (apply places_le; assumption).
  assert (H2 : (length l <= places B (val l))%nat).
  { apply (normal_length B D OK); auto. apply places_lt. lia. }
  lia.
Qed.

(** ** The length kept by a subtraction *)
Lemma dec_assign_length nr : digs nr ->
  total (dec_assign D nr) (fun '(r, res) => match res with
    | ROk n => n = if val nr =? p (length nr - 1) then (length nr - 1)%nat else length nr
    | RErr _ => True end).
Proof.
  pose proof HB as HB'.
  induction nr as [|d t IH]; intros H.
  - cbn. exact I.
  - apply below_cons in H. destruct H as [Hd Ht].
    assert (Hmain : forall (d' : Z) (u : bool), 0 <= d' < B -> d' - B * of_bool u = d - 1 -> t <> [] ->
      total (if u then '(t, r) <- dec_assign D t ;;
                Ret (d' :: t, match r with ROk n => ROk (S n) | RErr e => RErr e end)
             else Ret (d' :: t, ROk (length (d' :: t))))
       (fun '(r, res) => match res with
         | ROk n => n = if val (d :: t) =? p (length (d :: t) - 1) then (length (d :: t) - 1)%nat else length (d :: t)
         | RErr _ => True end)).
    { intros d' u Hr He Hne. assert (Hne' : (1 <= length t)%nat) by (destruct t; [congruence|cbn; lia]).
      cbn [length value]. replace (S (length t) - 1)%nat with (S (length t - 1)) by lia.
      rewrite pw_S. pose proof (value_nonneg B HB t Ht) as H0.
      destruct u; cbn [of_bool] in He.
      - assert (d = 0) by lia. subst d.
        tstep IH; [exact Ht|]. intros [t2 r] Hr2. ret. destruct r as [n|]; [|exact I].
        rewrite Hr2.
        destruct (Z.eqb_spec (val t) (p (length t - 1))) as [E|E];
          destruct (Z.eqb_spec (0 + B * val t) (B * p (length t - 1))) as [F|F];
          try reflexivity; exfalso; nia.
      - ret. destruct (Z.eqb_spec (d + B * val t) (B * p (length t - 1))) as [F|F]; [|reflexivity].
        exfalso. set (k := p (length t - 1) - val t). assert (Hk : d = B * k) by (unfold k; lia).
        clearbody k. destruct (Z.le_gt_cases k 0); nia. }
    destruct t as [|e t]; cbn [dec_assign].
    + tstep (ok_dec _ _ OK); [exact Hd|]. intros [d' u] [Hr He].
      cbn [value length Nat.sub]. rewrite pw_0, Z.mul_0_r, Z.add_0_r.
      destruct u; cbn [of_bool] in He; [ret; exact I|].
      destruct (Z.eqb_spec d' 0); ret; destruct (Z.eqb_spec d 1); lia || reflexivity.
    + tstep (ok_dec _ _ OK); [exact Hd|]. intros [d' u] [Hr He].
      apply (Hmain d' u Hr He). discriminate.
Qed.

Lemma lower_of l k : digs l -> (k <= length l)%nat -> lower B (val l) k = val (firstn k l).
Proof.
  intros Hd Hk. unfold lower. change (B ^ Z.of_nat k) with (p k). pose proof (value_split B k l Hk) as E.
  pose proof (value_bound B HB _ (below_firstn B k l Hd)) as Hb.
  rewrite firstn_length, Nat.min_l in Hb by assumption.
  symmetry. apply (Z.mod_unique_pos _ _ (val (skipn k l))); [assumption|]. lia.
Qed.
Lemma upper_of l k : digs l -> (k <= length l)%nat -> upper B (val l) k = val (skipn k l).
Proof.
  intros Hd Hk. unfold upper. change (B ^ Z.of_nat k) with (p k). pose proof (value_split B k l Hk) as E.
  pose proof (value_bound B HB _ (below_firstn B k l Hd)) as Hb.
  rewrite firstn_length, Nat.min_l in Hb by assumption.
  symmetry. apply (Z.div_unique_pos _ _ _ (val (firstn k l))); [assumption|]. lia.
Qed.

Lemma sub_into_length x y r : digs x -> digs y -> digs r -> (length x <= length r)%nat ->
  (length y <= length x)%nat ->
  total (sub_big_into D x y r) (fun '(_, res) => match res with
    | ROk n => n = left_over B (length x) (val x) (length y) (val y)
    | RErr _ => True end).
Proof.
  intros H0 H1 H2 HLd HL.
  pose proof (sub_big_into_ok B D OK x y r H0 H1 H2 HLd) as Hok.
  apply total_inv in Hok. destruct Hok as ([r' res] & Eok & Pok). revert Eok.
  unfold sub_big_into.
  destruct (Nat.ltb_spec (length r) (length x)); [lia|].
  destruct (Nat.ltb_spec (length x) (length y)) as [HL0|_]; [lia|].
  intros Eok. revert Eok.
  pose proof (sub_zip_into_ok B D OK x y r false H0 H1 H2 ltac:(lia) ltac:(lia)) as Hz.
  apply total_inv in Hz. destruct Hz as ([d c] & Ez & HL' & Hr & Hsk & HV). rewrite Ez. cbn [bind].
  change (of_bool false) with 0 in HV.
  set (n1 := length y) in *. set (n0 := length x) in *.
  rewrite suffix_ok by lia. cbn [bind]. rewrite copy_into_ok by (subst n0; len). cbn [bind].
  assert (Lf : length (firstn n1 d) = n1) by len.
  assert (Lh : length (skipn n1 x) = (n0 - n1)%nat) by (subst n0; len).
  pose proof (value_bound B HB _ (below_firstn B n1 d Hr)) as Hbf. rewrite Lf in Hbf.
  pose proof (value_bound B HB _ H1) as Hb1. fold n1 in Hb1.
  pose proof (value_bound B HB _ (below_firstn B n1 x H0)) as Hbx.
  unfold left_over. rewrite lower_of by (auto; fold n0; lia). rewrite upper_of by (auto; fold n0; lia).
  destruct c; cbn [of_bool] in HV.
  - intros Eok. clear Eok Pok.
    destruct (Z.ltb_spec (val (firstn n1 x)) (val y)) as [_|Hc]; [|exfalso; lia].
    assert (Es : firstn (n0 - n1) (skipn n1 (firstn n1 d ++ skipn n1 x ++ skipn n0 d)) = skipn n1 x).
    { rewrite skipn_exact by lia. rewrite firstn_exact by lia. reflexivity. }
    assert (Hdec : total (with_slice (firstn n1 d ++ skipn n1 x ++ skipn n0 d) n1 n0 (dec_assign D))
      (fun '(_, res) => match res with
        | ROk n => n = if val (skipn n1 x) =? p (length (skipn n1 x) - 1)
                       then (length (skipn n1 x) - 1)%nat else length (skipn n1 x)
        | RErr _ => True end)).
    { eapply (spec_with_slice never); [lia|len|apply dec_assign_length|].
      - apply below_firstn, below_skipn. rewrite !below_app.
        conj; [apply below_firstn|apply below_skipn|apply below_skipn]; assumption.
      - rewrite Es. intros s a Ha. exact Ha. }
    tstep Hdec.
    intros [r2 [n|e]] Hn; ret; [|exact I]. rewrite Hn, Lh.
    change (B ^ Z.of_nat (n0 - n1 - 1)) with (p (n0 - n1 - 1)).
    destruct (Nat.eq_dec n0 n1) as [En|Hn1].
    { (* equal lengths cannot borrow and succeed; the formulas agree anyway *)
      rewrite En, Nat.sub_diag. cbn [Nat.sub].
      rewrite skipn_all2 by (fold n0; lia). cbn [value]. rewrite pw_0. cbn. lia. }
    destruct (val (skipn n1 x) =? p (n0 - n1 - 1)); lia.
  - destruct (Z.ltb_spec (val (firstn n1 x)) (val y)) as [Hc|Hc]; [exfalso; lia|].
    intros Eok.
    pose proof (drop_val B (firstn n1 d ++ skipn n1 x ++ skipn n0 d) n0 ltac:(len)) as Hdv.
    apply total_inv in Hdv. destruct Hdv as (n & En & N1 & N2 & N3).
    rewrite En in *. cbn [bind] in *. injection Eok as <- <-.
    ret. destruct Pok as (_ & Dr' & _ & _ & V1 & V2 & _).
    rewrite <- V1. rewrite normal_places; [|apply below_firstn, Dr'|exact N3].
    len.
Qed.

Lemma abs_length x y r : digs x -> digs y -> digs r -> normal x ->
  (Nat.max (length x) (length y) <= length r)%nat ->
  spec (fun w => w = PUnwrap Underflow /\ (length x < length y)%nat /\ val y < val x)
    (sub_big_into_abs_sign D x y r) (fun '(_, (_, m)) =>
      ~ ((length x < length y)%nat /\ val y < val x)
      /\ m = if ((length x <? length y)%nat || (val x <? val y))%bool
             then left_over B (length y) (val y) (length x) (val x)
             else left_over B (length x) (val x) (length y) (val y)).
Proof.
  intros Hx Hy Hr Nx HL. unfold sub_big_into_abs_sign.
  tstep total_debug_assert; [apply Nat.leb_le; exact HL|]. intros _ _.
  destruct (num_lt x y) eqn:E.
  - pose proof (num_lt_true_len _ _ E) as HnL.
    assert (Ec : ((length x <? length y)%nat || (val x <? val y))%bool = true).
    { destruct (Nat.ltb_spec (length x) (length y)) as [|Hge]; [reflexivity|]. cbn [orb].
      rewrite (num_lt_same B) in E by (auto; lia). exact E. }
    rewrite Ec. eapply spec_bind.
    + eapply spec_unwrap_with with (Q := fun '(r', m) => _).
      * apply spec_and; [apply (sub_big_into_ok B D OK y x r)|apply sub_into_length]; auto; lia.
      * intros r' m Hr'. exact Hr'.
      * cbn beta iota. intros r' e ((_ & _ & _ & -> & Hc) & _). conj; auto; try lia.
        destruct (Nat.eq_dec (length x) (length y)) as [En|]; [|lia].
        rewrite (num_lt_same B) in E by (auto; lia). apply Z.ltb_lt in E. lia.
    + cbn beta iota. intros [r' m] ((L & Dr & S & Hle & V & _) & Hm). ret.
      pose proof (value_nonneg B HB _ (below_firstn B m r' Dr)). split; [lia|exact Hm].
  - pose proof (num_lt_false_len _ _ E) as HnL.
    pose proof (num_lt_false_value B HB _ _ Hx Hy Nx E) as Hlt.
    assert (Ec : ((length x <? length y)%nat || (val x <? val y))%bool = false).
    { destruct (Nat.ltb_spec (length x) (length y)) as [Hge|]; [lia|]. cbn [orb].
      apply Z.ltb_ge. exact Hlt. }
    rewrite Ec. eapply spec_bind.
    + eapply spec_unwrap_with with (Q := fun '(r', m) => _).
      * apply spec_and; [apply (sub_big_into_ok B D OK x y r)|apply sub_into_length]; auto; lia.
      * intros r' m Hr'. exact Hr'.
      * cbn beta iota. intros r' e ((_ & _ & _ & -> & Hc) & _). exfalso. lia.
    + cbn beta iota. intros [r' m] (_ & Hm). ret. split; [lia|exact Hm].
Qed.

(** ** The recursive call *)
Lemma stuck_inv m v n w : stuck B m v n w -> both m n /\ let s := half m n in
  hidden B m v s \/ hidden B n w s
  \/ stuck B (gap B m v s) (apart B v s) (gap B n w s) (apart B w s)
  \/ stuck B (places B (lower B v s)) (lower B v s) (places B (lower B w s)) (lower B w s)
  \/ stuck B (m - s) (upper B v s) (n - s) (upper B w s).
Proof. intros H. destruct H; split; auto; cbn zeta; tauto. Qed.

Definition halts (x y : digits) : Prop := stuck B (length x) (val x) (length y) (val y).
Definition stops (x y : digits) (w : panic) : Prop := w = PUnwrap Underflow /\ halts x y.

Definition rec_exact (N : nat) (rec : mul_fn) : Prop := forall x y prod work,
  digs x -> digs y -> digs prod -> digs work -> (Nat.max (length x) (length y) < N)%nat ->
  (Nat.min (length x) (length y) < 128)%nat ->
  (x <> [] -> y <> [] -> (length x + length y <= length prod)%nat) ->
  (need (length x) (length y) <= length work)%nat ->
  spec (stops x y) (rec x y prod work) (fun r => mpost B x y prod work r /\ ~ halts x y).

(** [lia] on the nat part of the context only *)
Ltac keep_nat := repeat match goal with
  | H : ?T |- _ => lazymatch T with
      | (_ <= _)%nat => fail | (_ < _)%nat => fail | (_ <= _ < _)%nat => fail | (_ <= _ <= _)%nat => fail | @eq nat _ _ => fail | nat => fail | not (@eq nat _ _) => fail
      | _ => clear H end
  end.
Ltac nlia := keep_nat; lia.

(** the two pieces of an operand *)
Lemma pieces l s low high : digs low -> digs high -> normal low -> (length low <= s)%nat ->
  val l = val low + p s * val high ->
  lower B (val l) s = val low /\ upper B (val l) s = val high
  /\ places B (lower B (val l) s) = length low /\ apart B (val l) s = Z.abs (val low - val high).
Proof.
  intros Dl Dh Nl Hl E. pose proof (value_bound B HB low Dl) as Hb.
  pose proof (pw_le B (length low) s HB Hl).
  assert (E1 : lower B (val l) s = val low).
  { symmetry. apply (Z.mod_unique_pos _ _ (val high)); [change (B ^ Z.of_nat s) with (p s); lia|].
    change (B ^ Z.of_nat s) with (p s). lia. }
  assert (E2 : upper B (val l) s = val high).
  { symmetry. apply (Z.div_unique_pos _ _ _ (val low)); [change (B ^ Z.of_nat s) with (p s); lia|].
    change (B ^ Z.of_nat s) with (p s). lia. }
  unfold apart. rewrite E1, E2. conj; auto. apply normal_places; assumption.
Qed.

Lemma gap_pieces l s low high m : digs low -> digs high -> normal low -> (length low <= s)%nat ->
  length high = (length l - s)%nat ->
  val l = val low + p s * val high ->
  (m = if ((length low <? length high)%nat || (val low <? val high))%bool
       then left_over B (length high) (val high) (length low) (val low)
       else left_over B (length low) (val low) (length high) (val high)) ->
  m = gap B (length l) (val l) s.
Proof.
  intros Dl Dh Nl Hl Lh E ->. destruct (pieces l s low high Dl Dh Nl Hl E) as (E1 & E2 & E3 & _).
  unfold gap. rewrite E3, E1, E2, Lh. reflexivity.
Qed.

Lemma hidden_pieces l s low high : digs low -> digs high -> normal low -> (length low <= s)%nat ->
  length high = (length l - s)%nat ->
  val l = val low + p s * val high ->
  (hidden B (length l) (val l) s <-> (length low < length high)%nat /\ val high < val low).
Proof.
  intros Dl Dh Nl Hl Lh E. destruct (pieces l s low high Dl Dh Nl Hl E) as (E1 & E2 & E3 & _).
  unfold hidden. rewrite E3, E1, E2, Lh. reflexivity.
Qed.

Lemma spec_any {A} (P P' : panic -> Prop) (e : M A) Q Q' : spec P e Q -> spec P' e Q' -> spec P' e Q.
Proof. destruct e; cbn; auto. Qed.

Lemma kara_exact rec nr0 nr1 result work :
  let n0 := length nr0 in let n1 := length nr1 in let nmax := Nat.max n0 n1 in
  (20 <= n0)%nat -> (20 <= n1)%nat -> (Nat.min n0 n1 < 128)%nat ->
  rec_exact nmax rec ->
  digs nr0 -> digs nr1 -> digs result -> digs work ->
  (n0 + n1 <= length result)%nat -> (calc_karatsuba_work_size nmax <= length work)%nat ->
  spec (stops nr0 nr1) (mul_big_karatsuba_into D rec nr0 nr1 result work)
    (fun r => mpost B nr0 nr1 result work r /\ ~ halts nr0 nr1).
Proof.
  intros n0 n1 nmax Hc0 Hc1 Hmin Hrec D0 D1 Dr Dw HL HW.
  unfold mul_big_karatsuba_into. fold n0 n1 nmax.
  assert (Hboth : both n0 n1) by (split; assumption).
  assert (Hmin' : (Nat.min n0 n1 < 128)%nat) by assumption.
  assert (Ehalf : half n0 n1 = Nat.div2 (nmax + 1)) by reflexivity.
  tstep total_guard; [apply andb_true_iff; split; apply Nat.leb_le; nlia|]. intros _ _.
  tstep total_guard; [apply Nat.leb_le; nlia|]. intros _ _.
  set (s := Nat.div2 (nmax + 1)) in *. pose proof (split_bounds nmax) as Hs. fold s in Hs.
  pose proof (k_step nmax ltac:(nlia)) as Hk. fold s in Hk. rewrite Hk in HW.
  assert (Hneed : forall a b, (a <= s)%nat -> (b <= s)%nat -> (a <= n0)%nat -> (b <= n1)%nat ->
    (need a b <= calc_karatsuba_work_size s)%nat).
  { intros a b ? ? ? ?. apply need_le_k; nlia. }
  assert (Hb : (s <= nmax /\ n0 <= 2 * s /\ n1 <= 2 * s /\ 2 * s <= n0 + n1 /\ s < nmax)%nat) by nlia.
  destruct Hb as (Hb1 & Hb2 & Hb3 & Hb4 & Hb5). clear Hmin Hs Hk.
  clearbody s nmax.
  rewrite split_at_ok by (fold n0; nlia). cbn [bind].
  tstep (drop_val B); [nlia|]. intros nlow0 (Hl0 & Vl0 & Nl0).
  rewrite split_at_ok by (fold n1; nlia). cbn [bind].
  tstep (drop_val B); [nlia|]. intros nlow1 (Hl1 & Vl1 & Nl1).
  rewrite split_at_ok by nlia. cbn [bind].
  rewrite (prefix_ok _ nlow0) by assumption. cbn [bind].
  rewrite (prefix_ok _ nlow1) by assumption. cbn [bind].
  rewrite firstn_all in Vl0, Vl1.
  pose proof (split_value B nr0 s D0) as E0. pose proof (split_value B nr1 s D1) as E1.
  fold n0 in E0. fold n1 in E1.
  rewrite firstn_length in Hl0, Hl1. fold n0 in Hl0. fold n1 in Hl1.
  set (low0 := firstn nlow0 (firstn (Nat.min s n0) nr0)) in *.
  set (low1 := firstn nlow1 (firstn (Nat.min s n1) nr1)) in *.
  set (high0 := skipn (Nat.min s n0) nr0) in *. set (high1 := skipn (Nat.min s n1) nr1) in *.
  assert (Ll0 : length low0 = nlow0) by (unfold low0; rewrite !firstn_length; fold n0; nlia).
  assert (Ll1 : length low1 = nlow1) by (unfold low1; rewrite !firstn_length; fold n1; nlia).
  assert (Lh0 : length high0 = (n0 - s)%nat) by (unfold high0; rewrite skipn_length; fold n0; nlia).
  assert (Lh1 : length high1 = (n1 - s)%nat) by (unfold high1; rewrite skipn_length; fold n1; nlia).
  assert (Dl0 : digs low0) by (apply below_firstn, below_firstn, D0).
  assert (Dl1 : digs low1) by (apply below_firstn, below_firstn, D1).
  assert (Dh0 : digs high0) by (apply below_skipn, D0).
  assert (Dh1 : digs high1) by (apply below_skipn, D1).
  assert (Hl0s : (nlow0 <= s)%nat) by nlia. assert (Hl0n : (nlow0 <= n0)%nat) by nlia.
  assert (Hl1s : (nlow1 <= s)%nat) by nlia. assert (Hl1n : (nlow1 <= n1)%nat) by nlia.
  clear Hl0 Hl1.
  rewrite <- Vl0 in E0. rewrite <- Vl1 in E1.
  clearbody low0 low1 high0 high1.
  assert (Hls0 : (length low0 <= s)%nat) by nlia. assert (Hls1 : (length low1 <= s)%nat) by nlia.
  pose proof (hidden_pieces nr0 s low0 high0 Dl0 Dh0 Nl0 Hls0 Lh0 E0) as Hid0.
  pose proof (hidden_pieces nr1 s low1 high1 Dl1 Dh1 Nl1 Hls1 Lh1 E1) as Hid1.
  destruct (pieces nr0 s low0 high0 Dl0 Dh0 Nl0 Hls0 E0) as (El0 & Eu0 & Ep0 & Ea0).
  destruct (pieces nr1 s low1 high1 Dl1 Dh1 Nl1 Hls1 E1) as (El1 & Eu1 & Ep1 & Ea1).
  pose proof (gap_pieces nr0 s low0 high0) as Hgap0. pose proof (gap_pieces nr1 s low1 high1) as Hgap1.
  fold n0 in Hid0, Hgap0. fold n1 in Hid1, Hgap1.
  assert (Hin : stuck B n0 (val nr0) n1 (val nr1) -> _) by exact (stuck_inv n0 (val nr0) n1 (val nr1)).
  pose proof (stuck_first B n0 (val nr0) n1 (val nr1) Hboth) as C1.
  pose proof (stuck_second B n0 (val nr0) n1 (val nr1) Hboth) as C2.
  pose proof (stuck_between B n0 (val nr0) n1 (val nr1) Hboth) as C3.
  pose proof (stuck_lower B n0 (val nr0) n1 (val nr1) Hboth) as C4.
  pose proof (stuck_upper B n0 (val nr0) n1 (val nr1) Hboth) as C5.
  cbn zeta in *. rewrite Ehalf in *.
  rewrite Ea0, Ea1 in *. rewrite Ep0, Ep1, El0, El1 in *. rewrite Eu0, Eu1, <- Lh0, <- Lh1 in *.
  rewrite Hid0 in C1, Hin. rewrite Hid1 in C2, Hin.
  (* the differences *)
  eapply spec_bind.
  { apply spec_and.
    - eapply spec_any; [apply (abs_into B D OK low0 high0); auto; [apply below_firstn, Dr|rewrite firstn_length; nlia]|].
      eapply spec_weaken; [apply (abs_length low0 high0); auto; [apply below_firstn, Dr|rewrite firstn_length; nlia]| |intros a Ha; exact Ha].
      intros w [-> Hw]. split; [reflexivity|exact (C1 Hw)].
    - eapply spec_weaken; [apply (abs_length low0 high0); auto; [apply below_firstn, Dr|rewrite firstn_length; nlia]| |intros a Ha; exact Ha].
      intros w [-> Hw]. split; [reflexivity|exact (C1 Hw)]. }
  cbn beta zeta. intros [diff0 (sg0 & nd0)] ((Ld0 & Dd0 & _ & Hnd0 & Vd0 & _ & Sg0 & Sg0' & Nd0) & Fr0 & En0).
  apply Hgap0 in En0; auto. clear Hgap0.
  eapply spec_bind.
  { apply spec_and.
    - eapply spec_any; [apply (abs_into B D OK low1 high1); auto; [apply below_skipn, Dr|rewrite skipn_length; nlia]|].
      eapply spec_weaken; [apply (abs_length low1 high1); auto; [apply below_skipn, Dr|rewrite skipn_length; nlia]| |intros a Ha; exact Ha].
      intros w [-> Hw]. split; [reflexivity|exact (C2 Hw)].
    - eapply spec_weaken; [apply (abs_length low1 high1); auto; [apply below_skipn, Dr|rewrite skipn_length; nlia]| |intros a Ha; exact Ha].
      intros w [-> Hw]. split; [reflexivity|exact (C2 Hw)]. }
  cbn beta zeta. intros [diff1 (sg1 & nd1)] ((Ld1 & Dd1 & Sk1 & Hnd1 & Vd1 & _ & Sg1 & Sg1' & Nd1) & Fr1 & En1).
  apply Hgap1 in En1; auto. clear Hgap1. rewrite <- En0, <- En1 in C3, Hin.
  rewrite firstn_length in Ld0. rewrite skipn_length in Ld1.
  replace (Nat.min s (length result)) with s in Ld0 by nlia.
  assert (Hd0s : (nd0 <= s)%nat) by nlia. assert (Hd0n : (nd0 <= n0)%nat) by nlia.
  assert (Hd1s : (nd1 <= s)%nat) by nlia. assert (Hd1n : (nd1 <= n1)%nat) by nlia.
  assert (HM1 : (Nat.max (length low1) (length high1) <= s)%nat) by nlia.
  clear Hnd0 Hnd1 Nd0 Nd1.
  set (M1 := Nat.max (length low1) (length high1)) in *. clearbody M1.
  assert (Lf0 : length (firstn nd0 diff0) = nd0) by (rewrite firstn_length; nlia).
  assert (Lf1 : length (firstn nd1 diff1) = nd1) by (rewrite firstn_length; nlia).
  rewrite split_at_ok by nlia. cbn [bind].
  rewrite prefix_ok by nlia. cbn [bind]. rewrite prefix_ok by nlia. cbn [bind].
  replace (length (firstn (2 * s) work)) with (2 * s)%nat by (rewrite firstn_length; nlia).
  assert (Dnw : digs (skipn (2 * s) work)) by (apply below_skipn, Dw).
  assert (Lnw : (calc_karatsuba_work_size s <= length (skipn (2 * s) work))%nat) by (rewrite skipn_length; nlia).
  eapply spec_bind.
  { eapply spec_weaken; [apply Hrec; auto| |intros a Ha; exact Ha].
    - apply below_firstn, Dd0.
    - apply below_firstn, Dd1.
    - apply below_zeros; auto.
    - rewrite Lf0, Lf1. nlia.
    - rewrite Lf0, Lf1. nlia.
    - intros _ _. rewrite zeros_length. nlia.
    - etransitivity; [|exact Lnw]. apply Hneed; nlia.
    - intros w [-> Hw]. split; [reflexivity|]. apply C3. unfold halts in Hw.
      rewrite Lf0, Lf1, Vd0, Vd1 in Hw. exact Hw. }
  intros [[z1 nw] nz1] [Hp1 Fr2].
  assert (Fr2' : ~ stuck B nd0 (Z.abs (val low0 - val high0)) nd1 (Z.abs (val low1 - val high1))).
  { intros Hc. apply Fr2. unfold halts. rewrite Lf0, Lf1, Vd0, Vd1. exact Hc. }
  assert (B1 : buf z1 nz1 (val (firstn nd0 diff0) * val (firstn nd1 diff1))).
  { eapply (mpost_zero B D OK); [| |exact Hp1|apply value_zeros]; [apply below_zeros; auto|intros _ _; rewrite zeros_length; nlia]. }
  destruct Hp1 as (Lz1 & Dz1 & Lnw1 & Dnw1 & Hz1 & _ & _ & Nz1 & _).
  rewrite Vd0, Vd1 in B1. rewrite zeros_length in Lz1.
  rewrite fill_zero_ok by (rewrite ?app_length; nlia). cbn [bind].
  rewrite firstn_O, Nat.sub_0_r. cbn [app].
  set (n := (n0 + n1)%nat) in *.
  assert (Htail : skipn n (diff0 ++ diff1) = skipn n result).
  { rewrite skipn_app_ge by nlia. rewrite Ld0.
    rewrite (skipn_more M1 (n - s) diff1 (skipn s result)) by (auto; nlia).
    rewrite skipn_skipn. f_equal. nlia. }
  rewrite Htail. set (tail := skipn n result) in *.
  assert (Lt : length tail = (length result - n)%nat) by (unfold tail; rewrite skipn_length; nlia).
  assert (Dt : digs tail) by (apply below_skipn, Dr).
  rewrite split_at_ok by (rewrite app_length, zeros_length; nlia). cbn [bind].
  rewrite firstn_app_le by (rewrite zeros_length; nlia). rewrite skipn_app_le by (rewrite zeros_length; nlia).
  replace (firstn (2 * s) (zeros n)) with (zeros (2 * s)).
  2:{ unfold zeros. replace n with (2 * s + (n - 2 * s))%nat by nlia. rewrite repeat_app, firstn_exact by apply repeat_length; reflexivity. }
  replace (skipn (2 * s) (zeros n)) with (zeros (n - 2 * s)).
  2:{ unfold zeros. replace n with (2 * s + (n - 2 * s))%nat at 2 by nlia. rewrite repeat_app, skipn_exact by apply repeat_length; reflexivity. }
  (* z0 *)
  eapply spec_bind.
  { eapply spec_weaken; [apply Hrec; auto| |intros a Ha; exact Ha].
    - apply below_zeros; auto.
    - nlia.
    - nlia.
    - intros _ _. rewrite zeros_length. nlia.
    - rewrite Lnw1. etransitivity; [|exact Lnw]. apply Hneed; nlia.
    - intros w [-> Hw]. split; [reflexivity|]. exact (C4 Hw). }
  intros [[z0 nw2] nz0] [Hp0 Fr3].
  assert (B0 : buf z0 nz0 (val low0 * val low1)).
  { eapply (mpost_zero B D OK); [| |exact Hp0|apply value_zeros]; [apply below_zeros; auto|intros _ _; rewrite zeros_length; nlia]. }
  destruct Hp0 as (Lz0 & Dz0 & Lnw2 & Dnw2 & Hz0 & _ & _ & Nz0 & _). rewrite zeros_length in Lz0.
  (* z2 *)
  assert (Dz2i : digs (zeros (n - 2 * s) ++ tail)) by (apply below_app; split; [apply below_zeros; auto|assumption]).
  assert (Hfull : high0 <> [] -> high1 <> [] -> (length high0 + length high1 = n - 2 * s)%nat).
  { intros A0 A1. assert ((length high0 <> 0)%nat) by (destruct high0; [congruence|discriminate]).
    assert ((length high1 <> 0)%nat) by (destruct high1; [congruence|discriminate]). nlia. }
  eapply spec_bind.
  { eapply spec_weaken; [apply (Hrec high0 high1 (zeros (n - 2 * s) ++ tail) nw2); auto| |intros a Ha; exact Ha].
    - nlia.
    - nlia.
    - intros A0 A1. rewrite Hfull by assumption. rewrite app_length, zeros_length. nlia.
    - rewrite Lnw2, Lnw1. etransitivity; [|exact Lnw]. apply Hneed; nlia.
    - intros w [-> Hw]. split; [reflexivity|]. exact (C5 Hw). }
  intros [[z2 nw3] nz2] ((Lz2 & Dz2 & Lnw3 & Dnw3 & Hz2 & Hz2' & Vz2 & Nz2 & He2 & Hne2) & Fr4).
  assert (Hfree : ~ stuck B n0 (val nr0) n1 (val nr1)).
  { intros Hc. apply Hin in Hc. destruct Hc as (_ & [Hc|[Hc|[Hc|[Hc|Hc]]]]); tauto. }
  clear Hin C1 C2 C3 C4 C5 Fr0 Fr1 Fr2 Fr2' Fr3 Fr4 Hid0 Hid1 El0 El1 Eu0 Eu1 Ep0 Ep1 Ea0 Ea1 En0 En1.
  rewrite app_length, zeros_length, Lt in Lz2, Hz2'.
  assert (H2 : exists U, 0 <= U /\ val z2 = val high0 * val high1 + p (n - 2 * s) * U /\ (val tail = 0 -> U = 0)).
  { assert (Hcase : (high0 = [] \/ high1 = []) \/ (high0 <> [] /\ high1 <> [])).
    { destruct high0, high1; auto. right. split; discriminate. }
    destruct Hcase as [Hcase|[A0 A1]].
    - destruct (He2 Hcase) as [-> _]. exists (val tail). conj; [apply value_nonneg; auto| |auto].
      rewrite value_app, value_zeros, zeros_length.
      destruct Hcase as [-> | ->]; cbn [value]; lia.
    - destruct (Hne2 A0 A1) as (U & HU & V & Hz). rewrite (Hfull A0 A1) in *. exists U. conj; auto.
      intros Ht. apply Hz. rewrite skipn_exact by apply zeros_length. assumption. }
  destruct H2 as (U & HU & Vz2b & HUz).
  pose proof (value_bound B HB z2 Dz2) as Hbz2.
  assert (Pl : p (length z2) = p (n - 2 * s) * p (length result - n)).
  { rewrite <- pw_add. f_equal. nlia. }
  pose proof (product_bound B D OK nr0 nr1 D0 D1) as HXY. fold n0 n1 in HXY. fold n in HXY.
  pose proof (value_nonneg B HB _ Dl0). pose proof (value_nonneg B HB _ Dl1).
  pose proof (value_nonneg B HB _ Dh0). pose proof (value_nonneg B HB _ Dh1).
  assert (0 < p (n - 2 * s)) by (apply pw_pos; auto).
  assert (HZ2 : 0 <= val high0 * val high1) by (apply Z.mul_nonneg_nonneg; assumption).
  tstep (combine_ok B D OK (xorb sg0 sg1) s n (z0 ++ z2) z1 nz0 nz1 nz2 (val low0) (val low1) (val high0) (val high1) U
           (Z.abs (val low0 - val high0) * Z.abs (val low1 - val high1))); auto.
  - apply below_app. auto.
  - rewrite app_length. nlia.
  - nlia.
  - nlia.
  - nlia.
  - rewrite app_length. nlia.
  - rewrite firstn_app_le by nlia. apply (buf_first B D OK _ _ _ B0).
  - rewrite firstn_app_le by nlia. assumption.
  - rewrite skipn_exact by nlia. assumption.
  - rewrite skipn_exact by nlia. assumption.
  - destruct B0 as (_ & _ & Vb & _). rewrite value_app, Vb, Vz2b, Lz0.
    replace (p n) with (p (2 * s) * p (n - 2 * s)) by (rewrite <- pw_add; f_equal; nlia). ring.
  - split; [assumption|]. rewrite app_length, Lz0, Lz2.
    replace (2 * s + (n - 2 * s + (length result - n)) - n)%nat with (length result - n)%nat by nlia.
    rewrite Pl in Hbz2. clear - Hbz2 Vz2b HZ2 H3. nia.
  - apply (abs_prod sg0 sg1); auto.
  - apply (abs_prod sg0 sg1); auto.
  - rewrite <- E0, <- E1. apply HXY.
  - rewrite <- E0, <- E1. intros [[r z1'] nres] (Lr & Drr & Lz' & Dz' & Hres & Vr & Vn & Nn). ret.
    rewrite app_length in Lr. split; [|unfold halts; fold n0 n1; exact Hfree].
    unfold mpost. fold n0 n1. fold n. conj; auto; try nlia.
    + rewrite app_length, Lnw3, Lnw2, Lnw1, skipn_length. nlia.
    + apply below_app. auto.
    + intros [E|E]; exfalso; [assert (n0 = 0%nat) by (unfold n0; rewrite E; reflexivity)
        |assert (n1 = 0%nat) by (unfold n1; rewrite E; reflexivity)]; nlia.
    + intros _ _. exists U. conj; auto.
Qed.

(** ** Squaring *)
Definition srec_exact (N : nat) (rec : square_fn) : Prop := forall x prod work,
  digs x -> digs prod -> digs work -> (length x < N)%nat -> (length x < 128)%nat ->
  (2 * length x <= length prod)%nat ->
  (need (length x) (length x) <= length work)%nat ->
  spec (stops x x) (rec x prod work) (fun r => mpost B x x prod work r /\ ~ halts x x).

Lemma skara_exact rec nr0 result work :
  let n0 := length nr0 in
  (20 <= n0)%nat -> (n0 < 128)%nat ->
  srec_exact n0 rec ->
  digs nr0 -> digs result -> digs work ->
  (2 * n0 <= length result)%nat -> (calc_karatsuba_work_size n0 <= length work)%nat ->
  spec (stops nr0 nr0) (square_karatsuba_into D rec nr0 result work)
    (fun r => mpost B nr0 nr0 result work r /\ ~ halts nr0 nr0).
Proof.
  intros n0 Hc0 Hmin Hrec D0 Dr Dw HL HW.
  unfold square_karatsuba_into. fold n0.
  assert (Hboth : both n0 n0) by (split; assumption).
  assert (Ehalf : half n0 n0 = Nat.div2 (n0 + 1)) by (unfold half; rewrite Nat.max_id; reflexivity).
  tstep total_guard; [apply Nat.leb_le; lia|]. intros _ _.
  tstep total_guard; [apply Nat.leb_le; lia|]. intros _ _.
  set (s := Nat.div2 (n0 + 1)) in *. pose proof (split_bounds n0) as Hs. fold s in Hs.
  pose proof (k_step n0 ltac:(lia)) as Hk. fold s in Hk. rewrite Hk in HW.
  assert (Hneed : forall a, (a <= s)%nat -> (need a a <= calc_karatsuba_work_size s)%nat).
  { intros a ?. apply need_le_k; lia. }
  clear Hk. clearbody s.
  tstep (drop_val B); [unfold n0 in *; nlia|]. intros nlow0 (Hl0 & Vl0 & Nl0).
  rewrite prefix_ok by (unfold n0 in *; nlia). cbn [bind].
  rewrite suffix_ok by (unfold n0 in *; nlia). cbn [bind].
  pose proof (value_split B s nr0 ltac:(unfold n0 in *; nlia)) as E0.
  set (low0 := firstn nlow0 nr0) in *. set (high0 := skipn s nr0) in *.
  assert (Ll0 : length low0 = nlow0) by (unfold low0; rewrite firstn_length; fold n0; nlia).
  assert (Lh0 : length high0 = (n0 - s)%nat) by (unfold high0; rewrite skipn_length; fold n0; nlia).
  assert (Dl0 : digs low0) by (apply below_firstn, D0).
  assert (Dh0 : digs high0) by (apply below_skipn, D0).
  rewrite <- Vl0 in E0. clear Vl0. clearbody low0 high0.
  assert (Hls0 : (length low0 <= s)%nat) by nlia.
  pose proof (hidden_pieces nr0 s low0 high0 Dl0 Dh0 Nl0 Hls0 Lh0 E0) as Hid0.
  destruct (pieces nr0 s low0 high0 Dl0 Dh0 Nl0 Hls0 E0) as (El0 & Eu0 & Ep0 & Ea0).
  pose proof (gap_pieces nr0 s low0 high0) as Hgap0.
  fold n0 in Hid0, Hgap0.
  assert (Hin : stuck B n0 (val nr0) n0 (val nr0) -> _) by exact (stuck_inv n0 (val nr0) n0 (val nr0)).
  pose proof (stuck_first B n0 (val nr0) n0 (val nr0) Hboth) as C1.
  pose proof (stuck_between B n0 (val nr0) n0 (val nr0) Hboth) as C3.
  pose proof (stuck_lower B n0 (val nr0) n0 (val nr0) Hboth) as C4.
  pose proof (stuck_upper B n0 (val nr0) n0 (val nr0) Hboth) as C5.
  cbn zeta in *. rewrite Ehalf in *.
  rewrite Ea0 in *. rewrite Ep0, El0 in *. rewrite Eu0, <- Lh0 in *.
  rewrite Hid0 in C1, Hin.
  eapply spec_bind.
  { apply spec_and.
    - eapply spec_any; [apply (abs_into B D OK low0 high0); auto; nlia|].
      eapply spec_weaken; [apply (abs_length low0 high0); auto; nlia| |intros a Ha; exact Ha].
      intros w [-> Hw]. split; [reflexivity|exact (C1 Hw)].
    - eapply spec_weaken; [apply (abs_length low0 high0); auto; nlia| |intros a Ha; exact Ha].
      intros w [-> Hw]. split; [reflexivity|exact (C1 Hw)]. }
  cbn beta zeta. intros [diff0 (sg0 & nd0)] ((Ld0 & Dd0 & Sk0 & Hnd0 & Vd0 & _ & Sg0 & Sg0' & Nd0) & Fr0 & En0).
  apply Hgap0 in En0; auto. clear Hgap0. rewrite <- En0 in C3, Hin.
  assert (Hd0s : (nd0 <= s)%nat) by nlia.
  assert (HM1 : (Nat.max (length low0) (length high0) <= s)%nat) by nlia.
  clear Hnd0 Nd0.
  set (M1 := Nat.max (length low0) (length high0)) in *. clearbody M1.
  assert (Lf0 : length (firstn nd0 diff0) = nd0) by (rewrite firstn_length; nlia).
  rewrite split_at_ok by nlia. cbn [bind].
  rewrite prefix_ok by nlia. cbn [bind].
  replace (length (firstn (2 * s) work)) with (2 * s)%nat by (rewrite firstn_length; nlia).
  assert (Dnw : digs (skipn (2 * s) work)) by (apply below_skipn, Dw).
  assert (Lnw : (calc_karatsuba_work_size s <= length (skipn (2 * s) work))%nat) by (rewrite skipn_length; nlia).
  eapply spec_bind.
  { eapply spec_weaken; [apply Hrec; auto| |intros a Ha; exact Ha].
    - apply below_firstn, Dd0.
    - apply below_zeros; auto.
    - rewrite Lf0. nlia.
    - rewrite Lf0. nlia.
    - rewrite zeros_length. nlia.
    - etransitivity; [|exact Lnw]. apply Hneed; nlia.
    - intros w [-> Hw]. split; [reflexivity|]. apply C3. unfold halts in Hw.
      rewrite Lf0, Vd0 in Hw. exact Hw. }
  intros [[z1 nw] nz1] [Hp1 Fr2].
  assert (Fr2' : ~ stuck B nd0 (Z.abs (val low0 - val high0)) nd0 (Z.abs (val low0 - val high0))).
  { intros Hc. apply Fr2. unfold halts. rewrite Lf0, Vd0. exact Hc. }
  assert (B1 : buf z1 nz1 (val (firstn nd0 diff0) * val (firstn nd0 diff0))).
  { eapply (mpost_zero B D OK); [| |exact Hp1|apply value_zeros]; [apply below_zeros; auto|intros _ _; rewrite zeros_length; nlia]. }
  destruct Hp1 as (Lz1 & Dz1 & Lnw1 & Dnw1 & Hz1 & _ & _ & Nz1 & _).
  rewrite Vd0 in B1. rewrite zeros_length in Lz1.
  rewrite fill_zero_ok by nlia. cbn [bind].
  rewrite firstn_O, Nat.sub_0_r. cbn [app].
  set (n := (2 * n0)%nat) in *.
  assert (Htail : skipn n diff0 = skipn n result) by (apply (skipn_more M1); auto; nlia).
  rewrite Htail. set (tail := skipn n result) in *.
  assert (Lt : length tail = (length result - n)%nat) by (unfold tail; rewrite skipn_length; nlia).
  assert (Dt : digs tail) by (apply below_skipn, Dr).
  rewrite split_at_ok by (rewrite app_length, zeros_length; nlia). cbn [bind].
  rewrite firstn_app_le by (rewrite zeros_length; nlia). rewrite skipn_app_le by (rewrite zeros_length; nlia).
  replace (firstn (2 * s) (zeros n)) with (zeros (2 * s)).
  2:{ unfold zeros. replace n with (2 * s + (n - 2 * s))%nat by nlia. rewrite repeat_app, firstn_exact by apply repeat_length; reflexivity. }
  replace (skipn (2 * s) (zeros n)) with (zeros (n - 2 * s)).
  2:{ unfold zeros. replace n with (2 * s + (n - 2 * s))%nat at 2 by nlia. rewrite repeat_app, skipn_exact by apply repeat_length; reflexivity. }
  eapply spec_bind.
  { eapply spec_weaken; [apply Hrec; auto| |intros a Ha; exact Ha].
    - apply below_zeros; auto.
    - nlia.
    - nlia.
    - rewrite zeros_length. nlia.
    - rewrite Lnw1. etransitivity; [|exact Lnw]. apply Hneed; nlia.
    - intros w [-> Hw]. split; [reflexivity|]. exact (C4 Hw). }
  intros [[z0 nw2] nz0] [Hp0 Fr3].
  assert (B0 : buf z0 nz0 (val low0 * val low0)).
  { eapply (mpost_zero B D OK); [| |exact Hp0|apply value_zeros]; [apply below_zeros; auto|intros _ _; rewrite zeros_length; nlia]. }
  destruct Hp0 as (Lz0 & Dz0 & Lnw2 & Dnw2 & Hz0 & _ & _ & Nz0 & _). rewrite zeros_length in Lz0.
  assert (Dz2i : digs (zeros (n - 2 * s) ++ tail)) by (apply below_app; split; [apply below_zeros; auto|assumption]).
  assert (Hfull : (length high0 + length high0 = n - 2 * s)%nat) by nlia.
  eapply spec_bind.
  { eapply spec_weaken; [apply (Hrec high0 (zeros (n - 2 * s) ++ tail) nw2); auto| |intros a Ha; exact Ha].
    - nlia.
    - nlia.
    - rewrite app_length, zeros_length. nlia.
    - rewrite Lnw2, Lnw1. etransitivity; [|exact Lnw]. apply Hneed; nlia.
    - intros w [-> Hw]. split; [reflexivity|]. exact (C5 Hw). }
  intros [[z2 nw3] nz2] ((Lz2 & Dz2 & Lnw3 & Dnw3 & Hz2 & Hz2' & Vz2 & Nz2 & He2 & Hne2) & Fr4).
  assert (Hfree : ~ stuck B n0 (val nr0) n0 (val nr0)).
  { intros Hc. apply Hin in Hc. destruct Hc as (_ & [Hc|[Hc|[Hc|[Hc|Hc]]]]); tauto. }
  clear Hin C1 C3 C4 C5 Fr0 Fr2 Fr2' Fr3 Fr4 Hid0 El0 Eu0 Ep0 Ea0 En0.
  rewrite app_length, zeros_length, Lt in Lz2, Hz2'.
  assert (A0 : high0 <> []) by (intros E; apply (f_equal (@length Z)) in E; cbn in E; nlia).
  assert (H2 : exists U, 0 <= U /\ val z2 = val high0 * val high0 + p (n - 2 * s) * U /\ (val tail = 0 -> U = 0)).
  { destruct (Hne2 A0 A0) as (U & HU & V & Hz). rewrite Hfull in *. exists U. conj; auto.
    intros Ht. apply Hz. rewrite skipn_exact by apply zeros_length. assumption. }
  destruct H2 as (U & HU & Vz2b & HUz).
  pose proof (value_bound B HB z2 Dz2) as Hbz2.
  assert (Pl : p (length z2) = p (n - 2 * s) * p (length result - n)).
  { rewrite <- pw_add. f_equal. nlia. }
  pose proof (product_bound B D OK nr0 nr0 D0 D0) as HXY. fold n0 in HXY.
  replace (n0 + n0)%nat with n in HXY by (unfold n; nlia).
  pose proof (value_nonneg B HB _ Dl0). pose proof (value_nonneg B HB _ Dh0).
  assert (H3 : 0 < p (n - 2 * s)) by (apply pw_pos; auto).
  assert (HZ2 : 0 <= val high0 * val high0) by (apply Z.mul_nonneg_nonneg; assumption).
  destruct (abs_prod sg0 sg0 (val low0) (val high0) (val low0) (val high0)) as [Hab1 Hab2]; auto.
  rewrite xorb_nilpotent in Hab1, Hab2.
  tstep (combine_ok B D OK false s n (z0 ++ z2) z1 nz0 nz1 nz2 (val low0) (val low0) (val high0) (val high0) U
           (Z.abs (val low0 - val high0) * Z.abs (val low0 - val high0))); auto.
  - apply below_app. auto.
  - rewrite app_length. nlia.
  - nlia.
  - nlia.
  - nlia.
  - rewrite app_length. nlia.
  - rewrite firstn_app_le by nlia. apply (buf_first B D OK _ _ _ B0).
  - rewrite firstn_app_le by nlia. assumption.
  - rewrite skipn_exact by nlia. assumption.
  - rewrite skipn_exact by nlia. assumption.
  - destruct B0 as (_ & _ & Vb & _). rewrite value_app, Vb, Vz2b, Lz0.
    replace (p n) with (p (2 * s) * p (n - 2 * s)) by (rewrite <- pw_add; f_equal; nlia). ring.
  - split; [assumption|]. rewrite app_length, Lz0, Lz2.
    replace (2 * s + (n - 2 * s + (length result - n)) - n)%nat with (length result - n)%nat by nlia.
    rewrite Pl in Hbz2. clear - Hbz2 Vz2b HZ2 H3. nia.
  - rewrite <- E0. apply HXY.
  - rewrite <- E0. intros [[r z1'] nres] (Lr & Drr & Lz' & Dz' & Hres & Vr & Vn & Nn). ret.
    rewrite app_length in Lr. split; [|unfold halts; fold n0; exact Hfree].
    unfold mpost. fold n0.
    replace (n0 + n0)%nat with n by (unfold n; nlia). conj; auto; try nlia.
    + rewrite app_length, Lnw3, Lnw2, Lnw1, skipn_length. nlia.
    + apply below_app. auto.
    + intros [E|E]; exfalso; assert (n0 = 0%nat) by (unfold n0; rewrite E; reflexivity); nlia.
    + intros _ _. exists U. conj; auto.
Qed.

(** ** Dispatch *)
Lemma not_both_free x y : (length x < 20)%nat \/ (length y < 20)%nat -> ~ halts x y.
Proof. intros H Hc. apply stuck_inv in Hc. destruct Hc as [[H1 H2] _]. lia. Qed.

Lemma rec_exact_le N M rec : (M <= N)%nat -> rec_exact N rec -> rec_exact M rec.
Proof. intros H Hr x y prod work D0 D1 D2 D3 HL. apply Hr; auto. lia. Qed.
Lemma srec_exact_le N M rec : (M <= N)%nat -> srec_exact N rec -> srec_exact M rec.
Proof. intros H Hr x prod work D0 D2 D3 HL. apply Hr; auto. lia. Qed.

Lemma dispatch_exact rec x y prod work :
  digs x -> digs y -> digs prod -> digs work -> (Nat.min (length x) (length y) < 128)%nat ->
  rec_exact (Nat.max (length x) (length y)) rec ->
  (x <> [] -> y <> [] -> (length x + length y <= length prod)%nat) ->
  (need (length x) (length y) <= length work)%nat ->
  spec (stops x y) (mul_dispatch D rec x y prod work) (fun r => mpost B x y prod work r /\ ~ halts x y).
Proof.
  intros D0 D1 Dp Dw Hmin Hrec HL HW. unfold mul_dispatch.
  destruct (Nat.eqb_spec (length x) 0) as [E|N0]; cbn [orb].
  { ret. split; [|apply not_both_free; lia]. apply (mpost_empty B); auto. left. apply length_zero_iff_nil, E. }
  destruct (Nat.eqb_spec (length y) 0) as [E|N1].
  { ret. split; [|apply not_both_free; lia]. apply (mpost_empty B); auto. right. apply length_zero_iff_nil, E. }
  specialize (HL (nonempty _ N0) (nonempty _ N1)).
  tstep total_guard; [apply Nat.leb_le; lia|]. intros _ _.
  unfold TOOM3_CUTOFF, KARATSUBA_CUTOFF. unfold need in HW.
  unfold TOOM3_CUTOFF, KARATSUBA_CUTOFF in HW.
  destruct (Nat.leb_spec 128 (length x)) as [A0|A0]; destruct (Nat.leb_spec 128 (length y)) as [A1|A1];
    cbn [andb] in *; [exfalso; lia|..].
  all: destruct (Nat.leb_spec 20 (length x)) as [K0|K0]; destruct (Nat.leb_spec 20 (length y)) as [K1|K1];
    cbn [andb] in *.
  all: try (apply kara_exact; auto; lia).
  all: eapply total_bind; [apply (mul_long_ok B D OK); auto|].
  all: intros [r n] (L & Dr & Hn & S & V1 & V2 & N); ret; (split; [|apply not_both_free; lia]);
    apply (mpost_long B D OK); auto using nonempty.
Qed.

Lemma mul_fuel_exact f : rec_exact f (mul_fuel D f).
Proof.
  induction f as [|f IH]; intros x y prod work D0 D1 Dp Dw HN Hg HL HW; [lia|].
  cbn [mul_fuel]. apply dispatch_exact; auto. apply (rec_exact_le f); auto. lia.
Qed.

Lemma mul_into_exact x y prod :
  digs x -> digs y -> digs prod -> (Nat.min (length x) (length y) < 128)%nat ->
  (x <> [] -> y <> [] -> (length x + length y <= length prod)%nat) ->
  spec (stops x y) (mul_big_into D x y prod) (fun r => ipost B x y prod r /\ ~ halts x y).
Proof.
  intros D0 D1 Dp Hmin HL. unfold mul_big_into.
  destruct (Nat.eqb_spec (length x) 0) as [E|N0]; cbn [orb].
  { ret. split; [|apply not_both_free; lia].
    apply (mpost_ipost B x y prod [] prod []), (mpost_empty B); auto; [apply below_nil|].
    left. apply length_zero_iff_nil, E. }
  destruct (Nat.eqb_spec (length y) 0) as [E|N1].
  { ret. split; [|apply not_both_free; lia].
    apply (mpost_ipost B x y prod [] prod []), (mpost_empty B); auto; [apply below_nil|].
    right. apply length_zero_iff_nil, E. }
  specialize (HL (nonempty _ N0) (nonempty _ N1)).
  tstep total_guard; [apply Nat.leb_le; lia|]. intros _ _.
  assert (Hz : forall k, digs (zeros k)) by (intros; apply below_zeros; auto).
  pose proof (mul_fuel_exact (Nat.max (length x) (length y))) as Hrec.
  unfold TOOM3_CUTOFF, KARATSUBA_CUTOFF.
  destruct (Nat.leb_spec 128 (length x)) as [A0|A0]; destruct (Nat.leb_spec 128 (length y)) as [A1|A1];
    cbn [andb] in *; [exfalso; lia|..].
  all: destruct (Nat.leb_spec 20 (length x)) as [K0|K0]; destruct (Nat.leb_spec 20 (length y)) as [K1|K1];
    cbn [andb] in *.
  all: try (eapply spec_bind; [apply kara_exact; auto; try lia; rewrite zeros_length; reflexivity|];
            intros [[pr wk] n] [H Hf]; ret; (split; [eapply mpost_ipost, H|exact Hf])).
  all: apply total_spec; eapply total_post; [apply (mul_long_ok B D OK); auto|].
  all: intros [r n] (L & Dr & Hn & S & V1 & V2 & N); (split; [|apply not_both_free; lia]);
    apply (mpost_ipost B x y prod [] r []), (mpost_long B D OK); auto using nonempty; apply below_nil.
Qed.

Lemma sdispatch_exact rec x prod work :
  digs x -> digs prod -> digs work -> (length x < 128)%nat ->
  srec_exact (length x) rec -> (2 * length x <= length prod)%nat ->
  (need (length x) (length x) <= length work)%nat ->
  spec (stops x x) (square_dispatch D rec x prod work) (fun r => mpost B x x prod work r /\ ~ halts x x).
Proof.
  intros D0 Dp Dw H128 Hrec HL HW. unfold square_dispatch.
  destruct (Nat.eqb_spec (length x) 0) as [E|N0]; cbn [orb].
  { ret. split; [|apply not_both_free; lia]. apply (mpost_empty B); auto. left. apply length_zero_iff_nil, E. }
  tstep total_guard; [apply Nat.leb_le; lia|]. intros _ _.
  unfold TOOM3_CUTOFF, KARATSUBA_CUTOFF. unfold need in HW.
  unfold TOOM3_CUTOFF, KARATSUBA_CUTOFF in HW.
  destruct (Nat.leb_spec 128 (length x)) as [A0|A0]; cbn [andb] in *; [exfalso; lia|].
  destruct (Nat.leb_spec 20 (length x)) as [K0|K0]; cbn [andb] in *.
  { apply skara_exact; auto. rewrite Nat.max_id in HW. exact HW. }
  eapply total_bind; [apply (square_long_ok B D OK); auto|].
  intros [r n] (L & Dr & Hn & S & V1 & V2 & N).
  replace (2 * length x)%nat with (length x + length x)%nat in * by lia.
  ret. split; [|apply not_both_free; lia]. apply (mpost_long B D OK); auto using nonempty.
Qed.

Lemma square_fuel_exact f : srec_exact f (square_fuel D f).
Proof.
  induction f as [|f IH]; intros x prod work D0 Dp Dw HN Hg HL HW; [lia|].
  cbn [square_fuel]. apply sdispatch_exact; auto. apply (srec_exact_le f); auto. lia.
Qed.

Lemma square_into_exact x prod :
  digs x -> digs prod -> (length x < 128)%nat -> (2 * length x <= length prod)%nat ->
  spec (stops x x) (square_into D x prod) (fun r => ipost B x x prod r /\ ~ halts x x).
Proof.
  intros D0 Dp H128 HL. unfold square_into.
  destruct (Nat.eqb_spec (length x) 0) as [E|N0]; cbn [orb].
  { ret. split; [|apply not_both_free; lia].
    apply (mpost_ipost B x x prod [] prod []), (mpost_empty B); auto; [apply below_nil|].
    left. apply length_zero_iff_nil, E. }
  tstep total_guard; [apply Nat.leb_le; lia|]. intros _ _.
  assert (Hz : forall k, digs (zeros k)) by (intros; apply below_zeros; auto).
  pose proof (square_fuel_exact (length x)) as Hrec.
  unfold TOOM3_CUTOFF, KARATSUBA_CUTOFF.
  destruct (Nat.leb_spec 128 (length x)) as [A0|A0]; [exfalso; lia|].
  destruct (Nat.leb_spec 20 (length x)) as [K0|K0].
  { eapply spec_bind; [apply skara_exact; auto; try lia; rewrite zeros_length; reflexivity|].
    intros [[pr wk] n] [H Hf]; ret; split; [eapply mpost_ipost, H|exact Hf]. }
  apply total_spec; eapply total_post; [apply (square_long_ok B D OK); auto|].
  intros [r n] (L & Dr & Hn & S & V1 & V2 & N).
  replace (2 * length x)%nat with (length x + length x)%nat in * by lia.
  split; [|apply not_both_free; lia].
  apply (mpost_ipost B x x prod [] r []), (mpost_long B D OK); auto using nonempty. apply below_nil.
Qed.
End KaraExact.
