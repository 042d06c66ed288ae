(** * SliceClaims: the slice routines do what their documentation says. *)
From Coq Require Import ZArith List Bool Lia.
From Verif Require Import Base Digit Slice Mul Div UBig Spec SpecMul Hoare DigitOK ListLemmas SliceProof
  MulProof BufProof WorkSize UBigProof DivProof TypedProof KaraExact Cases ClaimsBasic.
Import ListNotations.
Open Scope Z_scope.
Open Scope m_scope.

Section Slices.
Variables (dbg : bool) (t : dty).
Notation B := (radix t).
Notation D := (impl dbg t).
Notation OK := (impl_ok dbg t).
Notation base n := (B ^ Z.of_nat n).

Lemma of_bool_b2z b : of_bool b = Z.b2z b.
Proof. destruct b; reflexivity. Qed.

Lemma base_mono m n : (m <= n)%nat -> base m <= base n.
Proof. intros H. pose proof (radix_gt t). apply Z.pow_le_mono_r; lia. Qed.
Lemma base_pos n : 0 < base n.
Proof. pose proof (radix_gt t). apply Z.pow_pos_nonneg; lia. Qed.
Lemma base_S n : base (S n) = B * base n.
Proof. rewrite Nat2Z.inj_succ, Z.pow_succ_r by lia. reflexivity. Qed.
Lemma num_range x : valid t x -> 0 <= num t x < base (length x).
Proof. intros V. exact (value_bound B (radix_gt t) x V). Qed.

(** ** addition *)
Lemma inc_claim x : valid t x ->
  exists r c, inc_assign D x = Ret (r, c) /\ length r = length x /\ valid t r
    /\ num t r + base (length x) * Z.b2z c = num t x + 1.
Proof.
  intros V. destruct (total_inv _ _ (inc_assign_ok _ _ OK x V)) as ([r c] & E & H1 & H2 & H3).
  exists r, c. conj; auto.
Qed.

Lemma add_digit_claim x d : valid t x -> 0 <= d < B ->
  exists r c, add_assign_digit D x d = Ret (r, c) /\ length r = length x /\ valid t r
    /\ match c with
       | None => num t r = num t x + d
       | Some k => 0 < k < B /\ num t r + base (length x) * k = num t x + d
       end.
Proof.
  intros V Hd. destruct (total_inv _ _ (add_assign_digit_ok _ _ OK x d V Hd)) as ([r c] & E & H1 & H2 & H3).
  exists r, c. conj; auto.
Qed.

Lemma add_big_claim x y : valid t x -> valid t y ->
  if (length y <=? length x)%nat then
    exists r c, add_assign_big D x y = Ret (r, c) /\ length r = length x /\ valid t r
      /\ num t r + base (length x) * Z.b2z c = num t x + num t y
  else add_assign_big D x y = Panic PAssert.
Proof.
  intros V W. destruct (Nat.leb_spec (length y) (length x)) as [H|H].
  - destruct (total_inv _ _ (add_assign_big_ok _ _ OK x y V W H)) as ([r c] & E & H1 & H2 & H3).
    exists r, c. conj; auto.
  - unfold add_assign_big. apply Nat.leb_gt in H. rewrite H. reflexivity.
Qed.

Lemma add_into_claim x y s : valid t x -> valid t y -> valid t s ->
  let n := Nat.max (length x) (length y) in
  exists r res, add_big_into D x y s = Ret (r, res) /\ length r = length s /\ valid t r
    /\ if ((length s <? n)%nat || (base (length s) <=? num t x + num t y))%bool then res = RErr NoSpace
       else let m := if num t x + num t y <? base n then n else S n in
            res = ROk m /\ num t (firstn m r) = num t x + num t y /\ skipn m r = skipn m s.
Proof.
  intros V W U n. pose proof (num_range x V) as Bx. pose proof (num_range y W) as By.
  destruct (Nat.ltb_spec (length s) n) as [H|H]; cbn [orb].
  - exists s, (RErr NoSpace). conj; auto. unfold add_big_into. fold n.
    apply Nat.ltb_lt in H. rewrite H. reflexivity.
  - destruct (total_inv _ _ (add_big_into_ok _ _ OK x y s V W U H)) as ([r res] & E & H1 & H2 & H3).
    exists r, res. conj; auto. unfold pw in H3. fold n in H3.
    assert (HS : num t x + num t y < base (S n)).
    { pose proof (base_mono (length x) n ltac:(lia)). pose proof (base_mono (length y) n ltac:(lia)).
      rewrite base_S. pose proof (radix_gt t). nia. }
    unfold num in *. destruct res as [m|e].
    + destruct H3 as ([(-> & Hlt)|(-> & Hge & Hl)] & Hv & Hs).
      * pose proof (base_mono n (length s) H). destruct (Z.leb_spec (base (length s)) (value B x + value B y)); [lia|].
        destruct (Z.ltb_spec (value B x + value B y) (base n)); [|lia]. conj; auto.
      * pose proof (base_mono (S n) (length s) Hl). destruct (Z.leb_spec (base (length s)) (value B x + value B y)); [lia|].
        destruct (Z.ltb_spec (value B x + value B y) (base n)); [lia|]. conj; auto.
    + destruct H3 as (-> & Hl & Hge). rewrite Hl.
      destruct (Z.leb_spec (base n) (value B x + value B y)); [reflexivity|lia].
Qed.

(** ** subtraction *)
Lemma dec_claim x : valid t x ->
  exists r res, dec_assign D x = Ret (r, res) /\ length r = length x /\ valid t r
    /\ if num t x =? 0 then res = RErr Underflow
       else exists n, res = ROk n /\ num t r = num t x - 1 /\ (n <= length x)%nat
            /\ num t (firstn n r) = num t x - 1
            /\ n = if num t x =? base (length x - 1) then (length x - 1)%nat else length x.
Proof.
  intros V. destruct (total_inv _ _ (dec_assign_ok _ _ OK x V)) as ([r res] & E & H1 & H2 & H3).
  destruct (total_inv _ _ (dec_assign_length _ _ OK x V)) as ([r' res'] & E' & HL).
  rewrite E in E'. injection E' as <- <-.
  exists r, res. conj; auto. pose proof (num_range r H2). unfold num in *. destruct res as [n|e].
  - destruct H3 as (H3 & H4 & H5 & H6 & _). destruct (Z.eqb_spec (value B x) 0) as [Z0|Z0]; [lia|].
    exists n. conj; auto. congruence.
  - destruct H3 as (-> & H3 & _). rewrite H3. reflexivity.
Qed.

Lemma sub_digit_claim x d : valid t x -> 0 <= d < B ->
  exists r res, sub_assign_digit D x d = Ret (r, res) /\ length r = length x /\ valid t r
    /\ if num t x <? d then res = RErr Underflow
       else exists n, res = ROk n /\ num t r = num t x - d /\ (n <= length x)%nat
            /\ num t (firstn n r) = num t x - d.
Proof.
  intros V Hd. destruct (total_inv _ _ (sub_assign_digit_ok _ _ OK x d V Hd)) as ([r res] & E & H1 & H2 & H3).
  exists r, res. conj; auto. pose proof (num_range r H2). unfold num in *. destruct res as [n|e].
  - destruct H3 as (H3 & H4 & H5 & _). destruct (Z.ltb_spec (value B x) d) as [Z0|Z0]; [lia|].
    exists n. conj; auto. congruence.
  - destruct H3 as (-> & H3). destruct (Z.ltb_spec (value B x) d) as [Z0|Z0]; [reflexivity|lia].
Qed.

Lemma sub_big_claim x y : valid t x -> valid t y ->
  exists r res, sub_assign_big D x y = Ret (r, res) /\ length r = length x /\ valid t r
    /\ if ((length x <? length y)%nat || (num t x <? num t y))%bool then res = RErr Underflow
       else exists n, res = ROk n /\ num t r = num t x - num t y /\ (n <= length x)%nat
            /\ num t (firstn n r) = num t x - num t y.
Proof.
  intros V W. destruct (total_inv _ _ (sub_assign_big_ok _ _ OK x y V W)) as ([r res] & E & H1 & H2 & H3).
  exists r, res. conj; auto. pose proof (num_range r H2). unfold num in *. destruct res as [n|e].
  - destruct H3 as (H3 & H4 & H5 & H6 & _). destruct (Nat.ltb_spec (length x) (length y)); [lia|]. cbn [orb].
    destruct (Z.ltb_spec (value B x) (value B y)) as [Z0|Z0]; [lia|]. exists n. conj; auto. congruence.
  - destruct H3 as (-> & H3 & _). destruct (Nat.ltb_spec (length x) (length y)); [reflexivity|]. cbn [orb].
    destruct (Z.ltb_spec (value B x) (value B y)) as [Z0|Z0]; [reflexivity|lia].
Qed.

Lemma sub_into_claim x y s : valid t x -> valid t y -> valid t s ->
  exists r res, sub_big_into D x y s = Ret (r, res) /\ length r = length s /\ valid t r
    /\ if (length s <? length x)%nat then res = RErr NoSpace
       else if ((length x <? length y)%nat || (num t x <? num t y))%bool then res = RErr Underflow
       else exists n, res = ROk n /\ (n <= length x)%nat /\ num t (firstn n r) = num t x - num t y
            /\ num t (firstn (length x) r) = num t x - num t y
            /\ skipn (length x) r = skipn (length x) s
            /\ n = left_over B (length x) (num t x) (length y) (num t y).
Proof.
  intros V W U. destruct (Nat.ltb_spec (length s) (length x)) as [H|H].
  - exists s, (RErr NoSpace). conj; auto. unfold sub_big_into. apply Nat.ltb_lt in H. rewrite H. reflexivity.
  - destruct (total_inv _ _ (sub_big_into_ok _ _ OK x y s V W U H)) as ([r res] & E & H1 & H2 & H4 & H3).
    exists r, res. conj; auto. unfold num in *. destruct res as [n|e].
    + destruct H3 as (H3 & H5 & H6 & H7 & _). destruct (Nat.ltb_spec (length x) (length y)); [lia|]. cbn [orb].
      pose proof (value_nonneg B (radix_gt t) _ (below_firstn B n r H2)).
      destruct (Z.ltb_spec (value B x) (value B y)) as [Z0|Z0]; [lia|]. exists n. conj; auto.
      destruct (total_inv _ _ (sub_into_length _ _ OK x y s V W U H H3)) as ([r' res'] & E' & HL).
      rewrite E in E'. injection E' as <- <-. exact HL.
    + destruct H3 as (-> & H3). destruct (Nat.ltb_spec (length x) (length y)); [reflexivity|]. cbn [orb].
      destruct (Z.ltb_spec (value B x) (value B y)) as [Z0|Z0]; [reflexivity|lia].
Qed.

Lemma rsub_claim x y : valid t x -> valid t y ->
  if (length y =? length x)%nat then
    exists r res, rsub_assign_big D x y = Ret (r, res) /\ length r = length x /\ valid t r
      /\ if num t y <? num t x then res = RErr Underflow
         else exists n, res = ROk n /\ num t r = num t y - num t x /\ (n <= length x)%nat
              /\ num t (firstn n r) = num t y - num t x /\ normal (firstn n r)
  else rsub_assign_big D x y = Panic PAssert.
Proof.
  intros V W. destruct (Nat.eqb_spec (length y) (length x)) as [H|H].
  - destruct (total_inv _ _ (rsub_assign_big_ok _ _ OK x y V W H)) as ([r res] & E & H1 & H2 & H3).
    exists r, res. conj; auto. pose proof (num_range r H2). unfold num in *. destruct res as [n|e].
    + destruct H3 as (H3 & H4 & H5 & H6). destruct (Z.ltb_spec (value B y) (value B x)); [lia|].
      exists n. conj; auto. congruence.
    + destruct H3 as (-> & H3 & _). destruct (Z.ltb_spec (value B y) (value B x)); [reflexivity|lia].
  - unfold rsub_assign_big. apply Nat.eqb_neq in H. rewrite H. reflexivity.
Qed.

(** the in-place subtraction keeps the same number of digits *)
Lemma sub_big_count x y r n : valid t x -> valid t y -> sub_assign_big D x y = Ret (r, ROk n) ->
  n = left_over B (length x) (num t x) (length y) (num t y).
Proof.
  intros V W E. destruct (sub_big_claim x y V W) as (r1 & res1 & E1 & L1 & V1 & H1). rewrite E in E1.
  injection E1 as <- <-.
  destruct (Nat.ltb_spec (length x) (length y)) as [HL|HL]; [discriminate H1|]. cbn [orb] in H1.
  destruct (Z.ltb_spec (num t x) (num t y)) as [HV|HV]; [discriminate H1|].
  destruct H1 as (n' & E2 & V2 & Hn & V3). injection E2 as <-.
  revert E. unfold sub_assign_big.
  destruct (Nat.ltb_spec (length x) (length y)) as [|_]; [lia|].
  destruct (total_inv _ _ (sub_zip_ok _ _ OK x y false V W HL)) as ([d c] & Ez & Lz & Dz & Sz & Vz).
  rewrite Ez. cbn [bind]. change (of_bool false) with 0 in Vz.
  assert (Hf : value B (firstn (length y) d) - pw B (length y) * of_bool c
    = value B (firstn (length y) x) - value B y).
  { rewrite (value_split B (length y) d) in Vz by lia. rewrite (value_split B (length y) x) in Vz by lia.
    rewrite Sz in Vz. lia. }
  pose proof (value_bound B (radix_gt t) _ (below_firstn B (length y) d Dz)) as Bd.
  rewrite firstn_length, Nat.min_l in Bd by lia.
  pose proof (value_bound B (radix_gt t) _ (below_firstn B (length y) x V)) as Bx.
  pose proof (num_range y W) as By.
  unfold left_over. unfold num in *. rewrite (lower_of _ _ OK), (upper_of _ _ OK) by (auto; lia).
  destruct c; cbn [of_bool] in Hf.
  - intros E. destruct (Z.ltb_spec (value B (firstn (length y) x)) (value B y)) as [_|Hc]; [|unfold pw in *; lia].
    assert (Ls : length (skipn (length y) d) = (length x - length y)%nat) by (rewrite skipn_length; lia).
    assert (Hdec : total (with_suffix d (length y) (dec_assign D)) (fun '(_, res) => match res with
        | ROk n => n = if value B (skipn (length y) d) =? pw B (length (skipn (length y) d) - 1)
                       then (length (skipn (length y) d) - 1)%nat else length (skipn (length y) d)
        | RErr _ => True end)).
    { eapply (spec_with_suffix never); [lia|apply (dec_assign_length _ _ OK), below_skipn, Dz|].
      intros s a Ha. exact Ha. }
    apply total_inv in Hdec. destruct Hdec as ([s res] & Es & Hs). rewrite Es in E. cbn [bind] in E.
    destruct res as [k|]; [|discriminate E]. injection E as _ <-. rewrite Hs, Ls, Sz.
    unfold pw. destruct (Nat.eq_dec (length x) (length y)) as [En|Hne].
    { rewrite En, Nat.sub_diag. cbn [Nat.sub]. rewrite skipn_all2 by lia. cbn [value Z.of_nat].
      rewrite Z.pow_0_r. cbn [Z.eqb]. lia. }
    clear - HL Hne. destruct (Z.eqb (value B (skipn (length y) x)) (base (length x - length y - 1))); lia.
  - destruct (Z.ltb_spec (value B (firstn (length y) x)) (value B y)) as [Hc|Hc]; [unfold pw in *; lia|].
    intros E. destruct (total_inv _ _ (drop_val B d (length x) ltac:(lia))) as (k & Ek & N1 & N2 & N3).
    rewrite Ek in E. cbn [bind] in E. injection E as <- <-.
    unfold num in V3, V2. rewrite <- V3. rewrite (normal_places _ _ OK); [|apply below_firstn, Dz|exact N3].
    rewrite firstn_length. lia.
Qed.

(** ** signed differences *)
Lemma num_lt_precedes x y : valid t x -> valid t y ->
  num_lt x y = precedes (length x) (num t x) (length y) (num t y).
Proof.
  intros V W. unfold precedes. destruct (Nat.eqb_spec (length x) (length y)) as [E|E].
  - rewrite (num_lt_same B (radix_gt t)) by assumption. rewrite E, Nat.ltb_irrefl. reflexivity.
  - cbn [andb]. rewrite orb_false_r. destruct (num_lt x y) eqn:H.
    + apply num_lt_true_len in H. symmetry. apply Nat.ltb_lt. lia.
    + apply num_lt_false_len in H. symmetry. apply Nat.ltb_ge. lia.
Qed.

Lemma abs_into_claim x y s : valid t x -> valid t y -> valid t s ->
  (Nat.max (length x) (length y) <= length s)%nat ->
  let lt := precedes (length x) (num t x) (length y) (num t y) in
  let '(a, b) := if lt then (y, x) else (x, y) in
  if num t a <? num t b then sub_big_into_abs_sign D x y s = Panic (PUnwrap Underflow)
  else exists r n, sub_big_into_abs_sign D x y s = Ret (r, (lt, n))
    /\ length r = length s /\ valid t r /\ num t (firstn n r) = num t a - num t b
    /\ n = left_over B (length a) (num t a) (length b) (num t b) /\ (n <= length a)%nat
    /\ num t (firstn (length a) r) = num t a - num t b
    /\ skipn (length a) r = skipn (length a) s.
Proof.
  intros V W U HL lt. unfold sub_big_into_abs_sign.
  rewrite (proj2 (Nat.leb_le _ _) HL). unfold debug_assert.
  replace (if d_dbg D then guard true PDebug else Ret tt) with (@Ret unit tt) by (destruct (d_dbg D); reflexivity).
  cbn [bind]. rewrite (num_lt_precedes x y V W). fold lt.
  assert (Hmain : forall a b, valid t a -> valid t b -> (length b <= length a <= length s)%nat ->
    if num t a <? num t b then unwrap_with (sub_big_into D a b s) = Panic (PUnwrap Underflow)
    else exists r n, unwrap_with (sub_big_into D a b s) = Ret (r, n)
      /\ length r = length s /\ valid t r /\ num t (firstn n r) = num t a - num t b
      /\ n = left_over B (length a) (num t a) (length b) (num t b) /\ (n <= length a)%nat
      /\ num t (firstn (length a) r) = num t a - num t b
      /\ skipn (length a) r = skipn (length a) s).
  { intros a b Va Vb Hl. destruct (sub_into_claim a b s Va Vb U) as (r & res & E & L & Vr & H).
    destruct (Nat.ltb_spec (length s) (length a)); [lia|].
    destruct (Nat.ltb_spec (length a) (length b)); [lia|]. cbn [orb] in H.
    unfold unwrap_with. rewrite E. cbn [bind]. destruct (num t a <? num t b).
    - rewrite H. reflexivity.
    - destruct H as (n & -> & G1 & G2 & G3 & G4 & G5). exists r, n. cbn [unwrap bind]. conj; auto. }
  assert (Hlt : if lt then (length x <= length y)%nat else (length y <= length x)%nat).
  { subst lt. unfold precedes. destruct (Nat.ltb_spec (length x) (length y)); cbn [orb]; [lia|].
    destruct (Nat.eqb_spec (length x) (length y)); cbn [andb]; [|lia]. destruct (_ <? _); lia. }
  destruct lt.
  - specialize (Hmain y x W V ltac:(lia)). destruct (num t y <? num t x).
    + rewrite Hmain. reflexivity.
    + destruct Hmain as (r & n & E & H). exists r, n. rewrite E. cbn [bind]. split; [reflexivity|exact H].
  - specialize (Hmain x y V W ltac:(lia)). destruct (num t x <? num t y).
    + rewrite Hmain. reflexivity.
    + destruct Hmain as (r & n & E & H). exists r, n. rewrite E. cbn [bind]. split; [reflexivity|exact H].
Qed.

(** In place.  The digits of the first operand between its length and the length
    of the second are taken to be part of it. *)
Lemma abs_assign_claim l k y : valid t l -> valid t y -> (k <= length l)%nat -> (length y <= length l)%nat ->
  let lt := precedes k (num t (firstn k l)) (length y) (num t y) in
  let m := if lt then length y else k in
  let d := if lt then num t y - num t (firstn m l) else num t (firstn m l) - num t y in
  if d <? 0 then sub_assign_big_abs_sign D l k y = Panic (PUnwrap Underflow)
  else exists r n, sub_assign_big_abs_sign D l k y = Ret (r, (lt, n))
    /\ length r = length l /\ valid t r /\ (n <= m)%nat /\ num t (firstn n r) = d
    /\ num t (firstn m r) = d /\ skipn m r = skipn m l
    /\ n = if lt then places B d else left_over B k (num t (firstn k l)) (length y) (num t y).
Proof.
  intros V W Hk Hy lt m d. unfold sub_assign_big_abs_sign. rewrite prefix_ok by assumption. cbn [bind].
  assert (Vk : forall j, valid t (firstn j l)) by (intros j; apply below_firstn, V).
  assert (Lk : forall j, (j <= length l)%nat -> length (firstn j l) = j) by (intros j Hj; rewrite firstn_length; lia).
  rewrite (num_lt_precedes (firstn k l) y (Vk k) W), (Lk k Hk). fold lt.
  assert (Hwrap : forall {A} j (f : digits -> M (digits * A)), (j <= length l)%nat ->
    with_prefix l j f = bind (f (firstn j l)) (fun '(s, a) => Ret (s ++ skipn j l, a))).
  { intros A j f Hj. unfold with_prefix, with_slice. rewrite sub_slice_ok by lia. cbn [bind].
    rewrite Nat.sub_0_r. reflexivity. }
  assert (Hcat : forall j s n, (j <= length l)%nat -> length s = j -> valid t s -> (n <= j)%nat ->
    length (s ++ skipn j l) = length l /\ valid t (s ++ skipn j l)
    /\ firstn n (s ++ skipn j l) = firstn n s /\ firstn j (s ++ skipn j l) = s
    /\ skipn j (s ++ skipn j l) = skipn j l).
  { intros j s n Hj Ls Vs Hn. conj.
    - rewrite app_length, skipn_length. lia.
    - apply below_app. split; [exact Vs|apply below_skipn, V].
    - apply firstn_app_le. lia.
    - apply firstn_exact. lia.
    - apply skipn_exact. lia. }
  assert (Hlen : lt = false -> (length y <= k)%nat).
  { unfold lt, precedes. intros EQ. apply orb_false_iff in EQ. destruct EQ as [EQ _].
    apply Nat.ltb_ge in EQ. exact EQ. }
  destruct lt.
  - subst m d. rewrite (Hwrap _ (length y)) by assumption.
    pose proof (rsub_claim (firstn (length y) l) y (Vk _) W) as H. rewrite Lk, Nat.eqb_refl in H by assumption.
    destruct H as (r & res & E & L & Vr & H). unfold unwrap_with. rewrite E. cbn [bind].
    destruct (Z.ltb_spec (num t y) (num t (firstn (length y) l))) as [Z0|Z0].
    + rewrite H. destruct (Z.ltb_spec (num t y - num t (firstn (length y) l)) 0); [reflexivity|lia].
    + destruct H as (n & -> & H1 & H2 & H3 & H4).
      destruct (Z.ltb_spec (num t y - num t (firstn (length y) l)) 0); [lia|].
      destruct (Hcat _ r n Hy L Vr H2) as (C1 & C2 & C3 & C4 & C5).
      exists (r ++ skipn (length y) l), n. cbn [unwrap bind]. rewrite C3, C4. conj; auto.
      rewrite <- H3. unfold num. rewrite (normal_places _ _ OK); [rewrite firstn_length; lia|apply below_firstn, Vr|exact H4].
  - subst m d. rewrite (Hwrap _ k) by assumption.
    destruct (sub_big_claim (firstn k l) y (Vk _) W) as (r & res & E & L & Vr & H). rewrite Lk in * by assumption.
    unfold unwrap_with. rewrite E. cbn [bind].
    specialize (Hlen eq_refl).
    destruct (Nat.ltb_spec k (length y)) as [|_]; [lia|]. cbn [orb] in H.
    destruct (Z.ltb_spec (num t (firstn k l)) (num t y)) as [Z0|Z0].
    + rewrite H. destruct (Z.ltb_spec (num t (firstn k l) - num t y) 0); [reflexivity|lia].
    + destruct H as (n & -> & H1 & H2 & H3).
      destruct (Z.ltb_spec (num t (firstn k l) - num t y) 0); [lia|].
      destruct (Hcat _ r n Hk L Vr H2) as (C1 & C2 & C3 & C4 & C5).
      exists (r ++ skipn k l), n. cbn [unwrap bind]. rewrite C3, C4. conj; auto.
      pose proof (sub_big_count _ _ _ _ (Vk k) W E) as HC. rewrite Lk in HC by assumption. exact HC.
Qed.

(** normalised operands: the length comparison is the comparison of the values *)
Lemma precedes_normal x y : well_formed t x -> well_formed t y ->
  precedes (length x) (num t x) (length y) (num t y) = (num t x <? num t y).
Proof.
  intros [V N] [W O]. rewrite <- (num_lt_precedes x y V W). apply (num_lt_value B (radix_gt t)); assumption.
Qed.

Lemma abs_into_normal x y s : well_formed t x -> well_formed t y -> valid t s ->
  (Nat.max (length x) (length y) <= length s)%nat ->
  exists r n, sub_big_into_abs_sign D x y s = Ret (r, (num t x <? num t y, n))
    /\ length r = length s /\ valid t r /\ (n <= Nat.max (length x) (length y))%nat
    /\ num t (firstn n r) = Z.abs (num t x - num t y)
    /\ skipn (Nat.max (length x) (length y)) r = skipn (Nat.max (length x) (length y)) s.
Proof.
  intros X Y U HL. pose proof (abs_into_claim x y s (proj1 X) (proj1 Y) U HL) as H. cbv zeta in H.
  rewrite (precedes_normal x y X Y) in H.
  assert (Hl : forall a b, well_formed t a -> well_formed t b -> num t b <= num t a -> (length b <= length a)%nat).
  { intros a b [Va Na] [Vb Nb] Hle. pose proof (num_lt_value B (radix_gt t) a b Va Vb Na Nb) as Hn.
    unfold num in Hle. destruct (Z.ltb_spec (value B a) (value B b)); [lia|]. apply num_lt_false_len in Hn. exact Hn. }
  destruct (Z.ltb_spec (num t x) (num t y)) as [Z0|Z0].
  - pose proof (Hl y x Y X ltac:(lia)). destruct (Z.ltb_spec (num t y) (num t x)); [lia|].
    destruct H as (r & n & E & G1 & G2 & G3 & _ & G4 & G5 & G6). exists r, n.
    rewrite Nat.max_r by assumption. conj; auto. rewrite G3. lia.
  - pose proof (Hl x y X Y Z0). destruct (Z.ltb_spec (num t x) (num t y)); [lia|].
    destruct H as (r & n & E & G1 & G2 & G3 & _ & G4 & G5 & G6). exists r, n.
    rewrite Nat.max_l by assumption. conj; auto. rewrite G3. lia.
Qed.

Lemma num_zeros_tail l k j : valid t l -> (k <= j <= length l)%nat ->
  num t (skipn k (firstn j l)) = 0 -> num t (firstn j l) = num t (firstn k l).
Proof.
  intros V Hk H. unfold num in *. rewrite (value_split B k (firstn j l)) by (rewrite firstn_length; lia).
  rewrite H, firstn_firstn, Nat.min_l by lia. lia.
Qed.

Lemma abs_assign_normal l k y : valid t l -> well_formed t (firstn k l) -> well_formed t y ->
  (k <= length l)%nat -> (length y <= length l)%nat ->
  num t (skipn k (firstn (length y) l)) = 0 ->
  let v := num t (firstn k l) in
  exists r n, sub_assign_big_abs_sign D l k y = Ret (r, (v <? num t y, n))
    /\ length r = length l /\ valid t r /\ (n <= Nat.max k (length y))%nat
    /\ num t (firstn n r) = Z.abs (v - num t y)
    /\ skipn (Nat.max k (length y)) r = skipn (Nat.max k (length y)) l.
Proof.
  intros V X Y Hk Hy HZ v. pose proof (abs_assign_claim l k y V (proj1 Y) Hk Hy) as H. cbv zeta in H.
  pose proof (precedes_normal (firstn k l) y X Y) as EP. rewrite firstn_length, Nat.min_l in EP by assumption.
  rewrite EP in H. fold v in H.
  assert (Hl : if v <? num t y then (k <= length y)%nat else (length y <= k)%nat).
  { pose proof (num_lt_precedes (firstn k l) y (proj1 X) (proj1 Y)) as En.
    rewrite firstn_length, Nat.min_l, EP in En by assumption. fold v in En. destruct (v <? num t y).
    - apply num_lt_true_len in En. rewrite firstn_length in En. lia.
    - apply num_lt_false_len in En. rewrite firstn_length in En. lia. }
  destruct (Z.ltb_spec v (num t y)) as [Z0|Z0].
  - assert (E : num t (firstn (length y) l) = v) by (apply num_zeros_tail; auto).
    rewrite E in H. destruct (Z.ltb_spec (num t y - v) 0); [lia|].
    destruct H as (r & n & E1 & G1 & G2 & G3 & G4 & G5 & G6 & _). exists r, n.
    rewrite Nat.max_r by assumption. conj; auto. rewrite G4. lia.
  - fold v in H. destruct (Z.ltb_spec (v - num t y) 0); [lia|].
    destruct H as (r & n & E1 & G1 & G2 & G3 & G4 & G5 & G6 & _). exists r, n.
    rewrite Nat.max_l by assumption. conj; auto. rewrite G4. lia.
Qed.

(** ** shifts within a digit *)
Lemma shl_claim x s c : valid t x -> 0 <= s -> 2 ^ s < B -> 0 <= c < 2 ^ s ->
  exists r c', shl_carry_assign_within_digit D x s c = Ret (r, c') /\ length r = length x /\ valid t r
    /\ 0 <= c' < 2 ^ s /\ num t r + base (length x) * c' = num t x * 2 ^ s + c.
Proof.
  intros V Hs H2 Hc. unfold shl_carry_assign_within_digit. destruct (Z.eqb_spec s 0) as [->|Hne].
  - exists x, 0. change (2 ^ 0) with 1 in *. conj; auto; lia.
  - destruct (total_inv _ _ (shl_loop_ok _ _ OK x s c V ltac:(lia) H2 Hc)) as ([r c'] & E & H). 
    exists r, c'. split; [exact E|exact H].
Qed.

Lemma shr_claim x s c : valid t x -> 0 <= s -> 2 ^ s < B -> 0 <= c < 2 ^ s ->
  exists r n c', shr_carry_assign_within_digit D x s c = Ret (r, (n, c')) /\ length r = length x /\ valid t r
    /\ 0 <= c' < 2 ^ s /\ num t r * 2 ^ s + c' = num t x + base (length x) * c
    /\ (n <= length x)%nat /\ num t (firstn n r) = num t r /\ normal (firstn n r).
Proof.
  intros V Hs H2 Hc. destruct (Z.eq_dec s 0) as [->|Hne].
  - destruct (total_inv _ _ (shr_within_zero B D x c)) as ([r [n c']] & E & -> & -> & H).
    exists x, n, 0. change (2 ^ 0) with 1 in *. assert (c = 0) by lia. subst c. conj; auto; try lia; apply H.
  - destruct (total_inv _ _ (shr_within_ok _ _ OK x s c V ltac:(lia) H2 Hc)) as ([r [n c']] & E & H). 
    exists r, n, c'. split; [exact E|exact H].
Qed.

Lemma double_claim x c : valid t x ->
  exists r c', double_carry_assign D x c = Ret (r, c') /\ length r = length x /\ valid t r
    /\ num t r + base (length x) * Z.b2z c' = 2 * num t x + Z.b2z c.
Proof.
  intros V. destruct (total_inv _ _ (double_ok _ _ OK x c V)) as ([r c'] & E & H). exists r, c'. split; [exact E|exact H].
Qed.

(** ** multiplication *)
Lemma mul_digit_claim x f o : valid t x -> 0 <= f < B -> 0 <= o < B ->
  exists r c, mul_add_assign_digit D x f o = Ret (r, c) /\ length r = length x /\ valid t r /\ 0 <= c < B
    /\ num t r + base (length x) * c = num t x * f + o.
Proof.
  intros V Hf Ho. destruct (total_inv _ _ (mul_add_digit_ok _ _ OK x f o V Hf Ho)) as ([r c] & E & H).
  exists r, c. split; [exact E|exact H].
Qed.

Lemma mul_digit_into_claim x f s : valid t x -> valid t s -> 0 <= f < B -> (length x < length s)%nat ->
  exists r, mul_digit_into D x f s = Ret r /\ length r = length s /\ valid t r
    /\ num t (firstn (S (length x)) r) = num t x * f
    /\ skipn (S (length x)) r = skipn (S (length x)) s.
Proof.
  intros V U Hf HL. destruct (total_inv _ _ (mul_digit_into_ok _ _ OK x f s V U Hf ltac:(lia))) as (r & E & H1 & H2 & H3 & H4).
  exists r. conj; auto.
Qed.

Lemma mul_pair_claim x f g o : valid t x -> 0 <= f < B -> 0 <= g < B -> 0 <= o < B ->
  exists r c d, mul_pair_add_assign_digit D x f g o = Ret (r, (c, d)) /\ length r = length x /\ valid t r
    /\ 0 <= c < B /\ 0 <= d < B
    /\ num t r + base (length x) * (c + B * d) = num t x * (f + B * g) + o.
Proof.
  intros V Hf Hg Ho. destruct (total_inv _ _ (mul_pair_ok _ _ OK x f g o V Hf Hg Ho)) as ([r [c d]] & E & H).
  exists r, c, d. split; [exact E|exact H].
Qed.

Lemma mul_long_claim x y s : valid t x -> valid t y -> valid t s -> (length x + length y <= length s)%nat ->
  exists r n, mul_big_long_into D x y s = Ret (r, n) /\ length r = length s /\ valid t r
    /\ (n <= length x + length y)%nat /\ num t (firstn n r) = num t x * num t y /\ normal (firstn n r)
    /\ num t (firstn (length x + length y) r) = num t x * num t y
    /\ skipn (length x + length y) r = skipn (length x + length y) s.
Proof.
  intros V W U HL. destruct (total_inv _ _ (mul_long_ok _ _ OK x y s V W U HL)) as ([r n] & E & H1 & H2 & H3 & H4 & H5 & H6 & H7).
  exists r, n. conj; auto.
Qed.

Lemma square_long_claim x s : valid t x -> valid t s -> (2 * length x <= length s)%nat ->
  exists r n, square_long_into D x s = Ret (r, n) /\ length r = length s /\ valid t r
    /\ (n <= 2 * length x)%nat /\ num t (firstn n r) = num t x * num t x /\ normal (firstn n r)
    /\ num t (firstn (2 * length x) r) = num t x * num t x
    /\ skipn (2 * length x) r = skipn (2 * length x) s.
Proof.
  intros V U HL. destruct (total_inv _ _ (square_long_ok _ _ OK x s V U HL)) as ([r n] & E & H1 & H2 & H3 & H4 & H5 & H6 & H7).
  exists r, n. conj; auto.
Qed.

(** ** division by a digit and by three *)
Lemma rem_digit_claim x f : valid t x -> 0 <= f < B ->
  rem_digit D x f = Ret (if f =? 0 then RErr DivisionByZero else ROk (num t x mod f)).
Proof.
  intros V Hf. destruct (total_inv _ _ (rem_digit_ok _ _ OK x f V Hf)) as ([r|e] & E & H1 & H2); rewrite E, H2;
    destruct (Z.eqb_spec f 0); reflexivity || contradiction.
Qed.

Lemma div_digit_claim x f : valid t x -> 0 <= f < B ->
  if f =? 0 then div_assign_digit D x f = Ret (x, RErr DivisionByZero)
  else exists r n, div_assign_digit D x f = Ret (r, ROk (n, num t x mod f)) /\ length r = length x /\ valid t r
    /\ num t r = num t x / f /\ (n <= length x)%nat /\ num t (firstn n r) = num t x / f /\ normal (firstn n r).
Proof.
  intros V Hf. destruct (total_inv _ _ (div_assign_digit_ok _ _ OK x f V Hf)) as ([r [[n m]|e]] & E & H).
  - destruct H as (H1 & H2 & H3 & H4 & -> & H5 & H6 & H7). destruct (Z.eqb_spec f 0) as [->|_]; [congruence|].
    exists r, n. conj; auto. unfold num. congruence.
  - destruct H as (-> & -> & ->). exact E.
Qed.

Lemma div3_claim x c : valid t x -> 0 <= c < 3 ->
  exists r n m, div3_carry_assign D x c = Ret (r, (n, m)) /\ length r = length x /\ valid t r /\ 0 <= m < 3
    /\ num t r * 3 + m = num t x + base (length x) * c
    /\ (n <= length x)%nat /\ num t (firstn n r) = num t r /\ normal (firstn n r).
Proof.
  intros V Hc. destruct (total_inv _ _ (div3_carry_ok _ _ OK x c V Hc)) as ([r [n m]] & E & H).
  exists r, n, m. split; [exact E|exact H].
Qed.

(** ** addition and subtraction at an offset *)
Lemma add_at_claim x y o : valid t x -> valid t y ->
  exists r, add_assign_big_at_offset D x y o = Ret r /\ valid t r /\ num t r = num t x + base o * num t y.
Proof.
  intros V W. destruct (total_inv _ _ (add_at_offset_ok _ _ OK x y o V W)) as (r & E & H1 & H2 & _).
  exists r. conj; auto.
Qed.

Lemma sub_at_claim x y o : valid t x -> valid t y ->
  exists r res, sub_assign_big_at_offset D x y o = Ret (r, res) /\ valid t r
    /\ if ((length x <? o + length y)%nat || (num t x <? base o * num t y))%bool then res = RErr Underflow
       else let n := left_over B (length x - o) (upper B (num t x) o) (length y) (num t y) in
            res = ROk tt /\ length r = n
            /\ num t r = (num t x - base o * num t y) mod base n.
Proof.
  intros V W. unfold sub_assign_big_at_offset. destruct (Nat.ltb_spec (length x) o) as [H|H].
  - exists x, (RErr Underflow). conj; auto. destruct (Nat.ltb_spec (length x) (o + length y)); [reflexivity|lia].
  - assert (Vo : valid t (skipn o x)) by (apply below_skipn, V).
    destruct (sub_big_claim (skipn o x) y Vo W) as (r & res & E & L & Vr & Hr).
    assert (Lo : length (skipn o x) = (length x - o)%nat) by apply skipn_length.
    unfold with_suffix, with_slice. rewrite sub_slice_ok by lia. cbn [bind].
    rewrite firstn_all2 by (rewrite Lo; lia). rewrite E. cbn [bind]. rewrite skipn_all, app_nil_r.
    assert (Vf : valid t (firstn o x)) by (apply below_firstn, V).
    assert (Va : valid t (firstn o x ++ r)) by (apply below_app; split; assumption).
    assert (Lf : length (firstn o x) = o) by (rewrite firstn_length; lia).
    pose proof (value_split B o x H) as Es. pose proof (num_range _ Vf) as Bf. rewrite Lf in Bf. unfold num, pw in *.
    pose proof (base_pos o) as Bo. rewrite Lo in *.
    destruct (Nat.ltb_spec (length x - o) (length y)) as [Hl|Hl].
    + cbn [orb] in Hr. subst res. exists (firstn o x ++ r), (RErr Underflow). conj; auto.
      destruct (Nat.ltb_spec (length x) (o + length y)); [reflexivity|lia].
    + destruct (Nat.ltb_spec (length x) (o + length y)); [lia|]. cbn [orb] in *.
      destruct (Z.ltb_spec (value B (skipn o x)) (value B y)) as [Z0|Z0].
      * subst res. exists (firstn o x ++ r), (RErr Underflow). conj; auto.
        destruct (Z.ltb_spec (value B x) (base o * value B y)) as [|Z1]; [reflexivity|].
        exfalso. assert (base o * (value B (skipn o x) + 1) <= base o * value B y) by (apply Z.mul_le_mono_nonneg_l; lia). lia.
      * destruct Hr as (n & -> & Hr1 & Hr2 & Hr3).
        destruct (Z.ltb_spec (value B x) (base o * value B y)) as [Z1|Z1].
        { exfalso. assert (base o * value B y <= base o * value B (skipn o x)) by (apply Z.mul_le_mono_nonneg_l; lia). lia. }
        pose proof (sub_big_count _ _ _ _ Vo W E) as Hn. rewrite Lo in Hn. unfold num in Hn.
        rewrite <- (upper_of _ _ OK x o V H) in Hn.
        exists (truncate n (firstn o x ++ r)), (ROk tt). unfold truncate. cbv zeta. rewrite <- Hn.
        split; [reflexivity|]. split; [apply below_firstn, Va|]. split; [reflexivity|]. split.
        -- rewrite firstn_length, app_length, Lf, L. lia.
        -- assert (Lr : (n <= length (firstn o x ++ r))%nat) by (rewrite app_length, Lf, L; lia).
           pose proof (value_split B n (firstn o x ++ r) Lr) as Ec.
           rewrite value_app, Lf, Hr1 in Ec. unfold pw in Ec.
           pose proof (value_bound B (radix_gt t) _ (below_firstn B n _ Va)) as Bn.
           rewrite firstn_length, Nat.min_l in Bn by exact Lr. unfold pw in Bn.
           apply (Z.mod_unique_pos _ _ (value B (skipn n (firstn o x ++ r)))); [exact Bn|].
           rewrite Es. clear - Ec. unfold pw in Ec. lia.
Qed.

(** ** the digit count *)
Lemma normal_count r n : valid t r -> (n <= length r)%nat ->
  (normal (firstn n r) <-> n = places B (num t (firstn n r))).
Proof.
  intros V Hn. assert (Vn : valid t (firstn n r)) by (apply below_firstn, V).
  assert (Ln : length (firstn n r) = n) by (rewrite firstn_length; lia). split.
  - intros N. unfold num. rewrite (normal_places _ _ OK _ Vn N). symmetry. exact Ln.
  - intros E q Eq. assert (Vq : valid t q). { unfold valid in Vn. rewrite Eq in Vn. apply below_app in Vn. apply Vn. }
    pose proof (num_range q Vq) as Hq. rewrite Eq in E, Ln. rewrite app_length in Ln. cbn [length] in Ln.
    unfold num in *. rewrite value_app in E. cbn [value] in E.
    replace (value B q + pw B (length q) * (0 + B * 0)) with (value B q) in E by lia.
    pose proof (places_le _ _ OK (value B q) (length q) Hq). lia.
Qed.

Lemma sub_count_claim x y r n : valid t x -> valid t y -> sub_assign_big D x y = Ret (r, ROk n) ->
  n = left_over B (length x) (num t x) (length y) (num t y)
  /\ (normal (firstn n r) <-> n = places B (num t x - num t y)).
Proof.
  intros V W E. split; [exact (sub_big_count x y r n V W E)|].
  destruct (sub_big_claim x y V W) as (r1 & res1 & E1 & L1 & V1 & H1). rewrite E in E1. injection E1 as <- <-.
  destruct (_ || _)%bool; [discriminate H1|]. destruct H1 as (n' & E2 & V2 & Hn & V3). injection E2 as <-.
  rewrite <- V3. apply normal_count; [exact V1|lia].
Qed.

(** x normalised: leading zeros remain exactly when the difference borrows from all digits
    above those of y and these are 1, 10, 100, ... *)
Lemma sub_count_normal x y r n : well_formed t x -> valid t y -> sub_assign_big D x y = Ret (r, ROk n) ->
  ~ normal (firstn n r) ->
  lower B (num t x) (length y) < num t y /\ upper B (num t x) (length y) = base (length x - length y - 1).
Proof.
  intros [V N] W E Hc. destruct (sub_count_claim x y r n V W E) as [C1 C2].
  assert (Hne : n <> places B (num t x - num t y)) by (intros Hn; apply Hc, C2, Hn).
  unfold left_over in C1. destruct (Z.ltb_spec (lower B (num t x) (length y)) (num t y)) as [H|H]; [|contradiction].
  split; [exact H|].
  destruct (Z.eqb_spec (upper B (num t x) (length y)) (base (length x - length y - 1))) as [HU|HU]; [exact HU|].
  exfalso. apply Hne. subst n.
  (* the part above y keeps its top digit *)
  destruct (sub_big_claim x y V W) as (r1 & res1 & E1 & L1 & V1 & H1). rewrite E in E1. injection E1 as <- <-.
  destruct (Nat.ltb_spec (length x) (length y)) as [|HL]; [discriminate H1|]. cbn [orb] in H1.
  destruct (Z.ltb_spec (num t x) (num t y)) as [|HV]; [discriminate H1|].
  destruct H1 as (n' & E2 & V2 & Hn & V3). injection E2 as <-.
  unfold num in *. rewrite (lower_of _ _ OK) in H by assumption. rewrite (upper_of _ _ OK) in HU by assumption.
  pose proof (value_split B (length y) x HL) as Es. pose proof (num_range y W) as By.
  pose proof (value_bound B (radix_gt t) _ (below_firstn B (length y) x V)) as Bf.
  rewrite firstn_length, Nat.min_l in Bf by assumption. unfold num, pw in *.
  destruct (Nat.eq_dec (length x) (length y)) as [El|Nl].
  { exfalso. rewrite skipn_all2 in Es by lia. cbn [value] in Es. lia. }
  assert (Hx : x <> []) by (intros ->; cbn in *; lia).
  pose proof (normal_lower B (radix_gt t) x V N Hx) as Hlow. unfold pw in Hlow.
  pose proof (base_pos (length y)) as Py. set (u := value B (skipn (length y) x)) in *.
  assert (Hu : base (length x - length y - 1) < u).
  { assert (E3 : base (length x - 1) = base (length y) * base (length x - length y - 1)).
    { rewrite <- Z.pow_add_r by lia. f_equal. lia. }
    rewrite E3 in Hlow. apply Z.le_neq. split; [|congruence].
    apply Z.lt_succ_r. apply (Z.mul_lt_mono_pos_l (base (length y))); [exact Py|]. lia. }
  apply Nat.le_antisymm.
  - apply Nat.nlt_ge. intros Hlt.
    assert (H2 : value B x - value B y < pw B (length x - 1)).
    { eapply Z.lt_le_trans; [apply (places_lt B D OK); lia|]. unfold pw. apply base_mono. lia. }
    unfold pw in H2.
    assert (E3 : base (length x - 1) = base (length y) * base (length x - length y - 1)).
    { rewrite <- Z.pow_add_r by lia. f_equal. lia. }
    assert (base (length y) * (base (length x - length y - 1) + 1) <= base (length y) * u)
      by (apply Z.mul_le_mono_nonneg_l; lia). lia.
  - apply (places_le B D OK). unfold pw. pose proof (num_range x V). unfold num in *. lia.
Qed.
End Slices.
