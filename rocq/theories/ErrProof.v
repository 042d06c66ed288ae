(** * ErrProof: what the slice routines leave behind, also when they fail. *)
From Coq Require Import ZArith List Bool Lia.
From Verif Require Import Base Digit Slice Mul Div UBig Spec SpecMul Hoare DigitOK ListLemmas SliceProof
  MulProof UBigProof DivProof TypedProof KaraExact Cases ClaimsBasic SliceClaims SpecCount CountProof.
Import ListNotations.
Open Scope Z_scope.
Open Scope m_scope.

(** ** The routines with a separate output, in terms of those in place *)
Lemma drop_prefix l m : forall n, (n <= length l)%nat -> drop_leading_zeros (l ++ m) n = drop_leading_zeros l n.
Proof.
  induction n as [|n IH]; intros H; [reflexivity|]. cbn [drop_leading_zeros].
  unfold get. rewrite nth_error_app1 by lia. destruct (nth_error l n); [|reflexivity]. cbn [bind].
  destruct (z =? 0); [apply IH; lia|reflexivity].
Qed.

Section Any.
Variable D : digit.

Lemma sub_zip_split : forall y x s c, (length y <= length x)%nat -> (length y <= length s)%nat ->
  match sub_zip D x y c with
  | Ret (r, c') => length r = length x /\ skipn (length y) r = skipn (length y) x
      /\ sub_zip_into D x y s c = Ret (firstn (length y) r ++ skipn (length y) s, c')
  | Panic w => sub_zip_into D x y s c = Panic w
  | NoFuel => sub_zip_into D x y s c = NoFuel
  end.
Proof.
  induction y as [|e y IH]; intros x s c H1 H2.
  - assert (E1 : sub_zip D x [] c = Ret (x, c)) by (destruct x; reflexivity).
    assert (E2 : sub_zip_into D x [] s c = Ret (s, c)) by (destruct x; reflexivity).
    rewrite E1, E2. cbn. auto.
  - destruct x as [|d x]; [cbn in H1; lia|]. destruct s as [|a s]; [cbn in H2; lia|].
    cbn [sub_zip sub_zip_into]. destruct (d_sub_carry D d e c) as [[d' c1]|w|]; cbn [bind]; try reflexivity.
    specialize (IH x s c1 ltac:(cbn in H1; lia) ltac:(cbn in H2; lia)).
    destruct (sub_zip D x y c1) as [[r c2]|w|]; cbn [bind]; [|rewrite IH; reflexivity|rewrite IH; reflexivity].
    destruct IH as (L & S & ->). cbn [bind length firstn skipn app]. auto.
Qed.
Lemma add_zip_split : forall y x s c, (length y <= length x)%nat -> (length y <= length s)%nat ->
  match add_zip D x y c with
  | Ret (r, c') => length r = length x /\ skipn (length y) r = skipn (length y) x
      /\ add_zip_into D x y s c = Ret (firstn (length y) r ++ skipn (length y) s, c')
  | Panic w => add_zip_into D x y s c = Panic w
  | NoFuel => add_zip_into D x y s c = NoFuel
  end.
Proof.
  induction y as [|e y IH]; intros x s c H1 H2.
  - assert (E1 : add_zip D x [] c = Ret (x, c)) by (destruct x; reflexivity).
    assert (E2 : add_zip_into D x [] s c = Ret (s, c)) by (destruct x; reflexivity).
    rewrite E1, E2. cbn. auto.
  - destruct x as [|d x]; [cbn in H1; lia|]. destruct s as [|a s]; [cbn in H2; lia|].
    cbn [add_zip add_zip_into]. destruct (d_add_carry D d e c) as [[d' c1]|w|]; cbn [bind]; try reflexivity.
    specialize (IH x s c1 ltac:(cbn in H1; lia) ltac:(cbn in H2; lia)).
    destruct (add_zip D x y c1) as [[r c2]|w|]; cbn [bind]; [|rewrite IH; reflexivity|rewrite IH; reflexivity].
    destruct IH as (L & S & ->). cbn [bind length firstn skipn app]. auto.
Qed.

(** a slice of [r ++ rest] that ends with [r] *)
Lemma slice_of_prefix {A} r rest i (f : digits -> M (digits * A)) : (i <= length r)%nat ->
  with_slice (r ++ rest) i (length r) f = bind (with_suffix r i f) (fun '(r', a) => Ret (r' ++ rest, a)).
Proof.
  intros H. unfold with_suffix. rewrite !with_slice_eq by len.
  replace (firstn (length r - i) (skipn i (r ++ rest))) with (firstn (length r - i) (skipn i r)).
  2:{ rewrite skipn_app. replace (i - length r)%nat with 0%nat by lia. cbn [skipn].
      rewrite firstn_app. replace (length r - i - length (skipn i r))%nat with 0%nat by len.
      rewrite firstn_O, app_nil_r. reflexivity. }
  destruct (f _) as [[s a]|w|]; cbn [bind]; try reflexivity.
  rewrite skipn_all2 with (l := r) by lia. rewrite app_nil_r, <- app_assoc.
  rewrite firstn_app. replace (i - length r)%nat with 0%nat by lia. rewrite firstn_O, app_nil_r.
  rewrite skipn_app, skipn_all2 by lia. rewrite Nat.sub_diag. reflexivity.
Qed.

Lemma sub_into_eq x y s : (length y <= length x)%nat -> (length x <= length s)%nat ->
  sub_big_into D x y s = '(r, res) <- sub_assign_big D x y ;; Ret (r ++ skipn (length x) s, res).
Proof.
  intros H1 H2. unfold sub_big_into, sub_assign_big.
  destruct (Nat.ltb_spec (length s) (length x)); [lia|]. destruct (Nat.ltb_spec (length x) (length y)); [lia|].
  pose proof (sub_zip_split y x s false H1 ltac:(lia)) as H3.
  destruct (sub_zip D x y false) as [[r c]|w|]; cbn [bind]; [|rewrite H3; reflexivity|rewrite H3; reflexivity].
  destruct H3 as (L & S & ->). cbn [bind]. rewrite suffix_ok by exact H1. cbn [bind].
  rewrite copy_into_ok by len. cbn [bind].
  assert (E : firstn (length y) (firstn (length y) r ++ skipn (length y) s) ++ skipn (length y) x
              ++ skipn (length x) (firstn (length y) r ++ skipn (length y) s) = r ++ skipn (length x) s).
  { rewrite <- S. rewrite firstn_exact by len. rewrite skipn_app, (skipn_all2 (firstn (length y) r)) by len.
    rewrite skipn_skipn. rewrite app_assoc, firstn_skipn. f_equal. cbn [app]. f_equal.
    rewrite firstn_length. lia. }
  rewrite E. clear E. rewrite <- L. destruct c.
  - rewrite slice_of_prefix by lia. destruct (with_suffix r (length y) (dec_assign D)) as [[r' res]|w|]; reflexivity.
  - rewrite drop_prefix by lia. destruct (drop_leading_zeros r (length r)); reflexivity.
Qed.

Lemma inc_len : forall x r c, inc_assign D x = Ret (r, c) -> length r = length x.
Proof.
  intros x. induction x as [|d x IH]; intros r c H; cbn [inc_assign] in H; [injection H as <- _; reflexivity|].
  destruct (d_inc D d) as [[d' o]|w|]; cbn [bind] in H; try discriminate H.
  destruct o; [|injection H as <- _; reflexivity].
  destruct (inc_assign D x) as [[t c']|w|]; cbn [bind] in H; try discriminate H.
  injection H as <- _. cbn [length]. f_equal. exact (IH _ _ eq_refl).
Qed.

Lemma add_into_eq x y s : (length y <= length x)%nat -> (length x <= length s)%nat ->
  add_big_into D x y s = '(r, c) <- add_assign_big D x y ;;
    Ret (if c : bool then
           if (length s <=? length x)%nat then (r, RErr NoSpace)
           else (r ++ 1 :: skipn (S (length x)) s, ROk (length x + 1)%nat)
         else (r ++ skipn (length x) s, ROk (length x))).
Proof.
  intros H1 H2. unfold add_big_into, add_assign_big.
  rewrite Nat.max_l, Nat.min_r by exact H1.
  destruct (Nat.ltb_spec (length s) (length x)); [lia|].
  replace (length y <=? length x)%nat with true by (symmetry; apply Nat.leb_le; exact H1). cbn [guard bind].
  pose proof (add_zip_split y x s false H1 ltac:(lia)) as H3.
  destruct (add_zip D x y false) as [[r c]|w|]; cbn [bind]; [|rewrite H3; reflexivity|rewrite H3; reflexivity].
  destruct H3 as (L & S & ->). cbn [bind].
  match goal with |- bind ?a _ = _ => assert (E2 : a = Ret (r ++ skipn (length x) s)) end.
  { destruct (Nat.compare_spec (length x) (length y)) as [E|E|E]; [|lia|].
    - rewrite <- E, <- L, firstn_all. reflexivity.
    - rewrite suffix_ok by lia. cbn [bind]. rewrite copy_into_ok by len. f_equal.
      rewrite <- S. rewrite firstn_exact by len. rewrite skipn_app, (skipn_all2 (firstn (length y) r)) by len.
      rewrite skipn_skipn. rewrite app_assoc, firstn_skipn. f_equal. cbn [app]. f_equal.
      rewrite firstn_length. lia. }
  rewrite E2. clear E2. cbn [bind]. destruct c; [|reflexivity].
  replace (with_slice (r ++ skipn (length x) s) (length y) (length x) (inc_assign D))
    with (with_slice (r ++ skipn (length x) s) (length y) (length r) (inc_assign D)) by (rewrite L; reflexivity).
  rewrite slice_of_prefix by lia.
  destruct (with_suffix r (length y) (inc_assign D)) as [[r' c']|w|] eqn:E; cbn [bind]; try reflexivity.
  destruct c'; [|reflexivity].
  assert (L' : length r' = length x).
  { unfold with_suffix in E. rewrite with_slice_eq in E by len.
    destruct (inc_assign D (firstn (length r - length y) (skipn (length y) r))) as [[u cu]|w|] eqn:Eu; cbn [bind] in E; try discriminate E.
    injection E as <- _. apply inc_len in Eu. rewrite !app_length, Eu, skipn_length. len. }
  rewrite app_length, skipn_length, L'. replace (length x + (length s - length x))%nat with (length s) by lia.
  destruct (Nat.leb_spec (length s) (length x)) as [Hs|Hs].
  - rewrite skipn_all2, app_nil_r by lia. reflexivity.
  - unfold set. rewrite app_length, skipn_length, L'.
    replace (length x <? length x + (length s - length x))%nat with true by (symmetry; apply Nat.ltb_lt; lia).
    cbn [bind]. do 2 f_equal.
    rewrite firstn_app, L', Nat.sub_diag, firstn_O, app_nil_r, firstn_all2 by lia. f_equal. f_equal.
    rewrite skipn_app, skipn_all2 by lia. cbn [app]. rewrite skipn_skipn. f_equal. lia.
Qed.
End Any.

(** ** Values modulo the width *)
Lemma mod_of a b q n : 0 <= a < n -> a + n * q = b -> a = b mod n.
Proof. intros H E. apply (Z.mod_unique_pos b n q a); lia. Qed.

Section Typed.
Variables (dbg : bool) (t : dty).
Notation B := (radix t).
Notation D := (impl dbg t).
Notation OK := (impl_ok dbg t).
Notation base n := (B ^ Z.of_nat n).

Lemma same x y : valid t x -> valid t y -> length x = length y -> num t x = num t y -> x = y.
Proof. intros V W L E. exact (value_inj B (radix_gt t) x y L V W E). Qed.
Lemma num_small x : valid t x -> num t x mod base (length x) = num t x.
Proof. intros V. apply Z.mod_small, (num_range t), V. Qed.

Lemma inc_wraps x : valid t x ->
  exists r, inc_assign D x = Ret (r, base (length x) <=? num t x + 1) /\ length r = length x /\ valid t r
    /\ num t r = (num t x + 1) mod base (length x).
Proof.
  intros V. destruct (inc_claim dbg t x V) as (r & c & E & L & Vr & H).
  pose proof (num_range t r Vr) as R. rewrite L in R. exists r. rewrite E. conj; auto.
  - do 2 f_equal. destruct c; cbn [Z.b2z] in H; symmetry; [apply Z.leb_le|apply Z.leb_gt]; lia.
  - exact (mod_of _ _ _ _ R H).
Qed.
Lemma dec_wraps x : valid t x ->
  exists r res, dec_assign D x = Ret (r, res) /\ length r = length x /\ valid t r
    /\ num t r = (num t x - 1) mod base (length x)
    /\ (res = RErr Underflow <-> num t x = 0) /\ ((exists n, res = ROk n) <-> num t x <> 0).
Proof.
  intros V. destruct (total_inv _ _ (dec_assign_ok _ _ OK x V)) as ([r res] & E & L & Vr & H).
  pose proof (num_range t r Vr) as R. rewrite L in R. pose proof (num_range t x V) as Rx.
  unfold pw in H. unfold num in *. exists r, res. conj; auto.
  - apply (mod_of _ _ (match res with ROk _ => 0 | RErr _ => -1 end) _ R). destruct res; lia.
  - destruct res as [n|e]; split; intros K; try discriminate K; [lia|tauto|destruct H as (-> & _); reflexivity].
  - destruct res as [n|e]; split; intros K; try (destruct K; discriminate); [lia|eauto|lia].
Qed.
Lemma add_digit_wraps x d : valid t x -> 0 <= d < B ->
  exists r c, add_assign_digit D x d = Ret (r, c) /\ length r = length x /\ valid t r
    /\ num t r = (num t x + d) mod base (length x).
Proof.
  intros V Hd. destruct (add_digit_claim dbg t x d V Hd) as (r & c & E & L & Vr & H).
  pose proof (num_range t r Vr) as R. rewrite L in R. exists r, c. conj; auto.
  apply (mod_of _ _ (match c with Some k => k | None => 0 end) _ R). destruct c; lia.
Qed.
Lemma sub_digit_wraps x d : valid t x -> 0 <= d < B ->
  exists r res, sub_assign_digit D x d = Ret (r, res) /\ length r = length x /\ valid t r
    /\ num t r = (num t x - d) mod base (length x)
    /\ (res = RErr Underflow <-> num t x < d) /\ ((exists n, res = ROk n) <-> d <= num t x).
Proof.
  intros V Hd. unfold sub_assign_digit. pose proof (num_range t x V) as Rx.
  destruct (Z.eqb_spec d 0) as [->|Hd0].
  { exists x, (ROk (length x)). rewrite Z.sub_0_r, num_small by exact V.
    conj; auto; split; intros K; try discriminate K; [lia|lia|eauto]. }
  destruct x as [|a x].
  { exists [], (RErr Underflow). cbn [num value length Z.of_nat] in *. rewrite Z.pow_0_r, Z.mod_1_r.
    conj; auto; split; intros K; try (destruct K; discriminate); cbn in *; auto; lia. }
  apply below_cons in V. destruct V as [Ha Vx].
  destruct (total_inv _ _ (ok_sub _ _ OK a d false Ha Hd)) as ([a' u] & E & Ra & Ea). rewrite E. cbn [bind].
  cbn [of_bool] in Ea. unfold num in *. cbn [value length] in *.
  destruct u; cbn [of_bool] in Ea.
  - destruct (total_inv _ _ (dec_assign_ok _ _ OK x Vx)) as ([r res] & Er & L & Vr & H). rewrite Er. cbn [bind].
    unfold pw in H. exists (a' :: r), (match res with ROk n => ROk (1 + n)%nat | RErr e => RErr e end).
    assert (V' : valid t (a' :: r)) by (apply below_cons; auto).
    pose proof (num_range t _ V') as R. unfold num in R. cbn [value length] in *. rewrite L in R.
    rewrite L. rewrite base_S in *. conj; auto.
    + apply (mod_of _ _ (match res with ROk _ => 0 | RErr _ => -1 end) _ R). destruct res; nia.
    + destruct res as [n|e]; split; intros K; try discriminate K; try nia. destruct H as (-> & _); reflexivity.
    + destruct res as [n|e]; split; intros K; try (destruct K; discriminate); try nia; eauto.
  - exists (a' :: x), (ROk (S (length x))). assert (V' : valid t (a' :: x)) by (apply below_cons; auto).
    pose proof (num_range t _ V') as R. unfold num in R. cbn [value length] in *. conj; auto.
    + apply (mod_of _ _ 0 _ R). lia.
    + split; intros K; [discriminate K|]. pose proof (value_nonneg B (radix_gt t) x Vx). nia.
    + split; [|eauto]. intros _. pose proof (value_nonneg B (radix_gt t) x Vx). nia.
Qed.
Lemma add_big_wraps x y : valid t x -> valid t y -> (length y <= length x)%nat ->
  exists r, add_assign_big D x y = Ret (r, base (length x) <=? num t x + num t y) /\ length r = length x /\ valid t r
    /\ num t r = (num t x + num t y) mod base (length x).
Proof.
  intros V W HL. pose proof (add_big_claim dbg t x y V W) as K. apply Nat.leb_le in HL. rewrite HL in K.
  destruct K as (r & c & E & L & Vr & H).
  pose proof (num_range t r Vr) as R. rewrite L in R. exists r. rewrite E. conj; auto.
  - do 2 f_equal. destruct c; cbn [Z.b2z] in H; symmetry; [apply Z.leb_le|apply Z.leb_gt]; lia.
  - exact (mod_of _ _ _ _ R H).
Qed.
Lemma sub_big_wraps x y : valid t x -> valid t y -> (length y <= length x)%nat ->
  exists r res, sub_assign_big D x y = Ret (r, res) /\ length r = length x /\ valid t r
    /\ num t r = (num t x - num t y) mod base (length x)
    /\ (res = RErr Underflow <-> num t x < num t y) /\ ((exists n, res = ROk n) <-> num t y <= num t x).
Proof.
  intros V W HL. destruct (total_inv _ _ (sub_assign_big_ok _ _ OK x y V W)) as ([r res] & E & L & Vr & H).
  pose proof (num_range t r Vr) as R. rewrite L in R. unfold pw in H. unfold num in *.
  exists r, res. destruct res as [n|e].
  - destruct H as (_ & H & _). conj; auto.
    + apply (mod_of _ _ 0 _ R). lia.
    + split; [intros K; discriminate K|lia].
    + split; [lia|eauto].
  - destruct H as (-> & H1 & H2 & _). specialize (H2 HL). conj; auto.
    + apply (mod_of _ _ (-1) _ R). lia.
    + split; [lia|reflexivity].
    + split; [intros [n K]; discriminate K|lia].
Qed.
Lemma rsub_wraps x y : valid t x -> valid t y -> length y = length x ->
  exists r res, rsub_assign_big D x y = Ret (r, res) /\ length r = length x /\ valid t r
    /\ num t r = (num t y - num t x) mod base (length x)
    /\ (res = RErr Underflow <-> num t y < num t x) /\ ((exists n, res = ROk n) <-> num t x <= num t y).
Proof.
  intros V W HL. destruct (total_inv _ _ (rsub_assign_big_ok _ _ OK x y V W HL)) as ([r res] & E & L & Vr & H).
  pose proof (num_range t r Vr) as R. rewrite L in R. unfold pw in H. unfold num in *.
  exists r, res. destruct res as [n|e].
  - destruct H as (H & _). conj; auto.
    + apply (mod_of _ _ 0 _ R). lia.
    + split; [intros K; discriminate K|lia].
    + split; [lia|eauto].
  - destruct H as (-> & H1 & H2). conj; auto.
    + apply (mod_of _ _ (-1) _ R). lia.
    + split; [lia|reflexivity].
    + split; [intros [n K]; discriminate K|lia].
Qed.

(** ** The whole outcome *)
Lemma dec_outcome x : valid t x ->
  exists r, length r = length x /\ valid t r /\ num t r = (num t x - 1) mod base (length x)
    /\ dec_assign D x = Ret (r, if num t x =? 0 then RErr Underflow
         else ROk (if num t x =? base (length x - 1) then (length x - 1)%nat else length x)).
Proof.
  intros V. destruct (dec_wraps x V) as (r & res & E & L & Vr & H & _).
  destruct (dec_claim dbg t x V) as (r' & res' & E' & _ & _ & K).
  assert (EE : res' = res) by congruence. subst res'. exists r. conj; auto. rewrite E. do 2 f_equal.
  destruct (num t x =? 0); [exact K|]. destruct K as (n & -> & _ & _ & _ & ->). reflexivity.
Qed.
Lemma add_digit_outcome x d : valid t x -> 0 <= d < B ->
  exists r, length r = length x /\ valid t r /\ num t r = (num t x + d) mod base (length x)
    /\ add_assign_digit D x d = Ret (r, let k := (num t x + d) / base (length x) in if k =? 0 then None else Some k).
Proof.
  intros V Hd. destruct (add_digit_claim dbg t x d V Hd) as (r & c & E & L & Vr & H).
  pose proof (num_range t r Vr) as R. rewrite L in R. exists r.
  assert (K : num t r = (num t x + d) mod base (length x)
              /\ (num t x + d) / base (length x) = match c with Some k => k | None => 0 end).
  { assert (EQ : num t x + d = base (length x) * (match c with Some k => k | None => 0 end) + num t r) by (destruct c; lia).
    split; [apply (mod_of _ _ (match c with Some k => k | None => 0 end) _ R); lia|].
    symmetry. apply (Z.div_unique_pos (num t x + d) _ _ (num t r)); [exact R|exact EQ]. }
  destruct K as [K1 K2]. conj; auto. rewrite E. do 2 f_equal. cbv zeta. rewrite K2. destruct c as [k|]; [|reflexivity].
  destruct (Z.eqb_spec k 0); [lia|reflexivity].
Qed.
Lemma sub_digit_outcome x d : valid t x -> 0 <= d < B ->
  exists r, length r = length x /\ valid t r /\ num t r = (num t x - d) mod base (length x)
    /\ sub_assign_digit D x d = Ret (r, if num t x <? d then RErr Underflow
         else ROk (if ((num t x mod B <? d) && (num t x / B =? B ^ (Z.of_nat (length x) - 2)))%bool
                   then (length x - 1)%nat else length x)).
Proof.
  intros V Hd. destruct (sub_digit_wraps x d V Hd) as (r & res & E & L & Vr & H & R1 & R2). exists r. conj; auto.
  destruct (total_inv _ _ (sub_digit_length _ _ OK x d V Hd)) as ([r' res'] & E' & K).
  assert (EE : res' = res) by congruence. subst res'. rewrite E. do 2 f_equal.
  destruct (Z.ltb_spec (num t x) d) as [Hlt|Hge]; [apply R1; exact Hlt|].
  apply R2 in Hge. destruct Hge as [n ->]. f_equal. exact K.
Qed.
Lemma sub_big_outcome x y : valid t x -> valid t y -> (length y <= length x)%nat ->
  exists r, length r = length x /\ valid t r /\ num t r = (num t x - num t y) mod base (length x)
    /\ sub_assign_big D x y = Ret (r, if num t x <? num t y then RErr Underflow
         else ROk (left_over B (length x) (num t x) (length y) (num t y))).
Proof.
  intros V W HL. destruct (sub_big_wraps x y V W HL) as (r & res & E & L & Vr & H & _). exists r. conj; auto.
  destruct (sub_into_claim dbg t x y x V W V) as (r' & res' & E' & _ & _ & K).
  rewrite (sub_into_eq D x y x HL (le_n _)), E in E'. cbn [bind] in E'. injection E' as _ <-.
  rewrite Nat.ltb_irrefl in K. apply Nat.ltb_ge in HL. rewrite HL in K. cbn [orb] in K.
  rewrite E. do 2 f_equal. destruct (num t x <? num t y); [exact K|]. destruct K as (n & -> & _ & _ & _ & _ & ->). reflexivity.
Qed.
Lemma sub_into_outcome x y s : valid t x -> valid t y -> (length y <= length x <= length s)%nat ->
  exists r, length r = length x /\ valid t r /\ num t r = (num t x - num t y) mod base (length x)
    /\ sub_big_into D x y s = Ret (r ++ skipn (length x) s, if num t x <? num t y then RErr Underflow
         else ROk (left_over B (length x) (num t x) (length y) (num t y))).
Proof.
  intros V W [H1 H2]. destruct (sub_big_outcome x y V W H1) as (r & L & Vr & H & E). exists r. conj; auto.
  rewrite (sub_into_eq D x y s H1 H2), E. reflexivity.
Qed.
Lemma rsub_outcome x y : valid t x -> valid t y -> length y = length x ->
  exists r, length r = length x /\ valid t r /\ num t r = (num t y - num t x) mod base (length x)
    /\ rsub_assign_big D x y = Ret (r, if num t y <? num t x then RErr Underflow else ROk (places B (num t y - num t x))).
Proof.
  intros V W HL. destruct (rsub_wraps x y V W HL) as (r & res & E & L & Vr & H & _). exists r. conj; auto.
  pose proof (rsub_claim dbg t x y V W) as K. rewrite HL, Nat.eqb_refl in K.
  destruct K as (r' & res' & E' & _ & _ & K). rewrite E in E'. injection E' as <- <-. rewrite E. do 2 f_equal.
  destruct (num t y <? num t x); [exact K|]. destruct K as (n & -> & _ & Hn & K & N). f_equal.
  rewrite <- K. unfold num. rewrite (normal_places _ _ OK); [rewrite firstn_length; lia|apply below_firstn, Vr|exact N].
Qed.

(** ** Undoing *)
Lemma add_undone x y : valid t x -> valid t y -> (length y <= length x)%nat ->
  exists r c res, add_assign_big D x y = Ret (r, c) /\ sub_assign_big D r y = Ret (x, res)
    /\ (c = true <-> res = RErr Underflow).
Proof.
  intros V W HL. destruct (add_big_wraps x y V W HL) as (r & E & L & Vr & H).
  destruct (sub_big_wraps r y Vr W ltac:(lia)) as (x' & res & E' & L' & Vx & H' & R1 & _).
  exists r, (base (length x) <=? num t x + num t y), res.
  pose proof (num_range t x V) as Rx. pose proof (num_range t y W) as Ry.
  pose proof (base_mono t (length y) (length x) HL) as Bm.
  assert (Ex : x' = x).
  { apply same; auto; [lia|]. rewrite H', H, L, Zminus_mod_idemp_l, Z.add_simpl_r. apply num_small, V. }
  subst x'. conj; auto. rewrite R1, H, Z.leb_le.
  destruct (Z.le_gt_cases (base (length x)) (num t x + num t y)).
  - rewrite <- (Z.mod_unique_pos (num t x + num t y) (base (length x)) 1 (num t x + num t y - base (length x))); lia.
  - rewrite Z.mod_small; lia.
Qed.
Lemma sub_undone x y : valid t x -> valid t y -> (length y <= length x)%nat ->
  exists r c res, sub_assign_big D x y = Ret (r, res) /\ add_assign_big D r y = Ret (x, c)
    /\ (c = true <-> res = RErr Underflow).
Proof.
  intros V W HL. destruct (sub_big_wraps x y V W HL) as (r & res & E & L & Vr & H & R1 & _).
  destruct (add_big_wraps r y Vr W ltac:(lia)) as (x' & E' & L' & Vx & H').
  exists r, (base (length r) <=? num t r + num t y), res.
  pose proof (num_range t x V) as Rx. pose proof (num_range t y W) as Ry.
  pose proof (base_mono t (length y) (length x) HL) as Bm.
  assert (Ex : x' = x).
  { apply same; auto; [lia|]. rewrite H', H, L, Zplus_mod_idemp_l, Z.sub_add. apply num_small, V. }
  subst x'. conj; auto. rewrite R1, H, L, Z.leb_le.
  destruct (Z.lt_ge_cases (num t x) (num t y)).
  - rewrite <- (Z.mod_unique_pos (num t x - num t y) (base (length x)) (-1) (num t x - num t y + base (length x))); lia.
  - rewrite Z.mod_small; lia.
Qed.
Lemma rsub_undone x y : valid t x -> valid t y -> length y = length x ->
  exists r res res', rsub_assign_big D x y = Ret (r, res) /\ rsub_assign_big D r y = Ret (x, res')
    /\ (res = RErr Underflow <-> res' = RErr Underflow).
Proof.
  intros V W HL. destruct (rsub_wraps x y V W HL) as (r & res & E & L & Vr & H & R1 & _).
  destruct (rsub_wraps r y Vr W ltac:(lia)) as (x' & res' & E' & L' & Vx & H' & R2 & _).
  exists r, res, res'.
  pose proof (num_range t x V) as Rx. pose proof (num_range t y W) as Ry. rewrite HL in Ry.
  assert (Ex : x' = x).
  { apply same; auto; [lia|]. rewrite H', H, L, Zminus_mod_idemp_r.
    replace (num t y - (num t y - num t x)) with (num t x) by lia. apply num_small, V. }
  subst x'. conj; auto. rewrite R1, R2, H.
  destruct (Z.lt_ge_cases (num t y) (num t x)).
  - rewrite <- (Z.mod_unique_pos (num t y - num t x) (base (length x)) (-1) (num t y - num t x + base (length x))); lia.
  - rewrite Z.mod_small; lia.
Qed.
Lemma inc_undone x : valid t x ->
  exists r c res, inc_assign D x = Ret (r, c) /\ dec_assign D r = Ret (x, res) /\ (c = true <-> res = RErr Underflow).
Proof.
  intros V. destruct (inc_wraps x V) as (r & E & L & Vr & H).
  destruct (dec_wraps r Vr) as (x' & res & E' & L' & Vx & H' & R1 & _).
  exists r, (base (length x) <=? num t x + 1), res. pose proof (num_range t x V) as Rx.
  assert (Ex : x' = x).
  { apply same; auto; [lia|]. rewrite H', H, L, Zminus_mod_idemp_l, Z.add_simpl_r. apply num_small, V. }
  subst x'. conj; auto. rewrite R1, H, Z.leb_le.
  destruct (Z.le_gt_cases (base (length x)) (num t x + 1)).
  - rewrite <- (Z.mod_unique_pos (num t x + 1) (base (length x)) 1 (num t x + 1 - base (length x))); lia.
  - rewrite Z.mod_small; lia.
Qed.
Lemma dec_undone x : valid t x ->
  exists r c res, dec_assign D x = Ret (r, res) /\ inc_assign D r = Ret (x, c) /\ (c = true <-> res = RErr Underflow).
Proof.
  intros V. destruct (dec_wraps x V) as (r & res & E & L & Vr & H & R1 & _).
  destruct (inc_wraps r Vr) as (x' & E' & L' & Vx & H').
  exists r, (base (length r) <=? num t r + 1), res. pose proof (num_range t x V) as Rx.
  assert (Ex : x' = x).
  { apply same; auto; [lia|]. rewrite H', H, L, Zplus_mod_idemp_l, Z.sub_add. apply num_small, V. }
  subst x'. conj; auto. rewrite R1, H, L, Z.leb_le.
  destruct (Z.eq_dec (num t x) 0) as [Z0|Z0].
  - rewrite <- (Z.mod_unique_pos (num t x - 1) (base (length x)) (-1) (num t x - 1 + base (length x))); lia.
  - rewrite Z.mod_small; lia.
Qed.

(** ** A sum does not depend on the order, whatever the buffer held *)
Lemma add_carry_comm a b c : 0 <= a < B -> 0 <= b < B -> d_add_carry D a b c = d_add_carry D b a c.
Proof.
  intros Ha Hb.
  destruct (total_inv _ _ (ok_add _ _ OK a b c Ha Hb)) as ([r o] & E & R & H).
  destruct (total_inv _ _ (ok_add _ _ OK b a c Hb Ha)) as ([r' o'] & E' & R' & H').
  rewrite E, E'. pose proof (radix_gt t). destruct o, o'; cbn [of_bool] in *; do 2 f_equal; nia.
Qed.
Lemma add_zip_into_comm : forall x y s c, valid t x -> valid t y ->
  add_zip_into D x y s c = add_zip_into D y x s c.
Proof.
  induction x as [|a x IH]; intros [|b y] s c V W; try reflexivity.
  destruct s as [|d s]; [reflexivity|]. cbn [add_zip_into].
  apply below_cons in V, W. destruct V as [Ha V], W as [Hb W].
  rewrite (add_carry_comm a b c Ha Hb). destruct (d_add_carry D b a c) as [[r o]|w|]; cbn [bind]; try reflexivity.
  rewrite IH by assumption. reflexivity.
Qed.
Lemma add_into_comm x y s : valid t x -> valid t y -> add_big_into D x y s = add_big_into D y x s.
Proof.
  intros V W. unfold add_big_into. rewrite (Nat.max_comm (length y)), (Nat.min_comm (length y)).
  rewrite add_zip_into_comm by assumption. rewrite (Nat.compare_antisym (length y) (length x)).
  destruct (length y ?= length x)%nat; reflexivity.
Qed.

Lemma add_into_outcome x y s : valid t x -> valid t y ->
  let n := Nat.max (length x) (length y) in (n <= length s)%nat ->
  exists r, length r = n /\ valid t r /\ num t r = (num t x + num t y) mod base n
    /\ add_big_into D x y s = Ret (
         if base n <=? num t x + num t y then
           if (length s =? n)%nat then (r, RErr NoSpace)
           else (r ++ 1 :: skipn (n + 1) s, ROk (n + 1)%nat)
         else (r ++ skipn n s, ROk n)).
Proof.
  assert (M : forall x y, valid t x -> valid t y -> (length y <= length x)%nat -> (length x <= length s)%nat ->
    exists r, length r = length x /\ valid t r /\ num t r = (num t x + num t y) mod base (length x)
    /\ add_big_into D x y s = Ret (
         if base (length x) <=? num t x + num t y then
           if (length s =? length x)%nat then (r, RErr NoSpace)
           else (r ++ 1 :: skipn (length x + 1) s, ROk (length x + 1)%nat)
         else (r ++ skipn (length x) s, ROk (length x)))).
  { clear x y. intros x y V W H1 H2. destruct (add_big_wraps x y V W H1) as (r & E & L & Vr & H).
    exists r. conj; auto. rewrite (add_into_eq D x y s H1 H2), E. cbn [bind]. f_equal.
    destruct (base (length x) <=? num t x + num t y); [|reflexivity]. rewrite Nat.add_1_r.
    destruct (Nat.leb_spec (length s) (length x)), (Nat.eqb_spec (length s) (length x)); auto; lia. }
  intros V W n Hn. destruct (Nat.le_ge_cases (length y) (length x)) as [H|H].
  - subst n. rewrite Nat.max_l in * by exact H. apply M; auto.
  - subst n. rewrite Nat.max_r in * by exact H. rewrite add_into_comm, (Z.add_comm (num t x)) by assumption. apply M; auto.
Qed.

(** ** What is refused is left alone *)
Lemma refused x y s w :
  ((length x < length y)%nat -> sub_assign_big D x y = Ret (x, RErr Underflow))
  /\ ((length s < length x)%nat -> sub_big_into D x y s = Ret (s, RErr NoSpace))
  /\ ((length x <= length s)%nat -> (length x < length y)%nat -> sub_big_into D x y s = Ret (s, RErr Underflow))
  /\ ((length s < Nat.max (length x) (length y))%nat -> add_big_into D x y s = Ret (s, RErr NoSpace))
  /\ div_assign_digit D x 0 = Ret (x, RErr DivisionByZero)
  /\ div_assign_digit_pair D x 0 0 = Ret (x, RErr DivisionByZero)
  /\ div_big_with_work D x [] s w = Ret (x, s, w, RErr DivisionByZero).
Proof.
  conj; try reflexivity.
  - intros H. unfold sub_assign_big. apply Nat.ltb_lt in H. rewrite H. reflexivity.
  - intros H. unfold sub_big_into. apply Nat.ltb_lt in H. rewrite H. reflexivity.
  - intros H1 H. unfold sub_big_into. apply Nat.ltb_lt in H. apply Nat.ltb_ge in H1. rewrite H, H1. reflexivity.
  - intros H. unfold add_big_into. apply Nat.ltb_lt in H. rewrite H. reflexivity.
Qed.
End Typed.
