(** * ToomLen: signs and lengths kept by the steps of Toom-3. *)
From Coq Require Import ZArith List Bool Lia.
From Verif Require Import Base Digit Spec SpecMul SpecToom Hoare DigitOK Slice Mul ListLemmas SliceProof
  MulProof BufProof WorkSize KaratsubaProof KaraExact ToomProof.
Import ListNotations.
Open Scope Z_scope.
Open Scope m_scope.

Lemma spec_and2 {A} (P P' : panic -> Prop) (e : M A) Q Q' :
  spec P e Q -> spec P' e Q' -> spec P' e (fun a => Q a /\ Q' a).
Proof. destruct e; cbn; auto. Qed.

Section ToomLen.
Variables (B : Z) (D : digit).
Hypothesis OK : digit_ok B D.
Notation val := (value B).
Notation digs := (below B).
Notation "'p' n" := (pw B n) (at level 10, n at level 9).
Notation buf := (buf B).
Notation wbuf := (wbuf B).
Let HB : 1 < B := SliceProof.HB B D OK.
Hint Resolve HB : core.

(** the in-place subtraction keeps the same number of digits *)
Lemma sub_assign_length x y : digs x -> digs y ->
  total (sub_assign_big D x y) (fun '(_, res) => match res with
    | ROk n => n = left_over B (length x) (val x) (length y) (val y)
    | RErr _ => True end).
Proof.
  intros V W. pose proof (sub_assign_big_ok B D OK x y V W) as H.
  apply total_inv in H. destruct H as ([r res] & E & L1 & V1 & H1). rewrite E. cbn.
  destruct res as [n|]; [|exact I]. destruct H1 as (HL & V2 & Hn & V3 & _).
  revert E. unfold sub_assign_big.
  destruct (Nat.ltb_spec (length x) (length y)) as [|_]; [lia|].
  destruct (total_inv _ _ (sub_zip_ok _ _ OK x y false V W HL)) as ([d c] & Ez & Lz & Dz & Sz & Vz).
  rewrite Ez. cbn [bind]. change (of_bool false) with 0 in Vz.
  assert (Hf : val (firstn (length y) d) - p (length y) * of_bool c
    = val (firstn (length y) x) - val y).
  { rewrite (value_split B (length y) d) in Vz by lia. rewrite (value_split B (length y) x) in Vz by lia.
    rewrite Sz in Vz. lia. }
  pose proof (value_bound B HB _ (below_firstn B (length y) d Dz)) as Bd.
  rewrite firstn_length, Nat.min_l in Bd by lia.
  pose proof (value_bound B HB _ (below_firstn B (length y) x V)) as Bx.
  pose proof (value_bound B HB y W) as By.
  unfold left_over. rewrite (lower_of _ _ OK), (upper_of _ _ OK) by (auto; lia).
  destruct c; cbn [of_bool] in Hf.
  - intros E. destruct (Z.ltb_spec (val (firstn (length y) x)) (val y)) as [_|Hc]; [|lia].
    assert (Ls : length (skipn (length y) d) = (length x - length y)%nat) by (rewrite skipn_length; lia).
    assert (Hdec : total (with_suffix d (length y) (dec_assign D)) (fun '(_, res) => match res with
        | ROk n => n = if val (skipn (length y) d) =? p (length (skipn (length y) d) - 1)
                       then (length (skipn (length y) d) - 1)%nat else length (skipn (length y) d)
        | RErr _ => True end)).
    { eapply (spec_with_suffix never); [lia|apply (dec_assign_length _ _ OK), below_skipn, Dz|].
      intros s a Ha. exact Ha. }
    apply total_inv in Hdec. destruct Hdec as ([s res] & Es & Hs). rewrite Es in E. cbn [bind] in E.
    destruct res as [k|]; [|discriminate E]. injection E as _ <-. rewrite Hs, Ls, Sz.
    unfold pw. destruct (Nat.eq_dec (length x) (length y)) as [En|Hne].
    { rewrite En, Nat.sub_diag. cbn [Nat.sub]. rewrite skipn_all2 by lia. cbn [value Z.of_nat].
      rewrite Z.pow_0_r. cbn [Z.eqb]. lia. }
    clear - HL Hne. destruct (Z.eqb (val (skipn (length y) x)) (B ^ Z.of_nat (length x - length y - 1))); lia.
  - destruct (Z.ltb_spec (val (firstn (length y) x)) (val y)) as [Hc|Hc]; [lia|].
    intros E. destruct (total_inv _ _ (drop_val B d (length x) ltac:(lia))) as (k & Ek & N1 & N2 & N3).
    rewrite Ek in E. cbn [bind] in E. injection E as <- <-.
    rewrite <- V2, <- V3. rewrite (normal_places _ _ OK); [|apply below_firstn, Dz|exact N3].
    rewrite firstn_length. lia.
Qed.

Lemma lt_precedes x y : digs x -> digs y -> num_lt x y = precedes (length x) (val x) (length y) (val y).
Proof.
  intros V W. unfold precedes. destruct (Nat.eqb_spec (length x) (length y)) as [E|E].
  - rewrite (num_lt_same B HB) by assumption. rewrite E, Nat.ltb_irrefl. reflexivity.
  - cbn [andb]. rewrite orb_false_r. destruct (num_lt x y) eqn:H.
    + apply num_lt_true_len in H. symmetry. apply Nat.ltb_lt. lia.
    + apply num_lt_false_len in H. symmetry. apply Nat.ltb_ge. lia.
Qed.

Lemma precedes_true_len m v n w : precedes m v n w = true -> (m <= n)%nat.
Proof.
  unfold precedes. destruct (Nat.ltb_spec m n); cbn [orb]; [lia|].
  destruct (Nat.eqb_spec m n); cbn [andb]; [lia|discriminate].
Qed.
Lemma precedes_false_len m v n w : precedes m v n w = false -> (n <= m)%nat.
Proof. unfold precedes. destruct (Nat.ltb_spec m n); cbn [orb]; [discriminate|lia]. Qed.

(** numbers without leading zeros are never confused *)
Lemma precedes_places v w : 0 <= v -> 0 <= w -> precedes (places B v) v (places B w) w = (v <? w).
Proof.
  intros Hv Hw. unfold precedes.
  pose proof (places_lt B D OK v Hv) as Lv. pose proof (places_lt B D OK w Hw) as Lw.
  destruct (Nat.ltb_spec (places B v) (places B w)) as [H|H]; cbn [orb].
  - symmetry. apply Z.ltb_lt. destruct (Z.lt_ge_cases v w) as [|Hc]; [assumption|].
    pose proof (places_le B D OK w (places B v) ltac:(lia)). lia.
  - destruct (Nat.eqb_spec (places B v) (places B w)) as [E|E]; cbn [andb]; [reflexivity|].
    symmetry. apply Z.ltb_ge. destruct (Z.lt_ge_cases v w) as [Hc|]; [|assumption].
    pose proof (places_le B D OK v (places B w) ltac:(lia)). lia.
Qed.
Lemma clear_places v w : 0 <= v -> 0 <= w -> ~ misread (places B v) v (places B w) w.
Proof.
  intros Hv Hw. unfold misread. rewrite precedes_places by assumption.
  destruct (Z.ltb_spec v w); lia.
Qed.

Definition stop (Q : Prop) (w : panic) : Prop := w = PUnwrap Underflow /\ Q.

(** the difference in place *)
Lemma abs_assign_exact l n v y : buf l n v -> digs y -> (length y <= length l)%nat ->
  let x := Sample false n v in let z := Sample false (length y) (val y) in
  spec (stop (confused x z)) (sub_assign_big_abs_sign D l n y) (fun '(l', (sg, m)) =>
    length l' = length l /\ buf l' m (Z.abs (v - val y)) /\ (m <= Nat.max n (length y))%nat
    /\ sgv sg (Z.abs (v - val y)) = v - val y
    /\ sg = negative (minus_in_place B x z) /\ m = count (minus_in_place B x z) /\ ~ confused x z).
Proof.
  intros H Hy HL x z.
  eapply spec_weaken with (P := stop (confused x z)); [|auto|intros a Ha; exact Ha].
  pose proof (buf_abs_t B D OK l n v y H Hy HL) as H1.
  assert (H2 : spec (stop (confused x z)) (sub_assign_big_abs_sign D l n y) (fun '(_, (sg, m)) =>
    sg = negative (minus_in_place B x z) /\ m = count (minus_in_place B x z) /\ ~ confused x z)).
  { clear H1. unfold sub_assign_big_abs_sign. rewrite prefix_ok by apply H. cbn [bind].
    destruct (buf_firstn_digs B _ _ _ H) as [Hd Hl]. pose proof (buf_first B D OK _ _ _ H) as Hv.
    rewrite (lt_precedes _ _ Hd Hy), Hl, Hv. unfold confused, misread, minus_in_place.
    cbn [negative count size x z]. destruct (precedes n v (length y) (val y)) eqn:E.
    - apply precedes_true_len in E.
      assert (H' : buf l (length y) v) by (apply (buf_more B D OK) with n; auto).
      destruct (buf_firstn_digs B _ _ _ H') as [Hd' Hl']. pose proof (buf_first B D OK _ _ _ H') as Hv'.
      eapply spec_bind.
      + eapply spec_with_prefix with (Q := fun '(_, m) => m = places B (val y - v) /\ ~ val y < v) (R := fun '(_, m) => m = places B (val y - v) /\ ~ val y < v); [apply H'| |].
        * eapply spec_unwrap_with with (Q := fun '(r, m) => m = places B (val y - v) /\ ~ val y < v).
          -- apply (rsub_assign_big_ok B D OK); auto.
          -- cbn beta iota. intros r m (L & Dr & V & Hm & Vm & N1). rewrite Hl', Hv' in *.
             split; [|pose proof (value_nonneg B HB _ Dr); lia].
             rewrite <- V, <- Vm. rewrite (normal_places _ _ OK); [|apply below_firstn, Dr|exact N1].
             rewrite firstn_length. lia.
          -- cbn beta iota. intros r e (L & Dr & -> & Hc & _). rewrite Hv' in Hc. split; [reflexivity|exact Hc].
        * intros s m Hm. exact Hm.
      + intros [l' m] [Hm Hn]. ret. auto.
    - apply precedes_false_len in E. eapply spec_bind.
      + eapply spec_with_prefix with (Q := fun '(_, m) => m = left_over B n v (length y) (val y) /\ ~ v < val y) (R := fun '(_, m) => m = left_over B n v (length y) (val y) /\ ~ v < val y); [apply H| |].
        * eapply spec_unwrap_with with (Q := fun '(r, m) => m = left_over B n v (length y) (val y) /\ ~ v < val y).
          -- apply spec_and; [apply (sub_assign_big_ok B D OK)|apply sub_assign_length]; auto.
          -- cbn beta iota. intros r m ((L & Dr & Hle & V & Hm & Vm & N1) & Hc). rewrite Hl, Hv in *.
             split; [exact Hc|]. pose proof (value_nonneg B HB _ Dr). lia.
          -- cbn beta iota. intros r e ((L & Dr & -> & Hc & _) & _). rewrite Hl, Hv in Hc.
             split; [reflexivity|]. destruct Hc; [lia|assumption].
        * intros s m Hm. exact Hm.
      + intros [l' m] [Hm Hn]. ret. auto. }
  eapply spec_post; [apply (spec_and2 _ _ _ _ _ H1 H2)|].
  intros [l' (sg & m)] ((L & Hb & Hm & Es) & E1 & E2 & E3). conj; auto.
Qed.

(** the difference written elsewhere *)
Lemma abs_into_exact u y r : digs u -> digs y -> digs r ->
  (Nat.max (length u) (length y) <= length r)%nat -> val r = 0 ->
  let x := Sample false (length u) (val u) in let z := Sample false (length y) (val y) in
  spec (stop (confused x z)) (sub_big_into_abs_sign D u y r) (fun '(r', (sg, m)) =>
    length r' = length r /\ buf r' m (Z.abs (val u - val y))
    /\ (m <= Nat.max (length u) (length y))%nat
    /\ sgv sg (Z.abs (val u - val y)) = val u - val y
    /\ sg = negative (minus B x z) /\ m = count (minus B x z) /\ ~ confused x z).
Proof.
  intros Hx Hy Hr HL H0 x z.
  pose proof (abs_into_any B D OK u y r Hx Hy Hr HL H0) as H1.
  assert (H2 : spec (stop (confused x z)) (sub_big_into_abs_sign D u y r) (fun '(_, (sg, m)) =>
    sg = negative (minus B x z) /\ m = count (minus B x z) /\ ~ confused x z)).
  { clear H1. unfold sub_big_into_abs_sign.
    tstep total_debug_assert; [apply Nat.leb_le; exact HL|]. intros _ _.
    rewrite (lt_precedes _ _ Hx Hy). unfold confused, misread, minus.
    cbn [negative count size x z].
    assert (Hmain : forall a b, digs a -> digs b -> (length b <= length a <= length r)%nat ->
      spec (stop (val a < val b)) (unwrap_with (sub_big_into D a b r)) (fun '(_, m) =>
        m = left_over B (length a) (val a) (length b) (val b) /\ ~ val a < val b)).
    { intros a b Ha Hb Hl. eapply spec_unwrap_with with (Q := fun '(_, m) => _).
      - apply spec_and; [apply (sub_big_into_ok B D OK a b r)|apply (sub_into_length B D OK)]; auto; lia.
      - cbn beta iota. intros r' m ((L & Dr & S & Hle & V & _) & Hm). split; [exact Hm|].
        pose proof (value_nonneg B HB _ (below_firstn B m r' Dr)). lia.
      - cbn beta iota. intros r' e ((_ & _ & _ & -> & Hc) & _). split; [reflexivity|]. lia. }
    destruct (precedes (length u) (val u) (length y) (val y)) eqn:E.
    - apply precedes_true_len in E. eapply spec_bind; [apply (Hmain y u); auto; lia|].
      intros [l' m] [Hm Hn]. ret. auto.
    - apply precedes_false_len in E. eapply spec_bind; [apply (Hmain u y); auto; lia|].
      intros [l' m] [Hm Hn]. ret. auto. }
  eapply spec_post; [apply (spec_and2 _ _ _ _ _ H1 H2)|].
  intros [l' (sg & m)] ((L & Hb & Hm & S1 & S2) & E1 & E2 & E3). conj; auto. apply abs_sgv; assumption.
Qed.

Lemma wide_fits k v m : (k <= m)%nat -> v < p m -> (wide B k v <= m)%nat.
Proof.
  intros Hk Hv. unfold wide. change (B ^ Z.of_nat k) with (p k).
  destruct (Z.ltb_spec v (p k)) as [|H]; [assumption|].
  destruct (Nat.eq_dec k m) as [->|]; lia.
Qed.

(** sums *)
Lemma add_into_exact x y r m : digs x -> digs y -> digs r -> val r = 0 ->
  (Nat.max (length x) (length y) <= m)%nat -> (m <= length r)%nat -> val x + val y < p m ->
  total (unwrap_with (add_big_into D x y r)) (fun '(r', n) =>
    length r' = length r /\ buf r' n (val x + val y) /\ (n <= m)%nat
    /\ n = wide B (Nat.max (length x) (length y)) (val x + val y)).
Proof.
  intros Hx Hy Hr H0 HL Hm Hv.
  assert (H2 : total (unwrap_with (add_big_into D x y r)) (fun '(r', n) =>
    n = wide B (Nat.max (length x) (length y)) (val x + val y))).
  { eapply spec_unwrap_with; [apply (add_big_into_ok B D OK x y r); auto; lia| |].
    - cbn beta iota. intros l n (L & Dl & Hn & V & S). unfold wide.
      change (B ^ Z.of_nat (Nat.max (length x) (length y))) with (p (Nat.max (length x) (length y))).
      destruct Hn as [[-> Hn]|(-> & Hn & _)]; destruct (Z.ltb_spec (val x + val y) (p (Nat.max (length x) (length y)))); lia.
    - cbn beta iota. intros l e (_ & _ & -> & E & Hp). exfalso.
      assert (m = Nat.max (length x) (length y)) by lia. subst m. lia. }
  eapply spec_post; [apply (spec_and2 _ _ _ _ _ (add_into B D OK x y r m Hx Hy Hr H0 HL Hm Hv) H2)|].
  intros [r' n] ((? & ? & ?) & ?). auto.
Qed.
Lemma add_into_any_exact x y r m : digs x -> digs y -> digs r ->
  (Nat.max (length x) (length y) <= m)%nat -> (m <= length r)%nat -> val x + val y < p m ->
  total (unwrap_with (add_big_into D x y r)) (fun '(r', n) =>
    length r' = length r /\ digs r' /\ val (firstn n r') = val x + val y /\ (n <= m)%nat
    /\ n = wide B (Nat.max (length x) (length y)) (val x + val y)).
Proof.
  intros Hx Hy Hr HL Hm Hv.
  assert (H2 : total (unwrap_with (add_big_into D x y r)) (fun '(r', n) =>
    n = wide B (Nat.max (length x) (length y)) (val x + val y))).
  { eapply spec_unwrap_with; [apply (add_big_into_ok B D OK x y r); auto; lia| |].
    - cbn beta iota. intros l n (L & Dl & Hn & V & S). unfold wide.
      change (B ^ Z.of_nat (Nat.max (length x) (length y))) with (p (Nat.max (length x) (length y))).
      destruct Hn as [[-> Hn]|(-> & Hn & _)]; destruct (Z.ltb_spec (val x + val y) (p (Nat.max (length x) (length y)))); lia.
    - cbn beta iota. intros l e (_ & _ & -> & E & Hp). exfalso.
      assert (m = Nat.max (length x) (length y)) by lia. subst m. lia. }
  eapply spec_post; [apply (spec_and2 _ _ _ _ _ (add_into_any B D OK x y r m Hx Hy Hr HL Hm Hv) H2)|].
  intros [r' n] ((? & ? & ? & ?) & ?). auto.
Qed.
Lemma push_exact l n v c w m : buf l n v -> v + p n * of_bool c = w -> w < p m ->
  (n <= m)%nat -> (m <= length l)%nat ->
  total (push_carry c l n) (fun '(l', n') =>
    length l' = length l /\ buf l' n' w /\ (n <= n')%nat /\ (n' <= m)%nat /\ n' = wide B n w).
Proof.
  intros H E Hw Hn Hm.
  assert (H2 : total (push_carry c l n) (fun '(_, n') => n' = wide B n w)).
  { unfold push_carry, wide. change (B ^ Z.of_nat n) with (p n). pose proof (buf_nonneg B D OK _ _ _ H) as Hv.
    assert (v < p n) by apply H.
    destruct c; cbn [of_bool] in E.
    - rewrite set_ok; [|destruct (Nat.eq_dec n m) as [->|]; lia]. cbn [bind]. ret.
      destruct (Z.ltb_spec w (p n)); lia.
    - ret. destruct (Z.ltb_spec w (p n)); lia. }
  eapply spec_post; [apply (spec_and2 _ _ _ _ _ (buf_push B D OK l n v c w m H E Hw Hn Hm) H2)|].
  intros [l' n'] ((? & ? & ? & ? & _) & ?). auto.
Qed.

(** the sum of numbers without leading zeros has none *)
Lemma wide_places v w : 0 <= v -> 0 <= w ->
  wide B (Nat.max (places B v) (places B w)) (v + w) = places B (v + w).
Proof.
  intros Hv Hw. set (k := Nat.max (places B v) (places B w)).
  pose proof (places_lt B D OK v Hv) as Lv. pose proof (places_lt B D OK w Hw) as Lw.
  pose proof (places_lt B D OK (v + w) ltac:(lia)) as Ls.
  pose proof (pw_le B (places B v) k HB ltac:(lia)). pose proof (pw_le B (places B w) k HB ltac:(lia)).
  assert (Hk : (k <= places B (v + w))%nat).
  { apply Nat.max_lub; apply (places_le B D OK); lia. }
  unfold wide. change (B ^ Z.of_nat k) with (p k). destruct (Z.ltb_spec (v + w) (p k)) as [H1|H1].
  - pose proof (places_le B D OK (v + w) k ltac:(lia)). lia.
  - assert (H2 : (places B (v + w) <= S k)%nat).
    { apply (places_le B D OK). rewrite pw_S. pose proof (ok_base _ _ OK). nia. }
    destruct (Nat.eq_dec k (places B (v + w))) as [E|]; [|lia]. rewrite <- E in Ls. lia.
Qed.
Lemma wide_places_same v w : 0 <= w <= v -> forall k, k = places B v ->
  wide B k (v + w) = places B (v + w).
Proof.
  intros [Hv Hw] k ->. rewrite <- wide_places by lia.
  rewrite Nat.max_l; [reflexivity|]. apply (places_le B D OK). pose proof (places_lt B D OK v ltac:(lia)). lia.
Qed.
End ToomLen.
