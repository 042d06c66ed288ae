(** * BufProof: arithmetic on the leading part of a scratch buffer.

    [buf l n v]: the whole buffer [l] has value [v], which fits in its first
    [n] digits; what follows is zero. *)
From Coq Require Import ZArith List Bool Lia.
From Verif Require Import Base Digit Spec Hoare DigitOK Slice Mul ListLemmas SliceProof MulProof.
Import ListNotations.
Open Scope Z_scope.
Open Scope m_scope.

Section BufProof.
Variables (B : Z) (D : digit).
Hypothesis OK : digit_ok B D.
Notation val := (value B).
Notation digs := (below B).
Notation "'p' n" := (pw B n) (at level 10, n at level 9).
Let HB : 1 < B := SliceProof.HB B D OK.
Hint Resolve HB : core.

Definition buf (l : digits) (n : nat) (v : Z) : Prop :=
  digs l /\ (n <= length l)%nat /\ val l = v /\ v < p n.

Definition ufl (w : panic) : Prop := w = PUnwrap Underflow.

Lemma buf_split l n v : buf l n v -> val (firstn n l) = v /\ val (skipn n l) = 0.
Proof.
  intros (Hd & Hn & HV & Hv). pose proof (value_nonneg B HB l Hd).
  apply (firstn_skipn_val B D OK); auto; lia.
Qed.
Lemma buf_first l n v : buf l n v -> val (firstn n l) = v.
Proof. intros H. apply buf_split in H. tauto. Qed.
Lemma buf_nonneg l n v : buf l n v -> 0 <= v.
Proof. intros (Hd & _ & <- & _). apply value_nonneg; auto. Qed.
Lemma buf_more l n m v : buf l n v -> (n <= m)%nat -> (m <= length l)%nat -> buf l m v.
Proof.
  intros (Hd & Hn & HV & Hv) H1 H2. pose proof (pw_le B n m HB H1). unfold buf. conj; auto; lia.
Qed.
Lemma buf_of l n : digs l -> (n <= length l)%nat -> val (firstn n l) = val l -> buf l n (val l).
Proof.
  intros Hd Hn HV. pose proof (value_bound B HB _ (below_firstn B n l Hd)) as Hb.
  rewrite firstn_length in Hb. replace (Nat.min n (length l)) with n in Hb by lia.
  unfold buf. conj; auto; lia.
Qed.
Lemma buf_shrink l n m v : buf l n v -> (m <= n)%nat -> v < p m -> buf l m v.
Proof. intros (Hd & Hn & HV & Hv) H1 H2. unfold buf. conj; auto; lia. Qed.
Lemma buf_zeros n m : (m <= n)%nat -> buf (zeros n) m 0.
Proof.
  intros. unfold buf. conj; [apply below_zeros; auto|len|apply value_zeros|apply pw_pos; auto].
Qed.
Lemma buf_firstn_digs l n v : buf l n v -> digs (firstn n l) /\ length (firstn n l) = n.
Proof. intros (Hd & Hn & _). split; [apply below_firstn, Hd|len]. Qed.

(** the length of a normal list from a bound on its value *)
Lemma normal_length l n : digs l -> normal l -> val l < p n -> (length l <= n)%nat.
Proof.
  intros Hd Hn Hv. destruct (Nat.le_gt_cases (length l) n) as [H|H]; [assumption|exfalso].
  assert (Hne : l <> []) by (intros ->; cbn in H; lia).
  pose proof (normal_lower B HB l Hd Hn Hne).
  pose proof (pw_le B n (length l - 1) HB ltac:(lia)). lia.
Qed.
Lemma buf_length l n v m : buf l n v -> normal (firstn n l) -> v < p m -> (n <= m)%nat.
Proof.
  intros H Hn Hv. pose proof (buf_first _ _ _ H) as HV. destruct (buf_firstn_digs _ _ _ H) as [Hd HL].
  rewrite <- HL. apply normal_length; auto. lia.
Qed.
Lemma buf_lower l n v : buf l n v -> normal (firstn n l) -> (0 < n)%nat -> p (n - 1) <= v.
Proof.
  intros H Hn Hp. pose proof (buf_first _ _ _ H) as HV. destruct (buf_firstn_digs _ _ _ H) as [Hd HL].
  rewrite <- HV. rewrite <- HL at 1. apply normal_lower; auto.
  intros E. rewrite E in HL. cbn in HL. lia.
Qed.
Lemma buf_normal l n v : buf l n v -> p (n - 1) <= v -> normal (firstn n l).
Proof.
  intros H Hp. pose proof (buf_first _ _ _ H) as HV. destruct (buf_firstn_digs _ _ _ H) as [Hd HL].
  apply (normal_of_value B D OK); auto. rewrite HL, HV. assumption.
Qed.

(** replacing the leading part *)
Lemma buf_replace l n v s : buf l n v -> digs s -> length s = n ->
  buf (s ++ skipn n l) n (val s) /\ length (s ++ skipn n l) = length l.
Proof.
  intros H Hs HL. destruct (buf_split _ _ _ H) as [_ Hz]. destruct H as (Hd & Hn & _ & _).
  pose proof (value_bound B HB s Hs) as Hb. rewrite HL in Hb.
  assert (length (s ++ skipn n l) = length l) by len.
  split; [|assumption]. unfold buf. conj.
  - apply below_app. split; [assumption|apply below_skipn, Hd].
  - lia.
  - rewrite value_app, Hz. lia.
  - lia.
Qed.

Lemma buf_add l n v y : buf l n v -> digs y -> (length y <= n)%nat ->
  total (with_prefix l n (fun s => add_assign_big D s y)) (fun '(l', c) =>
    length l' = length l /\ exists v', buf l' n v' /\ v' + p n * of_bool c = v + val y).
Proof.
  intros H Hy HL. destruct (buf_firstn_digs _ _ _ H) as [Hd Hl].
  eapply spec_with_prefix; [apply H|apply (add_assign_big_ok B D OK); auto; lia|].
  intros s c (L & Ds & V). rewrite Hl in *. rewrite (buf_first _ _ _ H) in V.
  destruct (buf_replace l n v s H Ds L). split; [assumption|]. exists (val s). auto.
Qed.

Lemma spec_unwrap_with {A} (P : panic -> Prop) (e : M (digits * result A)) R (Q : digits * A -> Prop) :
  total e R ->
  (forall l a, R (l, ROk a) -> Q (l, a)) ->
  (forall l e', R (l, RErr e') -> P (PUnwrap e')) ->
  spec P (unwrap_with e) Q.
Proof.
  intros He H1 H2. unfold unwrap_with. eapply total_bind; [exact He|].
  intros [l [a|e']] HR; cbn; eauto.
Qed.

Lemma buf_sub_spec l n v y : buf l n v -> digs y ->
  spec (fun w => ufl w /\ ((n < length y)%nat \/ v < val y))
    (with_prefix l n (fun s => unwrap_with (sub_assign_big D s y))) (fun '(l', m) =>
    length l' = length l /\ (m <= n)%nat /\ (length y <= n)%nat /\ buf l' m (v - val y)
    /\ (normal (firstn n l) -> m = length y \/ normal (firstn m l'))
    /\ (normal (firstn n l) -> v = val y -> m = 0%nat)).
Proof.
  intros H Hy. destruct (buf_firstn_digs _ _ _ H) as [Hd Hl].
  eapply spec_with_prefix; [apply H| |].
  - eapply spec_unwrap_with with (Q := fun '(r, m) =>
      length r = n /\ digs r /\ (length y <= n)%nat
      /\ val r = v - val y /\ (m <= n)%nat /\ val (firstn m r) = val r
      /\ (normal (firstn n l) -> m = length y \/ normal (firstn m r))
      /\ (normal (firstn n l) -> v = val y -> m = 0%nat)).
    + apply (sub_assign_big_ok B D OK); auto.
    + cbn beta iota. intros r m (L & Dr & Hle & V & Hm & Vm & N1 & N2).
      rewrite Hl in *. rewrite (buf_first _ _ _ H) in V. conj; auto.
      intros Hn Hv.
      assert (normal (firstn m r)) as Hnm.
      { apply N1; auto. intros [E _].
        pose proof (value_split B (length y) (firstn n l) ltac:(lia)) as Es.
        rewrite E, (buf_first _ _ _ H), Hv in Es.
        pose proof (value_bound B HB y Hy).
        pose proof (value_nonneg B HB _ (below_firstn B (length y) _ Hd)). lia. }
      pose proof (below_firstn B m r Dr) as Dm.
      pose proof (proj1 (value_normal_zero B HB _ Dm Hnm) ltac:(lia)) as E0.
      apply (f_equal (@length Z)) in E0. len.
    + cbn beta iota. intros r e (L & Dr & -> & Hc & _). rewrite Hl, (buf_first _ _ _ H) in Hc.
      split; [reflexivity|assumption].
  - cbn beta iota. intros s m (L & Ds & Hle & V & Hm & Vm & N1 & N2).
    destruct (buf_replace l n v s H Ds L) as [Hbuf HLen].
    assert (E : firstn m (s ++ skipn n l) = firstn m s) by (apply firstn_app_le; lia).
    rewrite E. conj; auto.
    apply buf_shrink with n; [rewrite <- V; assumption|assumption|].
    rewrite <- V, <- Vm. pose proof (value_bound B HB _ (below_firstn B m s Ds)) as Hb.
    rewrite firstn_length in Hb. replace (Nat.min m (length s)) with m in Hb by lia. lia.
Qed.

Lemma buf_sub l n v y : buf l n v -> digs y -> (length y <= n)%nat -> val y <= v ->
  total (with_prefix l n (fun s => unwrap_with (sub_assign_big D s y))) (fun '(l', m) =>
    length l' = length l /\ (m <= n)%nat /\ (length y <= n)%nat /\ buf l' m (v - val y)
    /\ (normal (firstn n l) -> m = length y \/ normal (firstn m l'))
    /\ (normal (firstn n l) -> v = val y -> m = 0%nat)).
Proof.
  intros H Hy H1 H2. eapply spec_weaken; [apply (buf_sub_spec l n v y H Hy)| |auto].
  intros w [_ [?|?]]; lia.
Qed.

Lemma buf_rsub_spec l v y : buf l (length y) v -> digs y ->
  spec (fun w => ufl w /\ val y < v)
    (with_prefix l (length y) (fun s => unwrap_with (rsub_assign_big D s y))) (fun '(l', m) =>
    length l' = length l /\ (m <= length y)%nat /\ buf l' m (val y - v) /\ normal (firstn m l')).
Proof.
  intros H Hy. destruct (buf_firstn_digs _ _ _ H) as [Hd Hl].
  eapply spec_with_prefix; [apply H| |].
  - eapply spec_unwrap_with with (Q := fun '(r, m) =>
      length r = length y /\ digs r
      /\ val r = val y - v /\ (m <= length y)%nat /\ val (firstn m r) = val r
      /\ normal (firstn m r)).
    + apply (rsub_assign_big_ok B D OK); auto.
    + cbn beta iota. intros r m (L & Dr & V & Hm & Vm & N1).
      rewrite Hl in *. rewrite (buf_first _ _ _ H) in V. conj; auto.
    + cbn beta iota. intros r e (L & Dr & -> & Hc & _). rewrite (buf_first _ _ _ H) in Hc.
      split; [reflexivity|assumption].
  - cbn beta iota. intros s m (L & Ds & V & Hm & Vm & N1).
    destruct (buf_replace l _ v s H Ds L) as [Hbuf HLen].
    assert (E : firstn m (s ++ skipn (length y) l) = firstn m s) by (apply firstn_app_le; lia).
    rewrite E. conj; auto.
    apply buf_shrink with (length y); [rewrite <- V; assumption|assumption|].
    rewrite <- V, <- Vm. pose proof (value_bound B HB _ (below_firstn B m s Ds)) as Hb.
    rewrite firstn_length in Hb. replace (Nat.min m (length s)) with m in Hb by lia. lia.
Qed.

Lemma buf_rsub l v y : buf l (length y) v -> digs y -> v <= val y ->
  total (with_prefix l (length y) (fun s => unwrap_with (rsub_assign_big D s y))) (fun '(l', m) =>
    length l' = length l /\ (m <= length y)%nat /\ buf l' m (val y - v) /\ normal (firstn m l')).
Proof.
  intros H Hy H1. eapply spec_weaken; [apply (buf_rsub_spec l v y H Hy)| |auto].
  intros w [_ ?]; lia.
Qed.

(** src/ubig/sub.rs:153-166.  [sg] is the sign of the difference. *)
Lemma buf_abs l n v y : buf l n v -> digs y -> (length y <= length l)%nat ->
  spec (fun w => ufl w /\ ~ (normal (firstn n l) /\ normal y))
    (sub_assign_big_abs_sign D l n y) (fun '(l', (sg, m)) =>
    length l' = length l /\ buf l' m (Z.abs (v - val y)) /\ (m <= Nat.max n (length y))%nat
    /\ (sg = true -> v <= val y) /\ (sg = false -> val y <= v)
    /\ (normal (firstn n l) -> (m = length y /\ (length y <= n)%nat) \/ normal (firstn m l'))).
Proof.
  intros H Hy HL. unfold sub_assign_big_abs_sign.
  rewrite prefix_ok by apply H. cbn [bind].
  destruct (buf_firstn_digs _ _ _ H) as [Hd Hl].
  destruct (num_lt (firstn n l) y) eqn:E.
  - pose proof (num_lt_true_len _ _ E) as HnL. rewrite Hl in HnL.
    assert (H' : buf l (length y) v) by (apply buf_more with n; auto).
    eapply spec_bind.
    + eapply spec_weaken; [apply (buf_rsub_spec l v y H' Hy)| |intros a Ha; exact Ha].
      intros w [Hw Hlt]. split; [assumption|]. intros [N1 N2].
      pose proof (num_lt_true_value B HB _ _ Hd Hy N2 E). rewrite (buf_first _ _ _ H) in *. lia.
    + intros [l' m] (L & Hm & Hb & Hn). ret. pose proof (buf_nonneg _ _ _ Hb).
      replace (Z.abs (v - val y)) with (val y - v) by lia. conj; auto; try lia; discriminate.
  - eapply spec_bind.
    + eapply spec_weaken; [apply (buf_sub_spec l n v y H Hy)| |intros a Ha; exact Ha].
      pose proof (num_lt_false_len _ _ E) as HnL. rewrite Hl in HnL.
      intros w [Hw Hlt]. split; [assumption|]. intros [N1 N2].
      pose proof (num_lt_false_value B HB _ _ Hd Hy N1 E). rewrite (buf_first _ _ _ H) in *. lia.
    + intros [l' m] (L & Hm & HLn & Hb & Hn & _). ret. pose proof (buf_nonneg _ _ _ Hb).
      replace (Z.abs (v - val y)) with (v - val y) by lia. conj; auto; try lia; try discriminate.
      intros N. destruct (Hn N); auto.
Qed.

(** src/ubig/sub.rs:171-183, with the first operand normal. *)
Lemma abs_into x y r : digs x -> digs y -> digs r -> normal x ->
  (Nat.max (length x) (length y) <= length r)%nat ->
  let M := Nat.max (length x) (length y) in
  spec (fun w => ufl w /\ ~ normal y)
    (sub_big_into_abs_sign D x y r) (fun '(r', (sg, m)) =>
    length r' = length r /\ digs r' /\ skipn M r' = skipn M r /\ (m <= M)%nat
    /\ val (firstn m r') = Z.abs (val x - val y) /\ val (firstn M r') = Z.abs (val x - val y)
    /\ (sg = true -> val x <= val y) /\ (sg = false -> val y <= val x)
    /\ (normal y -> (m < M)%nat \/ normal (firstn m r'))).
Proof.
  intros Hx Hy Hr Nx HL M. unfold sub_big_into_abs_sign.
  tstep total_debug_assert; [apply Nat.leb_le; exact HL|]. intros _ _.
  destruct (num_lt x y) eqn:E.
  - pose proof (num_lt_true_len _ _ E) as HnL.
    assert (EM : M = length y) by lia. rewrite EM.
    eapply spec_bind.
    + eapply spec_unwrap_with with (Q := fun '(r', m) => _).
      * apply (sub_big_into_ok B D OK y x r); auto; lia.
      * intros r' m Hr'. exact Hr'.
      * cbn beta iota. intros r' e (_ & _ & _ & -> & Hc). split; [reflexivity|].
        intros Ny. pose proof (num_lt_true_value B HB _ _ Hx Hy Ny E). lia.
    + cbn beta iota. intros [r' m] (L & Dr & S & Hle & V & Hm & VM & N1 & N2). ret.
      pose proof (value_nonneg B HB _ (below_firstn B m r' Dr)).
      replace (Z.abs (val x - val y)) with (val y - val x) by lia.
      conj; auto; try lia; try discriminate.
      intros Ny. destruct (Nat.eq_dec (length x) (length y)) as [En|Ne]; [right; auto|].
      destruct (N1 Ny); [left; lia|auto].
  - pose proof (num_lt_false_len _ _ E) as HnL.
    pose proof (num_lt_false_value B HB _ _ Hx Hy Nx E) as Hlt.
    assert (EM : M = length x) by lia. rewrite EM.
    eapply spec_bind.
    + eapply spec_unwrap_with with (Q := fun '(r', m) => _).
      * apply (sub_big_into_ok B D OK x y r); auto; lia.
      * intros r' m Hr'. exact Hr'.
      * cbn beta iota. intros r' e (_ & _ & _ & -> & Hc). lia.
    + cbn beta iota. intros [r' m] (L & Dr & S & Hle & V & Hm & VM & N1 & N2). ret.
      pose proof (value_nonneg B HB _ (below_firstn B m r' Dr)).
      replace (Z.abs (val x - val y)) with (val x - val y) by lia.
      conj; auto; try lia; try discriminate.
      intros Ny. destruct (Nat.eq_dec (length x) (length y)) as [En|Ne]; [right; auto|].
      destruct (N1 Nx); [left; lia|auto].
Qed.

(** the same without knowing either operand to be normal *)
Lemma abs_into_any x y r : digs x -> digs y -> digs r ->
  (Nat.max (length x) (length y) <= length r)%nat -> val r = 0 ->
  spec ufl (sub_big_into_abs_sign D x y r) (fun '(r', (sg, m)) =>
    length r' = length r /\ buf r' m (Z.abs (val x - val y))
    /\ (m <= Nat.max (length x) (length y))%nat
    /\ (sg = true -> val x <= val y) /\ (sg = false -> val y <= val x)).
Proof.
  intros Hx Hy Hr HL H0. unfold sub_big_into_abs_sign.
  assert (Hmain : forall a b, digs a -> digs b -> (length a <= length r)%nat ->
    spec ufl (unwrap_with (sub_big_into D a b r)) (fun '(r', m) =>
      length r' = length r /\ buf r' m (val a - val b) /\ (m <= length a)%nat /\ val b <= val a)).
  { intros a b Ha Hb HLa. eapply spec_unwrap_with; [apply (sub_big_into_ok B D OK a b r); auto| |].
    - cbn beta iota. intros l m (L & Dl & S & Hle & V & Hm & VM & _ & _).
      assert (HZ : val (skipn (length a) l) = 0).
      { rewrite S. assert (Hb0 : buf r (length a) 0).
        { unfold buf. conj; auto. apply pw_pos; auto. }
        apply buf_split in Hb0. tauto. }
      assert (HV : val l = val a - val b).
      { rewrite (value_split B (length a) l) by lia. lia. }
      pose proof (value_nonneg B HB _ Dl). conj; auto; try lia.
      rewrite <- HV. apply buf_of; auto; lia.
    - cbn beta iota. intros l e (_ & _ & _ & -> & _). reflexivity. }
  tstep total_debug_assert; [apply Nat.leb_le; exact HL|]. intros _ _.
  destruct (num_lt x y).
  - eapply spec_bind; [apply (Hmain y x); auto; lia|].
    intros [r' m] (L & Hb & Hm & Hle). ret.
    replace (Z.abs (val x - val y)) with (val y - val x) by lia. conj; auto; try lia; discriminate.
  - eapply spec_bind; [apply (Hmain x y); auto; lia|].
    intros [r' m] (L & Hb & Hm & Hle). ret.
    replace (Z.abs (val x - val y)) with (val x - val y) by lia. conj; auto; try lia; discriminate.
Qed.

Lemma add_into x y r m : digs x -> digs y -> digs r -> val r = 0 ->
  (Nat.max (length x) (length y) <= m)%nat -> (m <= length r)%nat -> val x + val y < p m ->
  total (unwrap_with (add_big_into D x y r)) (fun '(r', n) =>
    length r' = length r /\ buf r' n (val x + val y) /\ (n <= m)%nat).
Proof.
  intros Hx Hy Hr H0 HL Hm Hv.
  eapply spec_unwrap_with; [apply (add_big_into_ok B D OK x y r); auto; lia| |].
  - cbn beta iota. intros l n (L & Dl & Hn & V & S).
    assert (Hnm : (n <= m)%nat).
    { destruct Hn as [[-> _]|(-> & Hp & _)]; [lia|].
      destruct (Nat.le_gt_cases m (Nat.max (length x) (length y))) as [Hc|Hc]; [|lia].
      pose proof (pw_le B m _ HB Hc). lia. }
    assert (HZ : val (skipn n l) = 0).
    { rewrite S. assert (Hb0 : buf r n 0).
      { unfold buf. conj; auto; [lia|]. apply pw_pos; auto. }
      apply buf_split in Hb0. tauto. }
    assert (HV : val l = val x + val y).
    { rewrite (value_split B n l) by lia. lia. }
    conj; auto. rewrite <- HV. apply buf_of; auto; lia.
  - cbn beta iota. intros l e (_ & _ & -> & E & Hp). exfalso.
    assert (m = Nat.max (length x) (length y)) by lia. subst m. lia.
Qed.

(** the same into a buffer with arbitrary contents *)
Lemma add_into_any x y r m : digs x -> digs y -> digs r ->
  (Nat.max (length x) (length y) <= m)%nat -> (m <= length r)%nat -> val x + val y < p m ->
  total (unwrap_with (add_big_into D x y r)) (fun '(r', n) =>
    length r' = length r /\ digs r' /\ val (firstn n r') = val x + val y /\ (n <= m)%nat).
Proof.
  intros Hx Hy Hr HL Hm Hv.
  eapply spec_unwrap_with; [apply (add_big_into_ok B D OK x y r); auto; lia| |].
  - cbn beta iota. intros l n (L & Dl & Hn & V & S). conj; auto.
    destruct Hn as [[-> _]|(-> & Hp & _)]; [lia|].
    destruct (Nat.le_gt_cases m (Nat.max (length x) (length y))) as [Hc|Hc]; [|lia].
    pose proof (pw_le B m _ HB Hc). lia.
  - cbn beta iota. intros l e (_ & _ & -> & E & Hp). exfalso.
    assert (m = Nat.max (length x) (length y)) by lia. subst m. lia.
Qed.

(** storing a carry *)
Lemma buf_push l n v c w m : buf l n v -> v + p n * of_bool c = w -> w < p m ->
  (n <= m)%nat -> (m <= length l)%nat ->
  total (push_carry c l n) (fun '(l', n') =>
    length l' = length l /\ buf l' n' w /\ (n <= n')%nat /\ (n' <= m)%nat
    /\ (n' = n \/ (n' = S n /\ p n <= w))).
Proof.
  intros H E Hw Hn Hm. unfold push_carry. pose proof (buf_nonneg _ _ _ H) as Hv.
  destruct c; cbn [of_bool] in E.
  - assert (Hlt : (n < m)%nat).
    { destruct (Nat.le_gt_cases m n) as [Hc|Hc]; [|assumption]. pose proof (pw_le B m n HB Hc). lia. }
    destruct (buf_split _ _ _ H) as [V1 V2]. destruct H as (Hd & Hle & HV & Hvn).
    rewrite set_ok by lia. cbn [bind]. ret. replace (n + 1)%nat with (S n) by lia.
    assert (L : length (firstn n l ++ 1 :: skipn (S n) l) = length l) by len.
    assert (Hz : val (skipn (S n) l) = 0).
    { assert (Hb : buf l (S n) v).
      { apply buf_more with n; [unfold buf; conj; auto|lia|lia]. }
      apply buf_split in Hb. tauto. }
    assert (HVl : val (firstn n l ++ 1 :: skipn (S n) l) = w).
    { rewrite value_app, value_cons, firstn_length, Hz, V1. replace (Nat.min n (length l)) with n by lia. lia. }
    conj; auto; try lia.
    unfold buf. rewrite L, HVl. conj; auto; try lia.
    + apply below_app. split; [apply below_firstn, Hd|].
      apply below_cons. split; [lia|apply below_skipn, Hd].
    + rewrite pw_S. pose proof (ok_base _ _ OK). nia.
  - ret. conj; auto. replace w with v by lia. assumption.
Qed.

(** doubling *)
Lemma buf_double l n v : buf l n v ->
  total (with_prefix l n (fun s => double_carry_assign D s false)) (fun '(l', c) =>
    length l' = length l /\ exists v', buf l' n v' /\ v' + p n * of_bool c = 2 * v).
Proof.
  intros H. destruct (buf_firstn_digs _ _ _ H) as [Hd Hl].
  eapply spec_with_prefix; [apply H|apply (double_ok B D OK); auto|].
  intros s c (L & Ds & V). rewrite Hl in *. rewrite (buf_first _ _ _ H) in V.
  destruct (buf_replace l n v s H Ds L). split; [assumption|]. exists (val s).
  cbn [of_bool] in V. split; [assumption|lia].
Qed.

(** exact division by three and by two, with the carry on top *)
Lemma buf_div3 l n v c w : buf l n v -> v + p n * of_bool c = 3 * w ->
  total (with_prefix l n (fun s => div3_carry_assign D s (b2z c))) (fun '(l', (m, _)) =>
    length l' = length l /\ (m <= n)%nat /\ buf l' m w /\ normal (firstn m l')).
Proof.
  intros H E. destruct (buf_firstn_digs _ _ _ H) as [Hd Hl].
  eapply spec_with_prefix; [apply H|apply (div3_carry_ok B D OK); auto; destruct c; cbn; lia|].
  intros s [m x] (L & Ds & Hx & V & Hm & Vm & N). rewrite Hl in *. rewrite (buf_first _ _ _ H) in V.
  change (b2z c) with (of_bool c) in V.
  assert (Hw : val s = w) by lia.
  destruct (buf_replace l n v s H Ds L) as [Hb HL].
  rewrite firstn_app_le by lia. conj; auto.
  apply buf_shrink with n; [rewrite <- Hw; assumption|assumption|].
  rewrite <- Hw, <- Vm. pose proof (value_bound B HB _ (below_firstn B m s Ds)) as Hbd.
  rewrite firstn_length in Hbd. replace (Nat.min m (length s)) with m in Hbd by lia. lia.
Qed.
Lemma buf_half l n v c w : buf l n v -> v + p n * of_bool c = 2 * w ->
  total (with_prefix l n (fun s => shr_carry_assign_within_digit D s 1 (from_bit c))) (fun '(l', (m, _)) =>
    length l' = length l /\ (m <= n)%nat /\ buf l' m w /\ normal (firstn m l')).
Proof.
  intros H E. destruct (buf_firstn_digs _ _ _ H) as [Hd Hl]. pose proof (ok_base _ _ OK).
  eapply spec_with_prefix; [apply H|apply (shr_within_ok B D OK); auto; try (destruct c; cbn; lia); cbn; lia|].
  intros s [m x] (L & Ds & Hx & V & Hm & Vm & N). rewrite Hl in *. rewrite (buf_first _ _ _ H) in V.
  change (from_bit c) with (of_bool c) in V. change (2 ^ 1) with 2 in *.
  assert (Hw : val s = w) by lia.
  destruct (buf_replace l n v s H Ds L) as [Hb HL].
  rewrite firstn_app_le by lia. conj; auto.
  apply buf_shrink with n; [rewrite <- Hw; assumption|assumption|].
  rewrite <- Hw, <- Vm. pose proof (value_bound B HB _ (below_firstn B m s Ds)) as Hbd.
  rewrite firstn_length in Hbd. replace (Nat.min m (length s)) with m in Hbd by lia. lia.
Qed.

(** ** Buffers whose tail is arbitrary *)
Definition wbuf (l : digits) (n : nat) (v : Z) : Prop :=
  digs l /\ (n <= length l)%nat /\ val (firstn n l) = v.

Lemma wbuf_of_buf l n v : buf l n v -> wbuf l n v.
Proof. intros H. pose proof (buf_first _ _ _ H). destruct H as (? & ? & ? & ?). unfold wbuf. auto. Qed.
Lemma buf_of_wbuf l n v : wbuf l n v -> buf (firstn n l) n v /\ length (firstn n l) = n.
Proof.
  intros (Hd & Hn & HV). pose proof (below_firstn B n l Hd) as Hf.
  assert (HL : length (firstn n l) = n) by len.
  pose proof (value_bound B HB _ Hf) as Hb. rewrite HL in Hb.
  split; [|assumption]. unfold buf. conj; auto; lia.
Qed.
Lemma wbuf_nonneg l n v : wbuf l n v -> 0 <= v.
Proof. intros (Hd & _ & <-). apply value_nonneg; auto. apply below_firstn; auto. Qed.

Lemma spec_local {A} P l n (f : digits -> M (digits * A)) (R Q : digits * A -> Prop) :
  (n <= length l)%nat ->
  spec P (with_prefix (firstn n l) n f) R ->
  (forall s a, R (s, a) -> Q (s ++ skipn n l, a)) ->
  spec P (with_prefix l n f) Q.
Proof.
  intros Hn H HQ. unfold with_prefix in *.
  rewrite with_slice_eq in * by (rewrite ?firstn_length; lia).
  rewrite Nat.sub_0_r in *. cbn [skipn firstn app] in *. rewrite firstn_firstn, Nat.min_id in H.
  destruct (f (firstn n l)) as [[s a]|w|]; cbn in *; auto.
  apply HQ. rewrite skipn_all2, app_nil_r in H by (rewrite firstn_length; lia). assumption.
Qed.

Lemma wbuf_join s n m l v : length s = n -> (n <= length l)%nat -> digs l -> buf s m v ->
  length (s ++ skipn n l) = length l /\ wbuf (s ++ skipn n l) m v
  /\ firstn m (s ++ skipn n l) = firstn m s.
Proof.
  intros HL Hn Hl H. pose proof (buf_first _ _ _ H) as HV. destruct H as (Hd & Hm & _).
  assert (E : firstn m (s ++ skipn n l) = firstn m s) by (apply firstn_app_le; lia).
  conj; [len| |assumption]. unfold wbuf. rewrite E. conj; auto; [|len].
  apply below_app. split; [assumption|apply below_skipn, Hl].
Qed.

Lemma wbuf_sub l n v y : wbuf l n v -> digs y ->
  spec (fun w => ufl w /\ ((n < length y)%nat \/ v < val y))
    (with_prefix l n (fun s => unwrap_with (sub_assign_big D s y))) (fun '(l', m) =>
    length l' = length l /\ (m <= n)%nat /\ wbuf l' m (v - val y)).
Proof.
  intros H Hy. destruct (buf_of_wbuf _ _ _ H) as [Hb HL]. destruct H as (Hd & Hn & _).
  eapply spec_local; [assumption|apply (buf_sub_spec _ _ _ _ Hb Hy)|].
  cbn beta iota. intros s m (L & Hm & _ & Hs & _).
  destruct (wbuf_join s n m l _ ltac:(lia) Hn Hd Hs) as (? & ? & _). auto.
Qed.
Lemma wbuf_rsub l v y : wbuf l (length y) v -> digs y -> v <= val y ->
  total (with_prefix l (length y) (fun s => unwrap_with (rsub_assign_big D s y))) (fun '(l', m) =>
    length l' = length l /\ (m <= length y)%nat /\ wbuf l' m (val y - v) /\ normal (firstn m l')).
Proof.
  intros H Hy Hv. destruct (buf_of_wbuf _ _ _ H) as [Hb HL]. destruct H as (Hd & Hn & _).
  eapply spec_local; [assumption|apply (buf_rsub _ _ _ Hb Hy Hv)|].
  cbn beta iota. intros s m (L & Hm & Hs & N).
  destruct (wbuf_join s (length y) m l _ ltac:(lia) Hn Hd Hs) as (? & ? & E). rewrite E. auto.
Qed.
Lemma wbuf_half l n v c w : wbuf l n v -> v + p n * of_bool c = 2 * w ->
  total (with_prefix l n (fun s => shr_carry_assign_within_digit D s 1 (from_bit c))) (fun '(l', (m, _)) =>
    length l' = length l /\ (m <= n)%nat /\ wbuf l' m w /\ normal (firstn m l')).
Proof.
  intros H Hy. destruct (buf_of_wbuf _ _ _ H) as [Hb HL]. destruct H as (Hd & Hn & _).
  eapply spec_local; [assumption|apply (buf_half _ _ _ c w Hb Hy)|].
  cbn beta iota. intros s [m x] (L & Hm & Hs & N).
  destruct (wbuf_join s n m l _ ltac:(lia) Hn Hd Hs) as (? & ? & E). rewrite E. auto.
Qed.
End BufProof.
