(** * ListLemmas: digit lists and their values; slices. *)
From Coq Require Import ZArith List Bool Lia.
From Verif Require Import Base Digit Spec Hoare Slice.
Import ListNotations.
Open Scope Z_scope.
Open Scope m_scope.

Lemma zeros_length n : length (zeros n) = n.
Proof. apply repeat_length. Qed.

Ltac conj := repeat match goal with |- _ /\ _ => split end.

Create HintDb len.
#[global] Hint Rewrite @app_length @firstn_length @skipn_length @repeat_length
  @rev_length @map_length zeros_length : len.
#[global] Hint Rewrite Nat2Z.inj_add Nat2Z.inj_mul Nat2Z.inj_succ : znat.
Ltac len := repeat progress (autorewrite with len in *; cbn [length] in *); try lia.

Lemma skipn_skipn {A} i j (l : list A) : skipn i (skipn j l) = skipn (i + j) l.
Proof.
  revert l. induction j as [|j IH]; intros l.
  - rewrite Nat.add_0_r. reflexivity.
  - rewrite Nat.add_succ_r. destruct l as [|x l]; [rewrite !skipn_nil; reflexivity|].
    cbn [skipn]. apply IH.
Qed.

Lemma skipn_more {A} n k (a b : list A) : (n <= k)%nat ->
  skipn n a = skipn n b -> skipn k a = skipn k b.
Proof.
  intros H E. replace k with ((k - n) + n)%nat by lia. rewrite <- !skipn_skipn, E. reflexivity.
Qed.
Lemma skipn_one {A} x (a : list A) : skipn 1 (x :: a) = a.
Proof. reflexivity. Qed.
Lemma firstn_one {A} x (a : list A) : firstn 1 (x :: a) = [x].
Proof. reflexivity. Qed.
Lemma firstn_plus {A} i j (l : list A) : firstn (i + j) l = firstn i l ++ firstn j (skipn i l).
Proof.
  revert l. induction i as [|i IH]; intros l; [reflexivity|].
  destruct l as [|x l]; [rewrite skipn_nil, !firstn_nil; reflexivity|].
  cbn. f_equal. apply IH.
Qed.

Lemma skipn_exact {A} n (a b : list A) : length a = n -> skipn n (a ++ b) = b.
Proof. intros <-. rewrite skipn_app, skipn_all, Nat.sub_diag. reflexivity. Qed.
Lemma firstn_exact {A} n (a b : list A) : length a = n -> firstn n (a ++ b) = a.
Proof.
  intros <-. rewrite firstn_app, firstn_all, Nat.sub_diag, firstn_O. apply app_nil_r.
Qed.
Lemma firstn_app_le {A} n (a b : list A) : (n <= length a)%nat -> firstn n (a ++ b) = firstn n a.
Proof.
  intros. rewrite firstn_app. replace (n - length a)%nat with 0%nat by lia.
  rewrite firstn_O. apply app_nil_r.
Qed.
Lemma firstn_app_ge {A} n (a b : list A) : (length a <= n)%nat ->
  firstn n (a ++ b) = a ++ firstn (n - length a) b.
Proof. intros. rewrite firstn_app, firstn_all2 by lia. reflexivity. Qed.
Lemma skipn_app_le {A} n (a b : list A) : (n <= length a)%nat ->
  skipn n (a ++ b) = skipn n a ++ b.
Proof. intros. rewrite skipn_app. replace (n - length a)%nat with 0%nat by lia. reflexivity. Qed.
Lemma skipn_app_ge {A} n (a b : list A) : (length a <= n)%nat ->
  skipn n (a ++ b) = skipn (n - length a) b.
Proof. intros. rewrite skipn_app, skipn_all2 by lia. reflexivity. Qed.

(** ** Powers of the base *)
Definition pw (B : Z) (n : nat) : Z := B ^ Z.of_nat n.

Lemma pw_0 B : pw B 0 = 1.
Proof. reflexivity. Qed.
Lemma pw_S B n : pw B (S n) = B * pw B n.
Proof. unfold pw. rewrite Nat2Z.inj_succ, Z.pow_succ_r by lia. reflexivity. Qed.
Lemma pw_1 B : pw B 1 = B.
Proof. rewrite pw_S, pw_0. lia. Qed.
Lemma pw_add B m n : pw B (m + n) = pw B m * pw B n.
Proof. unfold pw. rewrite Nat2Z.inj_add, Z.pow_add_r by lia. reflexivity. Qed.
Lemma pw_pos B n : 1 < B -> 0 < pw B n.
Proof. intros. apply Z.pow_pos_nonneg; lia. Qed.
Lemma pw_le B m n : 1 < B -> (m <= n)%nat -> pw B m <= pw B n.
Proof. intros. apply Z.pow_le_mono_r; lia. Qed.
Lemma pw_lt B m n : 1 < B -> (m < n)%nat -> pw B m < pw B n.
Proof. intros. apply Z.pow_lt_mono_r; lia. Qed.
Lemma pw_sub B m n : 1 < B -> (n <= m)%nat -> pw B m = pw B n * pw B (m - n).
Proof. intros. rewrite <- pw_add. f_equal. lia. Qed.

(** ** Values *)
Section Value.
Variable B : Z.
Hypothesis HB : 1 < B.
Notation val := (value B).
Notation digs := (below B).
Notation "'p' n" := (pw B n) (at level 10, n at level 9).

Lemma value_app a b : val (a ++ b) = val a + p (length a) * val b.
Proof.
  induction a as [|d a IH]; cbn [app value length].
  - rewrite pw_0. lia.
  - rewrite IH, pw_S. ring.
Qed.

Lemma value_cons d a : val (d :: a) = d + B * val a.
Proof. reflexivity. Qed.

Lemma value_zeros n : val (zeros n) = 0.
Proof. induction n; cbn; [reflexivity|]. unfold zeros in IHn. rewrite IHn. lia. Qed.

Lemma value_split n l : (n <= length l)%nat ->
  val l = val (firstn n l) + p n * val (skipn n l).
Proof.
  intros H. rewrite <- (firstn_skipn n l) at 1. rewrite value_app. do 2 f_equal.
  rewrite firstn_length. f_equal. lia.
Qed.

Lemma below_app a b : digs (a ++ b) <-> digs a /\ digs b.
Proof. apply Forall_app. Qed.
Lemma below_cons d a : digs (d :: a) <-> 0 <= d < B /\ digs a.
Proof. split; [intros H; inversion H; auto|intros []; constructor; auto]. Qed.
Lemma below_nil : digs [].
Proof. constructor. Qed.
Lemma below_firstn n l : digs l -> digs (firstn n l).
Proof. intros H. rewrite <- (firstn_skipn n l) in H. apply below_app in H. tauto. Qed.
Lemma below_skipn n l : digs l -> digs (skipn n l).
Proof. intros H. rewrite <- (firstn_skipn n l) in H. apply below_app in H. tauto. Qed.
Lemma below_zeros n : digs (zeros n).
Proof. induction n; constructor; [lia|assumption]. Qed.
Lemma below_nth l i d : digs l -> nth_error l i = Some d -> 0 <= d < B.
Proof.
  intros H E. apply nth_error_In in E. unfold below in H. rewrite Forall_forall in H. apply H, E.
Qed.

Lemma value_bound l : digs l -> 0 <= val l < p (length l).
Proof.
  induction l as [|d l IH]; intros H; cbn [value length].
  - rewrite pw_0. lia.
  - apply below_cons in H. destruct H as [Hd Hl]. specialize (IH Hl).
    rewrite pw_S. nia.
Qed.
Lemma value_nonneg l : digs l -> 0 <= val l.
Proof. intros H. apply value_bound in H. lia. Qed.

Lemma value_inj a b : length a = length b -> digs a -> digs b -> val a = val b -> a = b.
Proof.
  revert b. induction a as [|d a IH]; intros [|e b]; cbn [length value];
    intros HL Ha Hb HV; try discriminate; [reflexivity|].
  apply below_cons in Ha, Hb. destruct Ha as [Hd Ha], Hb as [He Hb].
  assert (val a = val b) by nia. f_equal; [nia|]. apply IH; auto.
Qed.

Lemma value_zero_all l : digs l -> val l = 0 -> l = zeros (length l).
Proof.
  intros H HV. apply value_inj; [len|assumption|apply below_zeros|].
  rewrite value_zeros. assumption.
Qed.

(** replacing a slice *)
Lemma value_replace l i j s : (i <= j)%nat -> (j <= length l)%nat -> length s = (j - i)%nat ->
  val (firstn i l ++ s ++ skipn j l) = val l + p i * (val s - val (firstn (j - i) (skipn i l))).
Proof.
  intros Hij Hj Hs.
  rewrite (value_split i l) by lia.
  rewrite (value_split (j - i) (skipn i l)) by len.
  rewrite !value_app, firstn_length, Hs.
  replace (Nat.min i (length l)) with i by lia.
  rewrite skipn_skipn. replace (j - i + i)%nat with j by lia. ring.
Qed.

(** ** Normal form *)
Lemma normal_nil : normal [].
Proof. intros t H. destruct t; discriminate. Qed.
Lemma normal_snoc a d : normal (a ++ [d]) <-> d <> 0.
Proof.
  split.
  - intros H ->. exact (H a eq_refl).
  - intros Hd t E. apply app_inj_tail in E. tauto.
Qed.
Lemma normal_app a b : b <> [] -> normal b -> normal (a ++ b).
Proof.
  intros Hne Hb. destruct (exists_last Hne) as (c & d & ->).
  rewrite app_assoc. apply normal_snoc. apply normal_snoc in Hb. assumption.
Qed.
Lemma normal_app_inv a b : b <> [] -> normal (a ++ b) -> normal b.
Proof.
  intros Hne Hb. destruct (exists_last Hne) as (c & d & ->).
  rewrite app_assoc in Hb. apply normal_snoc. apply normal_snoc in Hb. assumption.
Qed.
Lemma normal_cons_inv d t : normal (d :: t) -> normal t.
Proof.
  intros H. destruct t as [|e t]; [apply normal_nil|].
  apply (normal_app_inv [d]); [discriminate|assumption].
Qed.
Lemma normal_single d : normal [d] <-> d <> 0.
Proof. apply (normal_snoc []). Qed.
Lemma normal_skipn n l : normal l -> normal (skipn n l).
Proof.
  intros H. destruct (skipn n l) eqn:E; [apply normal_nil|]. rewrite <- E.
  apply (normal_app_inv (firstn n l)); [congruence|]. rewrite firstn_skipn. assumption.
Qed.

Lemma normal_lower l : digs l -> normal l -> l <> [] -> p (length l - 1) <= val l.
Proof.
  intros Hd Hn Hne. destruct (exists_last Hne) as (c & d & ->).
  apply normal_snoc in Hn. apply below_app in Hd. destruct Hd as [Hc Hd].
  apply below_cons in Hd. destruct Hd as [Hd _].
  rewrite value_app. cbn [value]. len.
  replace (length c + 1 - 1)%nat with (length c) by lia.
  pose proof (value_bound c Hc). pose proof (pw_pos B (length c) HB). nia.
Qed.

Lemma value_normal_zero l : digs l -> normal l -> (val l = 0 <-> l = []).
Proof.
  intros Hd Hn. split; [|intros ->; reflexivity]. intros HV.
  destruct l as [|x l]; [reflexivity|]. exfalso.
  pose proof (normal_lower (x :: l) Hd Hn ltac:(discriminate)).
  pose proof (pw_pos B (length (x :: l) - 1) HB). lia.
Qed.

(** the length of a normal list bounds its value from below *)
Lemma value_length_lt a b : digs a -> digs b -> normal b ->
  (length a < length b)%nat -> val a < val b.
Proof.
  intros Ha Hb Hn HL.
  assert (b <> []) by (intros ->; cbn in HL; lia).
  pose proof (normal_lower b Hb Hn H). pose proof (value_bound a Ha).
  pose proof (pw_le B (length a) (length b - 1) HB). lia.
Qed.

Lemma normal_inj a b : digs a -> digs b -> normal a -> normal b -> val a = val b -> a = b.
Proof.
  intros Ha Hb Hna Hnb HV.
  destruct (Nat.lt_trichotomy (length a) (length b)) as [H|[H|H]].
  - pose proof (value_length_lt a b Ha Hb Hnb H). lia.
  - apply value_inj; auto.
  - pose proof (value_length_lt b a Hb Ha Hna H). lia.
Qed.

(** ** Comparison *)
Lemma lex_cmp_app_eq a b x y : length a = length b ->
  lex_cmp (a ++ x) (b ++ y) = match lex_cmp a b with Eq => lex_cmp x y | c => c end.
Proof.
  revert b. induction a as [|d a IH]; intros [|e b]; cbn; intros HL; try discriminate;
    [reflexivity|]. destruct (d ?= e); auto.
Qed.

Lemma lex_cmp_value a b : length a = length b -> digs a -> digs b ->
  lex_cmp (rev a) (rev b) = (val a ?= val b).
Proof.
  revert b. induction a as [|d a IH]; intros [|e b]; intros HL Ha Hb; try discriminate;
    [reflexivity|]. cbn [length] in HL. injection HL as HL.
  apply below_cons in Ha, Hb. destruct Ha as [Hd Ha], Hb as [He Hb].
  cbn [rev]. rewrite lex_cmp_app_eq by (len). rewrite IH by auto. cbn [value lex_cmp].
  destruct (Z.compare_spec (val a) (val b)) as [E|L|G].
  - rewrite E. destruct (Z.compare_spec d e), (Z.compare_spec (d + B * val b) (e + B * val b));
      try reflexivity; lia.
  - symmetry. apply Z.compare_lt_iff. nia.
  - symmetry. apply Z.compare_gt_iff. nia.
Qed.

Lemma num_cmp_same a b : length a = length b -> digs a -> digs b ->
  num_cmp a b = (val a ?= val b).
Proof.
  intros HL Ha Hb. unfold num_cmp. rewrite HL, Nat.compare_refl.
  apply lex_cmp_value; assumption.
Qed.

Lemma num_cmp_value a b : digs a -> digs b -> normal a -> normal b ->
  num_cmp a b = (val a ?= val b).
Proof.
  intros Ha Hb Hna Hnb. destruct (Nat.compare_spec (length a) (length b)) as [E|L|G].
  - apply num_cmp_same; assumption.
  - unfold num_cmp. destruct (Nat.compare_spec (length a) (length b)); try lia.
    symmetry. apply Z.compare_lt_iff. apply value_length_lt; assumption.
  - unfold num_cmp. destruct (Nat.compare_spec (length a) (length b)); try lia.
    symmetry. apply Z.compare_gt_iff. apply value_length_lt; assumption.
Qed.

Lemma num_lt_same a b : length a = length b -> digs a -> digs b ->
  num_lt a b = (val a <? val b).
Proof.
  intros. unfold num_lt. rewrite num_cmp_same by assumption.
  unfold Z.ltb. destruct (val a ?= val b); reflexivity.
Qed.
Lemma num_lt_value a b : digs a -> digs b -> normal a -> normal b ->
  num_lt a b = (val a <? val b).
Proof.
  intros. unfold num_lt. rewrite num_cmp_value by assumption.
  unfold Z.ltb. destruct (val a ?= val b); reflexivity.
Qed.

(** facts for lists that need not be normal *)
Lemma num_lt_true_len a b : num_lt a b = true -> (length a <= length b)%nat.
Proof.
  unfold num_lt, num_cmp. destruct (Nat.compare_spec (length a) (length b)); try lia; discriminate.
Qed.
Lemma num_lt_false_len a b : num_lt a b = false -> (length b <= length a)%nat.
Proof.
  unfold num_lt, num_cmp. destruct (Nat.compare_spec (length a) (length b)); try lia; discriminate.
Qed.
(** "not less" with [a] normal, [b] arbitrary is numerically right *)
Lemma num_lt_false_value a b : digs a -> digs b -> normal a ->
  num_lt a b = false -> val b <= val a.
Proof.
  intros Ha Hb Hn H. pose proof (num_lt_false_len a b H) as HL.
  destruct (Nat.eq_dec (length a) (length b)) as [E|NE].
  - rewrite num_lt_same in H by assumption. destruct (Z.ltb_spec (val a) (val b)); [discriminate|lia].
  - pose proof (value_length_lt b a Hb Ha Hn ltac:(lia)). lia.
Qed.
(** "less" with [b] normal, [a] arbitrary is numerically right *)
Lemma num_lt_true_value a b : digs a -> digs b -> normal b ->
  num_lt a b = true -> val a < val b.
Proof.
  intros Ha Hb Hn H. pose proof (num_lt_true_len a b H) as HL.
  destruct (Nat.eq_dec (length a) (length b)) as [E|NE].
  - rewrite num_lt_same in H by assumption. destruct (Z.ltb_spec (val a) (val b)); [lia|discriminate].
  - apply value_length_lt; auto. lia.
Qed.

(** ** drop_leading_zeros *)
Lemma drop_ok nr len : (len <= length nr)%nat ->
  total (drop_leading_zeros nr len) (fun n =>
    (n <= len)%nat /\ firstn len nr = firstn n nr ++ zeros (len - n) /\ normal (firstn n nr)).
Proof.
  induction len as [|n IH]; intros H; cbn [drop_leading_zeros].
  - ret. conj; [lia|reflexivity|]. rewrite firstn_O. apply normal_nil.
  - unfold get. destruct (nth_error nr n) as [d|] eqn:E; [|apply nth_error_None in E; lia].
    cbn [bind].
    assert (Hf : firstn (S n) nr = firstn n nr ++ [d]).
    { clear - E. revert n E. induction nr as [|x nr IH]; intros [|n] E; cbn in *;
        try discriminate; [congruence|]. f_equal. apply IH, E. }
    destruct (Z.eqb_spec d 0) as [->|Hd].
    + eapply total_post; [apply IH; lia|]. intros m (H1 & H2 & H3).
      conj; [lia| |assumption]. rewrite Hf, H2, <- app_assoc. f_equal.
      replace (S n - m)%nat with (n - m + 1)%nat by lia. unfold zeros.
      rewrite repeat_app. reflexivity.
    + ret. conj; [lia| |].
      * rewrite Nat.sub_diag. symmetry. apply app_nil_r.
      * rewrite Hf. apply normal_snoc. assumption.
Qed.

(** the same, in terms of values *)
Lemma drop_val nr len : (len <= length nr)%nat ->
  total (drop_leading_zeros nr len) (fun n =>
    (n <= len)%nat /\ val (firstn n nr) = val (firstn len nr) /\ normal (firstn n nr)).
Proof.
  intros H. eapply total_post; [apply drop_ok, H|]. intros n (H1 & H2 & H3).
  conj; auto. rewrite H2, value_app, value_zeros. lia.
Qed.
End Value.

(** ** Slices *)
Lemma sub_slice_ok l i j : (i <= j)%nat -> (j <= length l)%nat ->
  sub_slice l i j = Ret (firstn (j - i) (skipn i l)).
Proof.
  intros. unfold sub_slice.
  destruct (Nat.leb_spec i j), (Nat.leb_spec j (length l)); cbn; try lia. reflexivity.
Qed.
Lemma prefix_ok l n : (n <= length l)%nat -> prefix l n = Ret (firstn n l).
Proof. intros. unfold prefix. rewrite sub_slice_ok by lia. rewrite Nat.sub_0_r. reflexivity. Qed.
Lemma suffix_ok l i : (i <= length l)%nat -> suffix l i = Ret (skipn i l).
Proof.
  intros. unfold suffix. rewrite sub_slice_ok by lia.
  rewrite firstn_all2 by len. reflexivity.
Qed.
Lemma split_at_ok l n : (n <= length l)%nat -> split_at l n = Ret (firstn n l, skipn n l).
Proof. intros. unfold split_at. destruct (Nat.leb_spec n (length l)); [reflexivity|lia]. Qed.

Lemma get_ok l i : (i < length l)%nat -> get l i = Ret (nth i l 0).
Proof.
  intros. unfold get. rewrite (nth_error_nth' l 0) by assumption. reflexivity.
Qed.
Lemma set_ok l i v : (i < length l)%nat -> set l i v = Ret (firstn i l ++ v :: skipn (S i) l).
Proof. intros. unfold set. destruct (Nat.ltb_spec i (length l)); [reflexivity|lia]. Qed.

Lemma with_slice_eq {A} l i j (f : digits -> M (digits * A)) :
  (i <= j)%nat -> (j <= length l)%nat ->
  with_slice l i j f =
  bind (f (firstn (j - i) (skipn i l))) (fun '(s, a) => Ret (firstn i l ++ s ++ skipn j l, a)).
Proof. intros. unfold with_slice. rewrite sub_slice_ok by assumption. reflexivity. Qed.

Lemma spec_with_slice {A} P l i j (f : digits -> M (digits * A)) R (Q : digits * A -> Prop) :
  (i <= j)%nat -> (j <= length l)%nat ->
  spec P (f (firstn (j - i) (skipn i l))) R ->
  (forall s a, R (s, a) -> Q (firstn i l ++ s ++ skipn j l, a)) ->
  spec P (with_slice l i j f) Q.
Proof.
  intros H1 H2 Hf HQ. rewrite with_slice_eq by assumption.
  eapply spec_bind; [exact Hf|]. intros [s a] HR. ret. apply HQ, HR.
Qed.

Lemma spec_with_prefix {A} P l n (f : digits -> M (digits * A)) R (Q : digits * A -> Prop) :
  (n <= length l)%nat ->
  spec P (f (firstn n l)) R ->
  (forall s a, R (s, a) -> Q (s ++ skipn n l, a)) ->
  spec P (with_prefix l n f) Q.
Proof.
  intros H1 Hf HQ. unfold with_prefix.
  eapply spec_with_slice; [lia|lia| |].
  - rewrite Nat.sub_0_r. exact Hf.
  - intros s a HR. rewrite firstn_O. apply HQ, HR.
Qed.

Lemma spec_with_suffix {A} P l i (f : digits -> M (digits * A)) R (Q : digits * A -> Prop) :
  (i <= length l)%nat ->
  spec P (f (skipn i l)) R ->
  (forall s a, R (s, a) -> Q (firstn i l ++ s, a)) ->
  spec P (with_suffix l i f) Q.
Proof.
  intros H1 Hf HQ. unfold with_suffix.
  eapply spec_with_slice; [lia|lia| |].
  - rewrite firstn_all2 by len. exact Hf.
  - intros s a HR. rewrite skipn_all, app_nil_r. apply HQ, HR.
Qed.

(** The same as steps of a sequence. *)
Lemma step_slice {A C} P l i j (f : digits -> M (digits * A)) (k : digits * A -> M C) R Q :
  (i <= j)%nat -> (j <= length l)%nat ->
  spec P (f (firstn (j - i) (skipn i l))) R ->
  (forall s a, R (s, a) -> spec P (k (firstn i l ++ s ++ skipn j l, a)) Q) ->
  spec P (bind (with_slice l i j f) k) Q.
Proof.
  intros H1 H2 Hf HQ. eapply spec_bind with (R := fun x => spec P (k x) Q).
  - eapply spec_with_slice; [assumption|assumption|exact Hf|]. intros s a HR.
    exact (HQ s a HR).
  - intros [s a]. cbv beta. auto.
Qed.
Lemma step_prefix {A C} P l n (f : digits -> M (digits * A)) (k : digits * A -> M C) R Q :
  (n <= length l)%nat ->
  spec P (f (firstn n l)) R ->
  (forall s a, R (s, a) -> spec P (k (s ++ skipn n l, a)) Q) ->
  spec P (bind (with_prefix l n f) k) Q.
Proof.
  intros H1 Hf HQ. eapply spec_bind with (R := fun x => spec P (k x) Q).
  - eapply spec_with_prefix; [assumption|exact Hf|]. intros s a HR. exact (HQ s a HR).
  - intros [s a]. cbv beta. auto.
Qed.
Lemma step_suffix {A C} P l i (f : digits -> M (digits * A)) (k : digits * A -> M C) R Q :
  (i <= length l)%nat ->
  spec P (f (skipn i l)) R ->
  (forall s a, R (s, a) -> spec P (k (firstn i l ++ s, a)) Q) ->
  spec P (bind (with_suffix l i f) k) Q.
Proof.
  intros H1 Hf HQ. eapply spec_bind with (R := fun x => spec P (k x) Q).
  - eapply spec_with_suffix; [assumption|exact Hf|]. intros s a HR. exact (HQ s a HR).
  - intros [s a]. cbv beta. auto.
Qed.

Lemma fill_zero_ok l i j : (i <= j)%nat -> (j <= length l)%nat ->
  fill_zero l i j = Ret (firstn i l ++ zeros (j - i) ++ skipn j l).
Proof.
  intros. unfold fill_zero. rewrite with_slice_eq by assumption. cbn [bind].
  do 4 f_equal. rewrite firstn_length, skipn_length. lia.
Qed.

Lemma copy_into_ok l i j s : (i <= j)%nat -> (j <= length l)%nat -> length s = (j - i)%nat ->
  copy_into l i j s = Ret (firstn i l ++ s ++ skipn j l).
Proof.
  intros. unfold copy_into. rewrite with_slice_eq by assumption.
  replace (length (firstn (j - i) (skipn i l)) =? length s)%nat with true; [reflexivity|].
  symmetry. apply Nat.eqb_eq. rewrite firstn_length, skipn_length. lia.
Qed.
