(** * UBigProof: the operations of UBig.v except multiplication and division
    of big numbers. *)
From Coq Require Import ZArith List Bool Lia.
From Verif Require Import Base Digit Slice Mul Div UBig Spec Hoare DigitOK ListLemmas SliceProof
  MulProof.
Import ListNotations.
Open Scope Z_scope.
Open Scope m_scope.

Section UBigProof.
Variables (B : Z) (D : digit).
Hypothesis OK : digit_ok B D.
Notation val := (value B).
Notation digs := (below B).
Notation p n := (pw B n).
Let HB : 1 < B := SliceProof.HB B D OK.

Lemma new_ok l : digs l ->
  total (ubig_new l) (fun r => digs r /\ normal r /\ val r = val l).
Proof.
  intros H. unfold ubig_new, ubig_drop_leading_zeros.
  tstep (drop_val B); [lia|]. intros n (Hn & HV & HN). ret. unfold truncate.
  rewrite firstn_all in HV.
  destruct (Nat.ltb_spec n (length l)).
  - conj; auto. apply below_firstn; assumption.
  - replace n with (length l) in HN by lia. rewrite firstn_all in HN. auto.
Qed.

Lemma eqb_eq x y : ubig_eqb x y = true <-> x = y.
Proof.
  revert y. induction x as [|a x IH]; intros [|b y]; cbn; split; intros H; try discriminate; auto.
  - apply andb_prop in H. destruct H as [H1 H2]. apply Z.eqb_eq in H1. apply IH in H2. congruence.
  - injection H as -> ->. rewrite Z.eqb_refl. apply IH. reflexivity.
Qed.

Lemma eqb_value x y : digs x -> digs y -> normal x -> normal y ->
  (ubig_eqb x y = true <-> val x = val y).
Proof.
  intros. rewrite eqb_eq. split; [congruence|]. apply normal_inj; auto.
Qed.

Lemma push_digs l d : digs l -> 0 <= d < B -> digs (l ++ [d]).
Proof. intros. apply below_app. split; [assumption|]. apply below_cons. auto using below_nil. Qed.
Lemma push_val l d : val (l ++ [d]) = val l + p (length l) * d.
Proof. rewrite value_app. cbn [value]. ring. Qed.

Lemma normal_ge l v : digs l -> normal l -> val l <= v -> l = [] \/ p (length l - 1) <= v.
Proof.
  intros Hd Hn Hv. destruct l as [|d t]; [auto|right].
  pose proof (normal_lower B HB (d :: t) Hd Hn). specialize (H ltac:(discriminate)). lia.
Qed.

(** normality of a list that is at least as large as a normal list of the same length *)
Lemma normal_grow r l : digs r -> digs l -> normal l -> length r = length l ->
  val l <= val r -> normal r.
Proof.
  intros Hr Hl Hn HL HV. destruct (normal_ge l (val r) Hl Hn HV) as [->|H].
  - destruct r; [apply normal_nil|discriminate].
  - apply (normal_of_value B D OK); [assumption|]. rewrite HL. assumption.
Qed.

(** ** addition *)
Lemma add_at_offset_ok self other off : digs self -> digs other ->
  total (add_assign_big_at_offset D self other off) (fun r =>
    digs r /\ val r = val self + p off * val other
    /\ (off = 0%nat -> normal self -> normal other -> normal r)).
Proof.
  intros Hs Ho. unfold add_assign_big_at_offset.
  destruct (Nat.leb_spec (length self) off) as [H0|H0].
  { ret. conj.
    - rewrite !below_app. conj; auto. apply below_zeros; auto.
    - rewrite !value_app, value_zeros, zeros_length.
      replace off with (length self + (off - length self))%nat at 2 by lia.
      rewrite pw_add. lia.
    - intros -> _ Hn. assert (self = []) as -> by (destruct self; [reflexivity|cbn in H0; lia]).
      exact Hn. }
  assert (Lf : length (firstn off self) = off) by len.
  assert (Vs : val self = val (firstn off self) + p off * val (skipn off self))
    by (apply value_split; lia).
  destruct (Nat.leb_spec (length other) (length self - off)) as [H1|H1].
  - eapply step_suffix; [lia|apply (add_assign_big_ok B D OK); auto; [apply below_skipn; auto|len]|].
    intros s c (L1 & D1 & V1). pose proof (below_firstn B off self Hs) as Df.
    rewrite skipn_length in V1, L1. ret.
    assert (Vr : val (firstn off self ++ s) + p (length self) * of_bool c
                 = val self + p off * val other).
    { rewrite value_app, Lf, Vs. replace (length self) with (off + (length self - off))%nat by lia.
      rewrite pw_add. nia. }
    assert (Dr : digs (firstn off self ++ s)) by (apply below_app; auto).
    destruct c; cbn [of_bool] in Vr.
    + conj.
      * apply push_digs; [assumption|lia].
      * rewrite push_val. replace (length (firstn off self ++ s)) with (length self) by len. lia.
      * intros _ _ _. apply normal_snoc. lia.
    + conj; auto; [lia|]. intros -> Hn _. apply (normal_grow _ self); auto; [len|].
      rewrite pw_0 in Vr. pose proof (value_nonneg B HB other Ho). lia.
  - rewrite suffix_ok by lia. cbn [bind]. rewrite prefix_ok by lia. cbn [bind].
    set (m := (length self - off)%nat) in *.
    assert (Vo : val other = val (firstn m other) + p m * val (skipn m other))
      by (apply value_split; lia).
    assert (Ls : length (self ++ skipn m other) = (length other + off)%nat) by len.
    assert (Dso : digs (self ++ skipn m other)) by (apply below_app; split; auto using below_skipn).
    eapply step_suffix; [lia|apply (add_assign_big_ok B D OK)|].
    { apply below_skipn; auto. } { apply below_firstn; auto. } { len. }
    intros s c (L1 & D1 & V1).
    assert (Ff : firstn off (self ++ skipn m other) = firstn off self) by (apply firstn_app_le; lia).
    assert (Sf : skipn off (self ++ skipn m other) = skipn off self ++ skipn m other)
      by (apply skipn_app_le; lia).
    assert (Lk : length (skipn off self ++ skipn m other) = length other) by len.
    rewrite Ff. rewrite Sf in L1, V1. rewrite Lk in L1, V1. ret.
    pose proof (below_firstn B off self Hs) as Df.
    assert (Vr : val (firstn off self ++ s) + p (length other + off) * of_bool c
                 = val self + p off * val other).
    { rewrite value_app, Lf, Vs, Vo. rewrite value_app in V1.
      replace (length (skipn off self)) with m in V1 by len.
      rewrite (Nat.add_comm _ off), pw_add. nia. }
    assert (Dr : digs (firstn off self ++ s)) by (apply below_app; auto).
    destruct c; cbn [of_bool] in Vr.
    + conj.
      * apply push_digs; [assumption|lia].
      * rewrite push_val. replace (length (firstn off self ++ s)) with (length other + off)%nat by len.
        lia.
      * intros _ _ _. apply normal_snoc. lia.
    + conj; auto; [lia|]. intros -> _ Hn. apply (normal_grow _ other); auto.
      rewrite pw_0 in Vr. pose proof (value_nonneg B HB self Hs). lia.
Qed.

Lemma add_assign_ok self other : digs self -> digs other ->
  total (add_assign D self other) (fun r =>
    digs r /\ val r = val self + val other /\ (normal self -> normal other -> normal r)).
Proof.
  intros Hs Ho. eapply total_post; [apply add_at_offset_ok; auto|].
  intros r (H1 & H2 & H3). rewrite pw_0 in H2. conj; auto; lia.
Qed.

Lemma add_assign_d_ok self x : digs self -> 0 <= x < B ->
  total (add_assign_d D self x) (fun r =>
    digs r /\ val r = val self + x /\ (normal self -> normal r)).
Proof.
  intros Hs Hx. unfold add_assign_d. tstep (add_assign_digit_ok B D OK); auto.
  intros [r c] (L & Dr & V). ret. destruct c as [k|].
  - destruct V as [Hk V]. conj.
    + apply push_digs; [assumption|lia].
    + rewrite push_val, L. lia.
    + intros _. apply normal_snoc. lia.
  - conj; auto. intros Hn. apply (normal_grow _ self); auto. lia.
Qed.

(** ** subtraction *)
Lemma or_panic_ok {A} (r : result A) (Q : A -> Prop) :
  match r with ROk a => Q a | RErr _ => False end -> total (or_panic r) Q.
Proof. destruct r; cbn; [auto|contradiction]. Qed.

Lemma sub_at_zero_ok self other : digs self -> digs other ->
  total (sub_assign_big_at_offset D self other 0) (fun '(r, res) =>
    match res with
    | ROk _ => digs r /\ val r = val self - val other
               /\ (normal self -> normal r \/ length r = length other)
               /\ (normal self -> ~ (val (skipn (length other) self) = 1
                                     /\ val r < p (length other - 1)) -> normal r)
    | RErr e => e = Underflow /\ digs r
                /\ ((length self < length other)%nat \/ val self < val other)
    end).
Proof.
  intros Hs Ho. unfold sub_assign_big_at_offset.
  replace (length self <? 0)%nat with false by (symmetry; apply Nat.ltb_ge; lia).
  eapply step_suffix; [lia|apply (sub_assign_big_ok B D OK); auto; apply below_skipn; auto|].
  cbn [firstn skipn app]. intros r [n|e] H; ret.
  - destruct H as (L & Dr & Hle & V & Hn & Vn & N1 & N2). unfold truncate.
    rewrite Vn. conj; auto.
    + apply below_firstn; assumption.
    + intros Hnorm. destruct (N2 Hnorm) as [->|]; [right; len|auto].
  - destruct H as (L & Dr & H). tauto.
Qed.

Lemma sub_assign_ok self other : digs self -> digs other -> normal other ->
  spec (fun w => w = PExplicit Underflow /\ val self < val other)
    (sub_assign D self other) (fun r =>
    digs r /\ val r = val self - val other
    /\ (normal self -> normal r \/ length r = length other)
    /\ (normal self -> ~ (val (skipn (length other) self) = 1
                          /\ val r < p (length other - 1)) -> normal r)).
Proof.
  intros Hs Ho Hn. unfold sub_assign.
  eapply spec_bind; [apply total_spec, sub_at_zero_ok; auto|].
  intros [r [u|e]] H; cbn [or_panic bind]; [ret; exact H|].
  destruct H as (-> & _ & [H|H]); split; auto.
  apply value_length_lt; auto.
Qed.

Lemma sub_assign_d_ok self x : digs self -> 0 <= x < B ->
  spec (fun w => w = PExplicit Underflow /\ val self < x)
    (sub_assign_d D self x) (fun r =>
    digs r /\ val r = val self - x
    /\ (normal self -> 0 < val r \/ (2 <= length r)%nat -> normal r)
    /\ (x <> 0 -> (1 <= length r)%nat)).
Proof.
  intros Hs Hx. unfold sub_assign_d.
  eapply spec_bind; [apply total_spec, (sub_assign_digit_ok B D OK); auto|].
  intros [r [n|e]] (L & Dr & H); cbn [or_panic bind].
  - destruct H as (V & Hn & Vn & N1 & N2). ret. unfold truncate. rewrite Vn.
    assert (Lf : length (firstn n r) = n) by len. rewrite Lf.
    conj; auto; [apply below_firstn; assumption|].
    intros Hnm Hc. apply N2; [assumption|]. tauto.
  - destruct H as (-> & H). split; auto.
Qed.

(** ** multiplication by digits *)
Lemma normal_mul_len l v : digs l -> normal l -> val l <= v -> l <> [] -> p (length l - 1) <= v.
Proof. intros H1 H2 H3 H4. destruct (normal_ge l v H1 H2 H3); [contradiction|assumption]. Qed.

Lemma mul_add_assign_digit_ok self f o : digs self -> 0 <= f < B -> 0 <= o < B ->
  total (ubig_mul_add_assign_digit D self f o) (fun r =>
    digs r /\ val r = val self * f + o /\ (normal self -> normal r)).
Proof.
  intros Hs Hf Ho. unfold ubig_mul_add_assign_digit.
  destruct (Z.eqb_spec f 0) as [->|Hf0].
  - cbn [bind]. ret. destruct (Z.eqb_spec o 0) as [->|Ho0].
    + conj; [apply below_nil|cbn [value]; lia|intros; apply normal_nil].
    + conj; [apply push_digs; [apply below_nil|lia]|cbn [app value]; lia|].
      intros _. apply normal_single. assumption.
  - tstep (mul_add_digit_ok B D OK); auto. intros [r c] (L & Dr & Hc & V). ret.
    destruct (Z.eqb_spec c 0) as [->|Hc0].
    + conj; auto; [lia|]. intros Hn. apply (normal_grow _ self); auto.
      pose proof (value_nonneg B HB self Hs). nia.
    + conj; [apply push_digs; [assumption|lia]|rewrite push_val, L; lia|].
      intros _. apply normal_snoc. assumption.
Qed.

Lemma mul_pair_add_ok self fl fh o : digs self -> 0 <= fl < B -> 0 <= fh < B -> 0 <= o < B ->
  total (ubig_mul_pair_add_assign_digit D self fl fh o) (fun r =>
    digs r /\ val r = val self * (fl + B * fh) + o /\ normal r).
Proof.
  intros Hs Hl Hh Ho. unfold ubig_mul_pair_add_assign_digit.
  tstep (mul_pair_ok B D OK); auto. intros [r [x y]] (L & Dr & Hx & Hy & V).
  fold (ubig_new (if negb (x =? 0) || negb (y =? 0)
     then if y =? 0 then r ++ [x] else r ++ [x] ++ [y] else r)).
  set (r' := if negb (x =? 0) || negb (y =? 0)
     then if y =? 0 then r ++ [x] else r ++ [x] ++ [y] else r).
  assert (H : digs r' /\ val r' = val self * (fl + B * fh) + o).
  { unfold r'. destruct (Z.eqb_spec x 0) as [->|], (Z.eqb_spec y 0) as [->|]; cbn [negb orb].
    - split; [assumption|lia].
    - rewrite below_app, value_app. cbn [app value]. rewrite !below_cons, L.
      conj; auto using below_nil; try lia.
    - rewrite below_app, value_app. cbn [app value]. rewrite !below_cons, L.
      conj; auto using below_nil; try lia.
    - rewrite below_app, value_app. cbn [app value]. rewrite !below_cons, L.
      conj; auto using below_nil; try lia. }
  destruct H as [Hr Hv]. eapply total_post; [apply new_ok; exact Hr|].
  intros q (Q1 & Q2 & Q3). conj; auto. lia.
Qed.

End UBigProof.
