(** * ClaimsToom: exactly when products of any size, and squares of up to 1131 digits, stop. *)
From Coq Require Import ZArith List Bool Lia.
From Verif Require Import Base Digit Slice Mul Div UBig Spec SpecMul SpecToom Hoare DigitOK ListLemmas
  SliceProof MulProof BufProof WorkSize KaratsubaProof MulTopProof UBigProof PowProof DivProof TypedProof
  KaraExact ToomLen ToomExact ToomJam ToomSquare Cases ClaimsBasic ClaimsKara.
Import ListNotations.
Open Scope Z_scope.
Open Scope m_scope.

Section Top.
Variables (B : Z) (D : digit).
Hypothesis OK : digit_ok B D.
Let HB : 1 < B := SliceProof.HB B D OK.
Hint Resolve HB : core.

Lemma empty_jam x y : x = [] \/ y = [] -> ~ jams B x y.
Proof.
  intros H. rewrite jams_below; [apply not_both_free|]; destruct H; subst; cbn; lia.
Qed.

Lemma mul_big_jam x y : below B x -> below B y ->
  spec (halt B x y) (mul_big D x y)
    (fun r => prodpost B (value B x * value B y) r /\ ~ jams B x y).
Proof.
  intros D0 D1. unfold mul_big.
  destruct (ubig_is_zero x) eqn:E0; cbn [orb].
  { apply is_zero_nil in E0. subst. ret. split; [|apply empty_jam; auto].
    unfold prodpost, ubig_zero. conj; auto using below_nil, normal_nil. }
  destruct (ubig_is_zero y) eqn:E1.
  { apply is_zero_nil in E1. subst. ret. split; [|apply empty_jam; auto].
    unfold prodpost, ubig_zero. conj; auto using below_nil, normal_nil. cbn. lia. }
  eapply spec_bind.
  { apply (mul_into_jam B D OK); auto; [apply below_zeros; auto|].
    intros _ _. rewrite zeros_length. lia. }
  intros [r n] ((L & Dr & H1 & H2 & V & N) & Hf). ret. split; [|exact Hf].
  unfold prodpost, truncate. conj; auto. apply below_firstn, Dr.
Qed.

Lemma square_jam x : below B x -> (length x <= 1131)%nat ->
  spec (halt B x x) (square D x)
    (fun r => prodpost B (value B x * value B x) r /\ ~ jams B x x).
Proof.
  intros D0 HL. unfold square.
  destruct (ubig_is_zero x) eqn:E0.
  { apply is_zero_nil in E0. subst. ret. split; [|apply empty_jam; auto].
    unfold prodpost, ubig_zero. conj; auto using below_nil, normal_nil. }
  eapply spec_bind.
  { apply (square_into_jam B D OK); auto; [apply below_zeros; auto|rewrite zeros_length; lia|].
    right. split; [apply value_zeros|assumption]. }
  intros [r n] ((L & Dr & H1 & H2 & V & N) & Hf). ret. split; [|exact Hf].
  unfold prodpost, truncate. conj; auto. apply below_firstn, Dr.
Qed.
End Top.

(** A multiplication of these two numbers stops. *)
Definition jam_product (t : dty) (x y : digits) : Prop :=
  jam (radix t) (length x) (num t x) (length y) (num t y).

Lemma mul_jam_claim dbg t x y : valid t x -> valid t y ->
  (jam_product t x y -> mul_assign (impl dbg t) x y = Panic (PUnwrap Underflow))
  /\ (~ jam_product t x y -> exists r, mul_assign (impl dbg t) x y = Ret r
        /\ well_formed t r /\ num t r = num t x * num t y).
Proof.
  intros Hx Hy. unfold mul_assign.
  destruct (spec_exact _ _ _ _ (mul_big_jam _ _ (impl_ok dbg t) x y Hx Hy)) as [H1 H2].
  - intros a [_ Hf]. exact Hf.
  - split; [exact H1|]. intros Hn. destruct (H2 Hn) as (r & E & (P1 & P2 & P3) & _).
    exists r. repeat split; auto.
Qed.

Lemma square_jam_claim dbg t x : valid t x -> (length x <= 1131)%nat ->
  (jam_product t x x -> square (impl dbg t) x = Panic (PUnwrap Underflow))
  /\ (~ jam_product t x x -> exists r, square (impl dbg t) x = Ret r
        /\ well_formed t r /\ num t r = num t x * num t x).
Proof.
  intros Hx HL.
  destruct (spec_exact _ _ _ _ (square_jam _ _ (impl_ok dbg t) x Hx HL)) as [H1 H2].
  - intros a [_ Hf]. exact Hf.
  - split; [exact H1|]. intros Hn. destruct (H2 Hn) as (r & E & (P1 & P2 & P3) & _).
    exists r. repeat split; auto.
Qed.

(** ** A decision procedure *)
Definition misread_b (m : nat) (v : Z) (n : nat) (w : Z) : bool :=
  if precedes m v n w then w <? v else v <? w.
Definition confused_b (x y : sample) : bool := misread_b (count x) (size x) (count y) (size y).
Definition lost_b (B : Z) (p0 p1 p2 : sample) : bool :=
  let am1 := at_minus_one B p0 p1 p2 in
  let hw := half_way B p0 p1 p2 in
  if confused_b (ends B p0 p2) p1 then true
  else if (if negative am1 then confused_b p2 am1 else false) then true
  else if negative hw then false else confused_b (twice B hw) p0.
Definition together_lost_b (B r0 r1 rm1 rm2 : Z) (s1 s2 : bool) : bool :=
  let a := step2 B r0 rm1 s1 in
  let b := step3 B r1 rm2 s2 in
  if Bool.eqb (negative a) (negative b) then confused_b b a else false.

Lemma misread_b_spec m v n w : misread_b m v n w = true <-> misread m v n w.
Proof. unfold misread_b, misread. destruct (precedes m v n w); apply Z.ltb_lt. Qed.
Lemma lost_b_spec B p0 p1 p2 : lost_b B p0 p1 p2 = true <-> lost B p0 p1 p2.
Proof.
  unfold lost_b, lost, confused. cbv zeta. rewrite <- !misread_b_spec. fold (confused_b (ends B p0 p2) p1).
  fold (confused_b p2 (at_minus_one B p0 p1 p2)). fold (confused_b (twice B (half_way B p0 p1 p2)) p0).
  destruct (confused_b (ends B p0 p2) p1), (negative (at_minus_one B p0 p1 p2)),
    (confused_b p2 (at_minus_one B p0 p1 p2)), (negative (half_way B p0 p1 p2)),
    (confused_b (twice B (half_way B p0 p1 p2)) p0); intuition congruence.
Qed.
Lemma together_lost_b_spec B r0 r1 rm1 rm2 s1 s2 :
  together_lost_b B r0 r1 rm1 rm2 s1 s2 = true <-> together_lost B r0 r1 rm1 rm2 s1 s2.
Proof.
  unfold together_lost_b, together_lost, confused. cbv zeta. rewrite <- misread_b_spec.
  fold (confused_b (step3 B r1 rm2 s2) (step2 B r0 rm1 s1)).
  destruct (Bool.eqb_spec (negative (step2 B r0 rm1 s1)) (negative (step3 B r1 rm2 s2))) as [E|E];
    intuition congruence.
Qed.

Fixpoint jam_in (fuel : nat) (B : Z) (m : nat) (v : Z) (n : nat) (w : Z) : bool :=
  if (if (128 <=? m)%nat then (128 <=? n)%nat else false) then
    match fuel with
    | O => false
    | S f =>
        let s := third m n in
        let p0 := piece0 B v s in let p1 := piece1 B v s in let p2 := piece2 B m v s in
        let q0 := piece0 B w s in let q1 := piece1 B w s in let q2 := piece2 B n w s in
        if lost_b B p0 p1 p2 then true else
        if lost_b B q0 q1 q2 then true else
        let a1 := at_one B p0 p1 p2 in let b1 := at_one B q0 q1 q2 in
        let am1 := at_minus_one B p0 p1 p2 in let bm1 := at_minus_one B q0 q1 q2 in
        let am2 := at_minus_two B p0 p1 p2 in let bm2 := at_minus_two B q0 q1 q2 in
        let inner (a b : sample) := jam_in f B (count a) (size a) (count b) (size b) in
        if inner a1 b1 then true else
        if inner am1 bm1 then true else
        if inner am2 bm2 then true else
        if inner p0 q0 then true else
        if inner p2 q2 then true else
        together_lost_b B (size p0 * size q0) (size a1 * size b1) (size am1 * size bm1) (size am2 * size bm2)
          (xorb (negative am1) (negative bm1)) (xorb (negative am2) (negative bm2))
    end
  else stuck_in (S (Nat.max m n)) B m v n w.

Lemma large_b m n : (if (128 <=? m)%nat then (128 <=? n)%nat else false) = true <-> large m n.
Proof.
  unfold large. rewrite <- !Nat.leb_le.
  destruct (128 <=? m)%nat, (128 <=? n)%nat; intuition congruence.
Qed.

Lemma jam_in_sound f B m v n w : jam_in f B m v n w = true -> jam B m v n w.
Proof.
  revert m v n w. induction f as [|f IH]; intros m v n w; cbn [jam_in];
    destruct (if (128 <=? m)%nat then (128 <=? n)%nat else false) eqn:E.
  - discriminate.
  - intros H. apply stuck_in_sound in H. apply jam_small; [|exact H].
    destruct (Nat.leb_spec 128 m), (Nat.leb_spec 128 n); try discriminate; lia.
  - apply large_b in E. cbv zeta.
    destruct (lost_b B (piece0 B v _) _ _) eqn:E1; [intros _; apply jam_first; [exact E|apply lost_b_spec, E1]|].
    destruct (lost_b B (piece0 B w _) _ _) eqn:E2; [intros _; apply jam_second; [exact E|apply lost_b_spec, E2]|].
    clear E1 E2.
    destruct (jam_in f _ _ _ _ _) eqn:E1; [intros _; apply (jam_inside B m v n w One); [exact E|apply IH, E1]|clear E1].
    destruct (jam_in f _ _ _ _ _) eqn:E1; [intros _; apply (jam_inside B m v n w MinusOne); [exact E|apply IH, E1]|clear E1].
    destruct (jam_in f _ _ _ _ _) eqn:E1; [intros _; apply (jam_inside B m v n w MinusTwo); [exact E|apply IH, E1]|clear E1].
    destruct (jam_in f _ _ _ _ _) eqn:E1; [intros _; apply (jam_inside B m v n w Zero); [exact E|apply IH, E1]|clear E1].
    destruct (jam_in f _ _ _ _ _) eqn:E1; [intros _; apply (jam_inside B m v n w Infinity); [exact E|apply IH, E1]|clear E1].
    intros H. apply jam_together; [exact E|]. apply together_lost_b_spec, H.
  - intros H. apply stuck_in_sound in H. apply jam_small; [|exact H].
    destruct (Nat.leb_spec 128 m), (Nat.leb_spec 128 n); try discriminate; lia.
Qed.

Lemma any_true (a b c d e g : bool) :
  a = true \/ b = true \/ c = true \/ d = true \/ e = true ->
  (if a then true else if b then true else if c then true else if d then true else if e then true else g) = true.
Proof. destruct a, b, c, d, e; intuition congruence. Qed.
Lemma all_true (a b c d e h i : bool) :
  (if h then true else if i then true else if a then true else if b then true else if c then true
   else if d then true else if e then true else true) = true.
Proof. destruct a, b, c, d, e, h, i; reflexivity. Qed.

(** The samples are shorter than the numbers. *)
Section Complete.
Variables (B : Z) (D : digit).
Hypothesis OK : digit_ok B D.
Let HB : 1 < B := SliceProof.HB B D OK.
Notation fits := (fits B).
Definition sfits (x : sample) : Prop := fits (count x) (size x).
(** at most k digits *)
Definition upto (k : nat) (x : sample) : Prop := sfits x /\ (count x <= k)%nat.

Lemma wide_le k v : (wide B k v <= S k)%nat.
Proof. unfold wide. destruct (_ <? _); lia. Qed.
Lemma wide_ok k v : 0 <= v < 2 * pw B k -> fits (wide B k v) v.
Proof.
  intros H. unfold wide. destruct (Z.ltb_spec v (B ^ Z.of_nat k)) as [H1|H1]; [split; [lia|exact H1]|].
  split; [lia|]. change (S k) with (1 + k)%nat. rewrite pw_add. unfold pw at 1. rewrite Z.pow_1_r.
  pose proof (pw_pos B k HB). nia.
Qed.
Lemma plus_upto k neg x y : upto k x -> upto k y -> upto (S k) (plus B neg x y).
Proof.
  intros [[X1 X2] X3] [[Y1 Y2] Y3]. unfold upto, sfits, plus; cbn [count size]. split.
  - apply wide_ok. pose proof (pw_le B _ _ HB (Nat.le_max_l (count x) (count y))).
    pose proof (pw_le B _ _ HB (Nat.le_max_r (count x) (count y))). lia.
  - pose proof (wide_le (Nat.max (count x) (count y)) (size x + size y)). lia.
Qed.
Lemma twice_upto k x : upto k x -> upto (S k) (twice B x).
Proof.
  intros [[X1 X2] X3]. unfold upto, sfits, twice; cbn [count size]. split.
  - apply wide_ok. lia.
  - pose proof (wide_le (count x) (2 * size x)). lia.
Qed.
Lemma precedes_len m v n w : precedes m v n w = true -> (m <= n)%nat.
Proof. unfold precedes. destruct (Nat.ltb_spec m n), (Nat.eqb_spec m n); cbn; intros; try discriminate; lia. Qed.
Lemma not_precedes_len m v n w : precedes m v n w = false -> (n <= m)%nat.
Proof. unfold precedes. destruct (Nat.ltb_spec m n), (Nat.eqb_spec m n); cbn; intros; try discriminate; lia. Qed.
Lemma left_over_le' m v n w : fits m v -> 0 <= w -> (left_over B m v n w <= Nat.max 1 m)%nat.
Proof. intros [H1 H2] H. apply (left_over_le B D OK); assumption. Qed.

Lemma minus_upto k x y : (1 <= k)%nat -> upto k x -> upto k y -> ~ confused x y -> upto k (minus B x y).
Proof.
  intros Hk [X1 X2] [Y1 Y2] Hc. unfold confused, misread in Hc. unfold upto, sfits, minus; cbn [count size].
  destruct (precedes _ _ _ _) eqn:E.
  - replace (Z.abs (size x - size y)) with (size y - size x) by lia. split.
    + apply (left_over_fits B D OK); auto; [apply (precedes_len _ _ _ _ E)|lia].
    + pose proof (left_over_le' (count y) (size y) (count x) (size x) Y1 (proj1 X1)). lia.
  - replace (Z.abs (size x - size y)) with (size x - size y) by lia. split.
    + apply (left_over_fits B D OK); auto; [apply (not_precedes_len _ _ _ _ E)|lia].
    + pose proof (left_over_le' (count x) (size x) (count y) (size y) X1 (proj1 Y1)). lia.
Qed.
Lemma minus_in_place_upto k x y : (1 <= k)%nat -> upto k x -> upto k y -> ~ confused x y ->
  upto k (minus_in_place B x y).
Proof.
  intros Hk [X1 X2] [Y1 Y2] Hc. unfold confused, misread in Hc.
  unfold upto, sfits, minus_in_place; cbn [count size].
  destruct (precedes _ _ _ _) eqn:E.
  - replace (Z.abs (size x - size y)) with (size y - size x) by lia. split.
    + split; [lia|apply (places_lt B D OK); lia].
    + pose proof (places_le B D OK (size y - size x) (count y)). destruct X1, Y1. lia.
  - replace (Z.abs (size x - size y)) with (size x - size y) by lia. split.
    + apply (left_over_fits B D OK); auto; [apply (not_precedes_len _ _ _ _ E)|lia].
    + pose proof (left_over_le' (count x) (size x) (count y) (size y) X1 (proj1 Y1)). lia.
Qed.
Lemma upto_le k l x : (k <= l)%nat -> upto k x -> upto l x.
Proof. intros H [A C]. split; [exact A|lia]. Qed.

Section Points.
Variables (k : nat) (p0 p1 p2 : sample).
Hypothesis K : (1 <= k)%nat.
Hypothesis P0 : upto k p0.
Hypothesis P1 : upto k p1.
Hypothesis P2 : upto k p2.
Hypothesis NL : ~ lost B p0 p1 p2.

Lemma at_one_upto : upto (S (S k)) (at_one B p0 p1 p2).
Proof. apply plus_upto; [apply plus_upto; assumption|apply (upto_le k); [lia|assumption]]. Qed.
Lemma at_minus_one_upto : upto (S k) (at_minus_one B p0 p1 p2).
Proof.
  apply minus_in_place_upto; [lia|apply plus_upto; assumption|apply (upto_le k); [lia|assumption]|].
  intros H. apply NL. left. exact H.
Qed.
Lemma half_way_upto : upto (S (S k)) (half_way B p0 p1 p2).
Proof.
  pose proof at_minus_one_upto as A. unfold half_way. destruct (negative _) eqn:E.
  - apply (upto_le (S k)); [lia|]. apply minus_upto; [lia|apply (upto_le k); [lia|assumption]|exact A|].
    intros H. apply NL. right. left. split; assumption.
  - apply plus_upto; [exact A|apply (upto_le k); [lia|assumption]].
Qed.
Lemma at_minus_two_upto : upto (k + 4) (at_minus_two B p0 p1 p2).
Proof.
  pose proof half_way_upto as A. unfold at_minus_two. destruct (negative _) eqn:E.
  - apply (upto_le (S (S (S (S k))))); [lia|]. apply plus_upto; [apply twice_upto, A|apply (upto_le k); [lia|assumption]].
  - apply (upto_le (S (S (S k)))); [lia|].
    apply minus_in_place_upto; [lia|apply twice_upto, A|apply (upto_le k); [lia|assumption]|].
    intros H. apply NL. right. right. split; assumption.
Qed.
End Points.

Lemma piece_upto v s : upto s (piece B (lower B v s)).
Proof.
  pose proof (lower_fits B D OK v s) as H. split.
  - split; [apply H|]. cbn [count size piece]. apply (places_lt B D OK), H.
  - apply (places_le B D OK), H.
Qed.
Lemma piece2_upto m v s : fits m v -> (m - 2 * s <= s)%nat -> upto s (piece2 B m v s).
Proof. intros H Hs. split; [|exact Hs]. apply (upper_fits B D OK m v (2 * s)), H. Qed.

Lemma sample_upto m v s x : fits m v -> (m - 2 * s <= s)%nat -> (1 <= s)%nat -> ~ goes_wrong B m v s ->
  upto (s + 4) (sample_at B m v s x).
Proof.
  intros F Hs H1 NL.
  pose proof (piece_upto v s : upto s (piece0 B v s)) as P0.
  pose proof (piece_upto (upper B v s) s : upto s (piece1 B v s)) as P1.
  pose proof (piece2_upto m v s F Hs) as P2.
  destruct x; cbn [sample_at].
  - apply (upto_le (S (S s))); [lia|]. apply at_one_upto; assumption.
  - apply (upto_le (S s)); [lia|]. apply at_minus_one_upto; assumption.
  - apply at_minus_two_upto; assumption.
  - apply (upto_le s); [lia|assumption].
  - apply (upto_le s); [lia|assumption].
Qed.

Lemma third_bounds m n : large m n ->
  (42 <= third m n /\ third m n + 4 < Nat.max m n)%nat
  /\ (m - 2 * third m n <= third m n)%nat /\ (n - 2 * third m n <= third m n)%nat.
Proof.
  intros [H1 H2]. unfold third. pose proof (Nat.div_mod (Nat.max m n + 2) 3 ltac:(lia)).
  pose proof (Nat.mod_upper_bound (Nat.max m n + 2) 3 ltac:(lia)). lia.
Qed.

Lemma jam_in_complete m v n w : jam B m v n w -> forall f, fits m v -> fits n w ->
  (Nat.max m n < f)%nat -> jam_in f B m v n w = true.
Proof.
  induction 1 as [m v n w Hs H|m v n w Hb H|m v n w Hb H|m v n w x Hb H IH|m v n w Hb H];
    intros f F1 F2 Hf; (destruct f as [|f]; [lia|]).
  - cbn [jam_in].
    replace (if (128 <=? m)%nat then (128 <=? n)%nat else false) with false
      by (destruct (Nat.leb_spec 128 m), (Nat.leb_spec 128 n); lia || reflexivity).
    apply (stuck_in_complete B D OK); auto; lia.
  - cbn [jam_in]. rewrite (proj2 (large_b m n) Hb). cbv zeta.
    apply lost_b_spec in H. rewrite H. reflexivity.
  - cbn [jam_in]. rewrite (proj2 (large_b m n) Hb). cbv zeta.
    apply lost_b_spec in H. rewrite H. destruct (lost_b B (piece0 B v _) _ _); reflexivity.
  - destruct (third_bounds m n Hb) as ((T1 & T2) & T3 & T4).
    cbn [jam_in]. rewrite (proj2 (large_b m n) Hb). cbv zeta.
    destruct (lost_b B (piece0 B v _) _ _) eqn:N1; [reflexivity|].
    destruct (lost_b B (piece0 B w _) _ _) eqn:N2; [reflexivity|].
    assert (N1' : ~ goes_wrong B m v (third m n)).
    { intros K. apply lost_b_spec in K. congruence. }
    assert (N2' : ~ goes_wrong B n w (third m n)).
    { intros K. apply lost_b_spec in K. congruence. }
    destruct (sample_upto m v (third m n) x F1 T3 ltac:(lia) N1') as [S1 S2].
    destruct (sample_upto n w (third m n) x F2 T4 ltac:(lia) N2') as [S3 S4].
    specialize (IH f S1 S3 ltac:(lia)). clear - IH.
    destruct x; cbn [sample_at] in IH; apply any_true; tauto.
  - cbn [jam_in]. rewrite (proj2 (large_b m n) Hb). cbv zeta.
    apply together_lost_b_spec in H. unfold product_at, sign_at in H. cbn [sample_at] in H. rewrite H.
    apply all_true.
Qed.
End Complete.

Definition jam_check (t : dty) (x y : digits) : bool :=
  jam_in (S (Nat.max (length x) (length y))) (radix t) (length x) (num t x) (length y) (num t y).

Lemma jam_computed t x y : valid t x -> valid t y ->
  (jam_check t x y = true <-> jam_product t x y).
Proof.
  intros Hx Hy. split; [apply jam_in_sound|]. intros H.
  apply (jam_in_complete _ _ (impl_ok true t)); [exact H| | |lia];
    apply (value_bound _ (radix_gt t)); assumption.
Qed.

(** ** Consequences *)
Lemma third_comm m n : third m n = third n m.
Proof. unfold third. rewrite Nat.max_comm. reflexivity. Qed.
Lemma jam_comm B m v n w : jam B m v n w -> jam B n w m v.
Proof.
  induction 1 as [m v n w Hs H|m v n w Hb H|m v n w Hb H|m v n w x Hb H IH|m v n w Hb H];
    try (assert (Hb' : large n m) by (destruct Hb; split; assumption)).
  - apply jam_small; [tauto|apply stuck_comm, H].
  - apply jam_second; [exact Hb'|]. rewrite third_comm. exact H.
  - apply jam_first; [exact Hb'|]. rewrite third_comm. exact H.
  - apply jam_inside with x; [exact Hb'|]. rewrite third_comm. exact IH.
  - apply jam_together; [exact Hb'|]. unfold not_together, product_at, sign_at in *.
    rewrite (third_comm n m).
    rewrite !(Z.mul_comm (size (sample_at B n w _ _))), !(xorb_comm (negative (sample_at B n w _ _))).
    exact H.
Qed.

Lemma mul_comm_jam_claim dbg t x y : valid t x -> valid t y ->
  mul_assign (impl dbg t) x y = mul_assign (impl dbg t) y x.
Proof.
  intros Hx Hy. destruct (mul_jam_claim dbg t x y Hx Hy) as [A1 A2].
  destruct (mul_jam_claim dbg t y x Hy Hx) as [C1 C2].
  destruct (jam_check t x y) eqn:E.
  - apply jam_computed in E; auto. rewrite A1 by assumption. rewrite C1 by (apply jam_comm, E). reflexivity.
  - assert (N : ~ jam_product t x y) by (intros H; apply jam_computed in H; auto; congruence).
    destruct (A2 N) as (r & E1 & (V1 & N1) & R1).
    destruct C2 as (r' & E2 & (V2 & N2) & R2); [intros H; apply N, jam_comm, H|].
    rewrite E1, E2. f_equal. apply (normal_inj (radix t)); auto using radix_gt.
    unfold num in *. lia.
Qed.

Lemma square_is_mul_jam_claim dbg t x : valid t x -> (length x <= 1131)%nat ->
  square (impl dbg t) x = mul_assign (impl dbg t) x x.
Proof.
  intros Hx HL. destruct (mul_jam_claim dbg t x x Hx Hx) as [A1 A2].
  destruct (square_jam_claim dbg t x Hx HL) as [C1 C2].
  destruct (jam_check t x x) eqn:E.
  - apply jam_computed in E; auto. rewrite A1, C1 by assumption. reflexivity.
  - assert (N : ~ jam_product t x x) by (intros H; apply jam_computed in H; auto; congruence).
    destruct (A2 N) as (r & E1 & (V1 & N1) & R1).
    destruct (C2 N) as (r' & E2 & (V2 & N2) & R2).
    rewrite E1, E2. f_equal. apply (normal_inj (radix t)); auto using radix_gt.
    unfold num in *. lia.
Qed.

(** no product stops in the debug build only, or for one digit type of the same radix only *)
Lemma mul_panic_only_claim dbg t x y w : valid t x -> valid t y ->
  mul_assign (impl dbg t) x y = Panic w -> w = PUnwrap Underflow /\ jam_product t x y.
Proof.
  intros Hx Hy E. destruct (mul_jam_claim dbg t x y Hx Hy) as [A1 A2].
  destruct (jam_check t x y) eqn:C.
  - apply jam_computed in C; auto. rewrite A1 in E by assumption. split; congruence.
  - destruct A2 as (r & E1 & _); [intros H; apply jam_computed in H; auto; congruence|]. congruence.
Qed.
Lemma mul_build_claim t x y : valid t x -> valid t y ->
  mul_assign (impl true t) x y = mul_assign (impl false t) x y.
Proof.
  intros Hx Hy. destruct (mul_jam_claim true t x y Hx Hy) as [A1 A2].
  destruct (mul_jam_claim false t x y Hx Hy) as [C1 C2].
  destruct (jam_check t x y) eqn:E.
  - apply jam_computed in E; [|exact Hx|exact Hy]. exact (eq_trans (A1 E) (eq_sym (C1 E))).
  - assert (N : ~ jam_product t x y) by (intros H; apply jam_computed in H; [rewrite H in E; discriminate E|exact Hx|exact Hy]).
    destruct (A2 N) as (r & E1 & (V1 & N1) & R1).
    destruct (C2 N) as (r' & E2 & (V2 & N2) & R2).
    assert (r = r') as Er by (apply (normal_inj (radix t)); auto using radix_gt; unfold num in *; lia).
    exact (eq_trans E1 (eq_trans (f_equal Ret Er) (eq_sym E2))).
Qed.

Lemma mul_either_claim dbg t x y : valid t x -> valid t y ->
  (exists r, mul_assign (impl dbg t) x y = Ret r /\ well_formed t r /\ num t r = num t x * num t y)
  \/ mul_assign (impl dbg t) x y = Panic (PUnwrap Underflow).
Proof.
  intros Vx Vy. destruct (mul_jam_claim dbg t x y Vx Vy) as [H1 H2]. pose proof (jam_computed t x y Vx Vy) as C.
  destruct (jam_check t x y); [right; apply H1, C; reflexivity|left; apply H2].
  intros H. apply C in H. discriminate H.
Qed.
