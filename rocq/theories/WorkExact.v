(** * WorkExact: the outcome of a product does not depend on the buffers. *)
From Coq Require Import ZArith List Bool Lia.
From Verif Require Import Base Digit Slice Mul Div UBig Spec SpecMul SpecWork Hoare DigitOK ListLemmas SliceProof
  MulProof BufProof WorkSize KaratsubaProof MulTopProof TypedProof KaraExact Cases ClaimsBasic ClaimsMul ClaimsKara
  Witness.
Import ListNotations.
Open Scope Z_scope.
Open Scope m_scope.

Lemma work_exact dbg t x y prod work : valid t x -> valid t y -> valid t prod -> valid t work ->
  (Nat.min (length x) (length y) < 128)%nat -> (length x + length y <= length prod)%nat ->
  (need (length x) (length y) <= length work)%nat ->
  let e := mul_big_into_with_work (impl dbg t) x y prod work in
  (stuck_product t x y -> e = Panic (PUnwrap Underflow))
  /\ (~ stuck_product t x y -> exists r, product_of e = Ret r /\ well_formed t r /\ num t r = num t x * num t y).
Proof.
  intros Hx Hy Hp Hw Hm HL HW e. unfold e, mul_big_into_with_work.
  assert (H : spec (stops (radix t) x y) (mul_fuel (impl dbg t) (S (Nat.max (length x) (length y))) x y prod work)
    (fun r => mpost (radix t) x y prod work r /\ ~ halts (radix t) x y)).
  { apply (mul_fuel_exact _ _ (impl_ok dbg t)); auto. }
  destruct (spec_exact _ _ _ _ H) as [H1 H2]; [intros a [_ Hf]; exact Hf|].
  split; [exact H1|]. intros Hn. destruct (H2 Hn) as ([[pr wk] n] & E & (L & Dp & _ & _ & _ & _ & V & N & _) & _).
  rewrite E. exists (firstn n pr). repeat split; auto. apply below_firstn, Dp.
Qed.

Lemma square_work_exact dbg t x prod work : valid t x -> valid t prod -> valid t work ->
  (length x < 128)%nat -> (2 * length x <= length prod)%nat ->
  (need (length x) (length x) <= length work)%nat ->
  let e := square_with_work dbg t x prod work in
  (stuck_product t x x -> e = Panic (PUnwrap Underflow))
  /\ (~ stuck_product t x x -> exists r, e = Ret r /\ well_formed t r /\ num t r = num t x * num t x).
Proof.
  intros Hx Hp Hw Hm HL HW e. unfold e, square_with_work.
  assert (H : spec (stops (radix t) x x) (square_fuel (impl dbg t) (S (length x)) x prod work)
    (fun r => mpost (radix t) x x prod work r /\ ~ halts (radix t) x x)).
  { apply (square_fuel_exact _ _ (impl_ok dbg t)); auto. }
  destruct (spec_exact _ _ _ _ H) as [H1 H2]; [intros a [_ Hf]; exact Hf|].
  split; [intros Hs; rewrite (H1 Hs); reflexivity|].
  intros Hn. destruct (H2 Hn) as ([[pr wk] n] & E & (L & Dp & _ & _ & _ & _ & V & N & _) & _).
  rewrite E. exists (firstn n pr). repeat split; auto. apply below_firstn, Dp.
Qed.

Lemma same_outcome t (S : Prop) (v : Z) (e e' : M digits) :
  (S \/ ~ S) ->
  (S -> e = Panic (PUnwrap Underflow)) -> (~ S -> exists r, e = Ret r /\ well_formed t r /\ num t r = v) ->
  (S -> e' = Panic (PUnwrap Underflow)) -> (~ S -> exists r, e' = Ret r /\ well_formed t r /\ num t r = v) ->
  e = e'.
Proof.
  intros [Hs|Hs] A1 A2 B1 B2; [rewrite A1, B1 by assumption; reflexivity|].
  destruct (A2 Hs) as (r & -> & W & V), (B2 Hs) as (r' & -> & W' & V').
  f_equal. apply (wf_eq t); auto. congruence.
Qed.
Lemma spec_decides {A} (c : panic) (C : Prop) (e : M A) Q :
  spec (fun w => w = c /\ C) e Q -> (forall a, Q a -> ~ C) -> C \/ ~ C.
Proof. intros H HQ. destruct e as [a|w|]; cbn in H; [right; eauto|left; apply H|contradiction]. Qed.

Lemma mul_outcome_claim dbg t x y out work out' work' : valid t x -> valid t y ->
  valid t out -> valid t work -> valid t out' -> valid t work' ->
  (length x < 128 \/ length y < 128)%nat ->
  (length x + length y <= length out)%nat -> (length x + length y <= length out')%nat ->
  (need (length x) (length y) <= length work)%nat -> (need (length x) (length y) <= length work')%nat ->
  product_of (mul_big_into_with_work (impl dbg t) x y out work)
  = product_of (mul_big_into_with_work (impl dbg t) x y out' work').
Proof.
  intros Hx Hy H1 H2 H3 H4 Hm L1 L2 L3 L4.
  assert (Hm' : (Nat.min (length x) (length y) < 128)%nat) by lia.
  destruct (work_exact dbg t x y out work) as [A1 A2]; auto.
  destruct (work_exact dbg t x y out' work') as [B1 B2]; auto.
  apply (same_outcome t (stuck_product t x y) (num t x * num t y)); auto.
  - eapply spec_decides; [apply (mul_fuel_exact _ _ (impl_ok dbg t) (S (Nat.max (length x) (length y))) x y out work); auto|].
    intros a [_ Hf]. exact Hf.
  - intros Hs. rewrite (A1 Hs). reflexivity.
  - intros Hs. rewrite (B1 Hs). reflexivity.
Qed.

Lemma square_outcome_claim dbg t x out work out' work' : valid t x ->
  valid t out -> valid t work -> valid t out' -> valid t work' -> (length x < 128)%nat ->
  (2 * length x <= length out)%nat -> (2 * length x <= length out')%nat ->
  (need (length x) (length x) <= length work)%nat -> (need (length x) (length x) <= length work')%nat ->
  square_with_work dbg t x out work = square_with_work dbg t x out' work'.
Proof.
  intros Hx H1 H2 H3 H4 Hm L1 L2 L3 L4.
  destruct (square_work_exact dbg t x out work) as [A1 A2]; auto.
  destruct (square_work_exact dbg t x out' work') as [B1 B2]; auto.
  apply (same_outcome t (stuck_product t x x) (num t x * num t x)); auto.
  eapply spec_decides; [apply (square_fuel_exact _ _ (impl_ok dbg t) (S (length x)) x out work); auto|].
  intros a [_ Hf]. exact Hf.
Qed.

(** ** Any size: runs with different scratch contents go the same way *)
Definition wsame (e e' : M ((digits * digits) * nat)) : Prop :=
  match e, e' with
  | Ret (pr, wk, n), Ret (pr', wk', n') => pr = pr' /\ n = n' /\ length wk = length wk'
  | Panic a, Panic b => a = b
  | NoFuel, NoFuel => True
  | _, _ => False
  end.

Lemma wsame_refl e : wsame e e.
Proof. destruct e as [[[pr wk] n]| |]; cbn; auto. Qed.
Lemma wsame_bind e e' (k k' : (digits * digits) * nat -> M ((digits * digits) * nat)) : wsame e e' ->
  (forall pr wk wk' n, length wk = length wk' -> wsame (k (pr, wk, n)) (k' (pr, wk', n))) ->
  wsame (bind e k) (bind e' k').
Proof.
  destruct e as [[[pr wk] n]| |], e' as [[[pr' wk'] n']| |]; cbn; try contradiction; auto.
  intros (-> & -> & H) Hk. apply Hk, H.
Qed.
Lemma wsame_step {A} (e : M A) (k k' : A -> M ((digits * digits) * nat)) :
  (forall a, wsame (k a) (k' a)) -> wsame (bind e k) (bind e k').
Proof. destruct e; cbn; auto. Qed.
Lemma wsame_split w w' m (k k' : digits * digits -> M ((digits * digits) * nat)) : length w = length w' ->
  (forall a a' b b', length a = length a' -> length b = length b' -> wsame (k (a, b)) (k' (a', b'))) ->
  wsame (bind (split_at w m) k) (bind (split_at w' m) k').
Proof.
  intros E Hk. unfold split_at. rewrite <- E. destruct (m <=? length w)%nat; cbn [bind]; [|reflexivity].
  apply Hk; rewrite ?firstn_length, ?skipn_length; congruence.
Qed.

Section Same.
Variable D : digit.
Definition rec_same (rec : mul_fn) : Prop := forall x y prod work work',
  length work = length work' -> wsame (rec x y prod work) (rec x y prod work').


Ltac wsame_step_tac Hr := cbv beta iota;
  lazymatch goal with
  | |- wsame (if ?b then _ else _) _ => destruct b
  | |- wsame (let '(a, b) := ?x in _) _ => destruct x
  | |- wsame (match ?x with _ => _ end) _ => destruct x
  | |- wsame (bind (split_at ?w _) _) (bind (split_at ?w' _) _) =>
      first [ constr_eq w w'; apply wsame_step; intro
            | apply wsame_split; [assumption|intros ? ? ? ? ? ?] ]
  | |- wsame (bind ?e _) (bind ?e _) => apply wsame_step; intro
  | |- wsame (bind _ _) (bind _ _) =>
      eapply wsame_bind; [apply Hr; assumption|intros ? ? ? ? ?]
  | |- wsame (Ret _) (Ret _) => cbn [wsame]; rewrite ?app_length; repeat split; congruence
  end.

Lemma kara_same rec x y prod work work' : rec_same rec -> length work = length work' ->
  wsame (mul_big_karatsuba_into D rec x y prod work) (mul_big_karatsuba_into D rec x y prod work').
Proof.
  intros Hr HL. unfold mul_big_karatsuba_into. cbv zeta. rewrite <- HL.
  repeat (wsame_step_tac Hr; repeat match goal with
    H : length ?a = length ?b |- context [zeros (length ?b)] => rewrite <- H end).
Qed.

Lemma toom_same rec x y prod work work' : rec_same rec -> length work = length work' ->
  wsame (mul_big_toom3_into D rec x y prod work) (mul_big_toom3_into D rec x y prod work').
Proof.
  intros Hr HL. unfold mul_big_toom3_into. cbv zeta. rewrite <- HL.
  repeat (wsame_step_tac Hr; repeat match goal with
    H : length ?a = length ?b |- context [zeros (length ?b)] => rewrite <- H end).
Qed.

Lemma mul_fuel_same f : rec_same (mul_fuel D f).
Proof.
  induction f as [|f IH]; intros x y prod work work' HL; cbn [mul_fuel]; [exact I|].
  unfold mul_dispatch. cbv zeta. destruct (_ || _); [cbn; auto|]. apply wsame_step; intros _.
  destruct (_ && _); [apply toom_same; auto|]. destruct (_ && _); [apply kara_same; auto|].
  apply wsame_step. intros [pr n]. cbn. auto.
Qed.

Lemma toom_zero rec x y prod prod' work : length prod = length prod' ->
  mul_big_toom3_into D rec x y prod work = mul_big_toom3_into D rec x y prod' work.
Proof. intros E. unfold mul_big_toom3_into. rewrite E. reflexivity. Qed.

Lemma mul_big_same x y out out' work work' : (128 <= length x)%nat -> (128 <= length y)%nat ->
  length out = length out' -> length work = length work' ->
  wsame (mul_big_into_with_work D x y out work) (mul_big_into_with_work D x y out' work').
Proof.
  intros H0 H1 Ho Hw. unfold mul_big_into_with_work. cbn [mul_fuel]. unfold mul_dispatch. cbv zeta.
  unfold TOOM3_CUTOFF. rewrite (proj2 (Nat.leb_le 128 (length x)) H0), (proj2 (Nat.leb_le 128 (length y)) H1), <- Ho.
  cbn [andb].
  destruct (_ || _) eqn:E; [exfalso; apply orb_true_iff in E; rewrite !Nat.eqb_eq in E; lia|].
  apply wsame_step; intros _. rewrite (toom_zero _ x y out out' work) by exact Ho.
  apply toom_same; [apply mul_fuel_same|exact Hw].
Qed.
End Same.

Lemma wsame_product e e' : wsame e e' -> product_of e = product_of e'.
Proof.
  destruct e as [[[pr wk] n]| |], e' as [[[pr' wk'] n']| |]; cbn; try contradiction; auto.
  - intros (-> & -> & _). reflexivity.
  - congruence.
Qed.

Lemma mul_outcome_all dbg t x y out work out' work' : valid t x -> valid t y ->
  valid t out -> valid t work -> valid t out' -> valid t work' ->
  (length x + length y <= length out)%nat -> length out' = length out ->
  (need (length x) (length y) <= length work)%nat -> length work' = length work ->
  product_of (mul_big_into_with_work (impl dbg t) x y out work)
  = product_of (mul_big_into_with_work (impl dbg t) x y out' work').
Proof.
  intros Hx Hy H1 H2 H3 H4 L1 L2 L3 L4.
  destruct (Nat.lt_ge_cases (length x) 128) as [C|C]; [apply mul_outcome_claim; auto; lia|].
  destruct (Nat.lt_ge_cases (length y) 128) as [C'|C']; [apply mul_outcome_claim; auto; lia|].
  apply wsame_product, mul_big_same; auto.
Qed.

(** The scratch space alone: nothing of its contents reaches the output
    buffer, whatever the operands and buffers are. *)
Lemma scratch_same dbg t x y out work work' : length work' = length work ->
  let run w := mul_big_into_with_work (impl dbg t) x y out w in
  product_of (run work) = product_of (run work')
  /\ forall pr wk n, run work = Ret (pr, wk, n) -> exists wk', run work' = Ret (pr, wk', n) /\ length wk' = length wk.
Proof.
  intros E run. pose proof (mul_fuel_same (impl dbg t) (S (Nat.max (length x) (length y))) x y out work work' (eq_sym E)) as H.
  fold (mul_big_into_with_work (impl dbg t) x y out work) in H. fold (run work) in H.
  fold (mul_big_into_with_work (impl dbg t) x y out work') in H. fold (run work') in H.
  split; [apply wsame_product, H|]. intros pr wk n Er. rewrite Er in H.
  destruct (run work') as [[[pr' wk'] n']| |]; cbn in H; try contradiction. destruct H as (<- & <- & L).
  exists wk'. auto.
Qed.
