(** * TwoTypes: when the same product comes about in two number types. *)
From Coq Require Import ZArith List Bool.
From Verif Require Import Base Digit UBig Spec SpecToom PowExact.
Open Scope Z_scope.

Lemma mul_returns dbg t x y : well_formed t x -> well_formed t y ->
  (exists r, mul_assign (impl dbg t) x y = Ret r) <-> ~ jam_at (radix t) (num t x) (num t y).
Proof.
  intros Wx Wy. destruct (mul_outcome dbg t x y Wx Wy) as [[J E]|[J (r & E & _)]].
  - split; [intros [r E1]; rewrite E in E1; discriminate E1|intros H; contradiction].
  - split; [intros _; exact J|intros _; exists r; exact E].
Qed.

Lemma two_mul_exact dbg t t' x y x' y' :
  well_formed t x -> well_formed t y -> well_formed t' x' -> well_formed t' y' ->
  num t x = num t' x' -> num t y = num t' y' ->
  (((exists r, mul_assign (impl dbg t) x y = Ret r) <-> (exists r, mul_assign (impl dbg t') x' y' = Ret r))
   <-> (jam_at (radix t) (num t x) (num t y) <-> jam_at (radix t') (num t x) (num t y))).
Proof.
  intros Wx Wy Wx' Wy' Ex Ey.
  pose proof (mul_returns dbg t x y Wx Wy) as H. pose proof (mul_returns dbg t' x' y' Wx' Wy') as H'.
  rewrite <- Ex, <- Ey in H'.
  assert (D : jam_at (radix t) (num t x) (num t y) \/ ~ jam_at (radix t) (num t x) (num t y)).
  { destruct (mul_outcome dbg t x y Wx Wy) as [[J _]|[J _]]; auto. }
  assert (D' : jam_at (radix t') (num t x) (num t y) \/ ~ jam_at (radix t') (num t x) (num t y)).
  { rewrite Ex, Ey. destruct (mul_outcome dbg t' x' y' Wx' Wy') as [[J _]|[J _]]; auto. }
  tauto.
Qed.
