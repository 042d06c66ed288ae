(** * Depth: cutting a recursion off at a depth it does not exceed changes nothing. *)
From Coq Require Import ZArith List Bool Lia.
From Verif Require Import Base Digit Slice Mul Div UBig Ends.
Import ListNotations.
Open Scope Z_scope.
Open Scope m_scope.

(** [e'] is what [e] computes, unless [e] was cut off *)
Definition upto {A} (e e' : M A) : Prop := e = NoFuel \/ e = e'.

Lemma upto_refl {A} (e : M A) : upto e e.
Proof. right. reflexivity. Qed.
Lemma upto_bind {A C} (e e' : M A) (k k' : A -> M C) :
  upto e e' -> (forall a, upto (k a) (k' a)) -> upto (bind e k) (bind e' k').
Proof.
  intros [->|<-] H; [left; reflexivity|]. destruct e as [a|w|]; cbn [bind]; [apply H|right; reflexivity|left; reflexivity].
Qed.
Lemma upto_ends {A} (e e' : M A) : upto e e' -> ends e -> e = e'.
Proof. intros [H|H] He; [contradiction|exact H]. Qed.

Ltac up H := cbv zeta; repeat (cbv beta iota;
  match goal with
  | |- upto ?e ?e => exact (upto_refl e)
  | |- upto (bind _ _) _ => apply upto_bind; [|intros ?]
  | |- upto (match ?x with _ => _ end) _ => destruct x
  | _ => apply H
  end).

Section Depth.
Variable D : digit.

Lemma upto_mul_dispatch rec rec' l m r w : (forall a b x y, upto (rec a b x y) (rec' a b x y)) ->
  upto (mul_dispatch D rec l m r w) (mul_dispatch D rec' l m r w).
Proof. intros H. unfold mul_dispatch, mul_big_toom3_into, mul_big_karatsuba_into. up H. Qed.
Lemma upto_square_dispatch rec rec' l r w : (forall a x y, upto (rec a x y) (rec' a x y)) ->
  upto (square_dispatch D rec l r w) (square_dispatch D rec' l r w).
Proof. intros H. unfold square_dispatch, square_toom3_into, square_karatsuba_into. up H. Qed.
Lemma upto_bz_step rec rec' a b c d : (forall x y z w, upto (rec x y z w) (rec' x y z w)) ->
  upto (div_big_bz_2n_n_step D rec a b c d) (div_big_bz_2n_n_step D rec' a b c d).
Proof. intros H. unfold div_big_bz_2n_n_step, div_big_bz_3n_2n. up H. Qed.

Lemma upto_mul_fuel f g l m r w : (f <= g)%nat -> upto (mul_fuel D f l m r w) (mul_fuel D g l m r w).
Proof.
  revert g l m r w. induction f as [|f IH]; intros g l m r w H; [left; reflexivity|].
  destruct g as [|g]; [lia|]. cbn [mul_fuel]. apply upto_mul_dispatch. intros. apply IH. lia.
Qed.
Lemma upto_square_fuel f g l r w : (f <= g)%nat -> upto (square_fuel D f l r w) (square_fuel D g l r w).
Proof.
  revert g l r w. induction f as [|f IH]; intros g l r w H; [left; reflexivity|].
  destruct g as [|g]; [lia|]. cbn [square_fuel]. apply upto_square_dispatch. intros. apply IH. lia.
Qed.
Lemma upto_bz_fuel f g a b c d : (f <= g)%nat -> upto (bz_fuel D f a b c d) (bz_fuel D g a b c d).
Proof.
  revert g a b c d. induction f as [|f IH]; intros g a b c d H; [left; reflexivity|].
  destruct g as [|g]; [lia|]. cbn [bz_fuel]. apply upto_bz_step. intros. apply IH. lia.
Qed.
End Depth.

Lemma log_nat n k : Z.of_nat n <= 19 * 2 ^ Z.of_nat k -> (n <= 19 * 2 ^ k)%nat.
Proof.
  intros H. apply Nat2Z.inj_le. rewrite Nat2Z.inj_mul, Nat2Z.inj_pow. exact H.
Qed.

Section Claims.
Variables (dbg : bool) (t : dty).
Notation D := (impl dbg t).

Lemma mul_depth_claim k l m r w g : Z.of_nat (Nat.max (length l) (length m)) <= 19 * 2 ^ Z.of_nat k -> (k < g)%nat ->
  mul_fuel D (S k) l m r w <> NoFuel /\ mul_fuel D g l m r w = mul_fuel D (S k) l m r w.
Proof.
  intros H Hg. pose proof (ends_mul_fuel_log D (impl_ends dbg t) k l m r w (log_nat _ _ H)) as E.
  split; [exact E|]. symmetry. apply upto_ends; [apply upto_mul_fuel; lia|exact E].
Qed.
Lemma square_depth_claim k l r w g : Z.of_nat (length l) <= 19 * 2 ^ Z.of_nat k -> (k < g)%nat ->
  square_fuel D (S k) l r w <> NoFuel /\ square_fuel D g l r w = square_fuel D (S k) l r w.
Proof.
  intros H Hg. pose proof (ends_square_fuel_log D (impl_ends dbg t) k l r w (log_nat _ _ H)) as E.
  split; [exact E|]. symmetry. apply upto_ends; [apply upto_square_fuel; lia|exact E].
Qed.
Lemma bz_depth_claim k a b c d g : Z.of_nat (length b) <= 19 * 2 ^ Z.of_nat k -> (k < g)%nat ->
  bz_fuel D (S k) a b c d <> NoFuel /\ bz_fuel D g a b c d = bz_fuel D (S k) a b c d.
Proof.
  intros H Hg. pose proof (ends_bz_fuel_log D (impl_ends dbg t) k a b c d (log_nat _ _ H)) as E.
  split; [exact E|]. symmetry. apply upto_ends; [apply upto_bz_fuel; lia|exact E].
Qed.

(** the entry points of the three recursions *)
Lemma mul_work_claim k l m r w : Z.of_nat (Nat.max (length l) (length m)) <= 19 * 2 ^ Z.of_nat k ->
  mul_big_into_with_work D l m r w = mul_fuel D (S k) l m r w.
Proof.
  intros H. unfold mul_big_into_with_work. set (n := S (Nat.max (length l) (length m))).
  assert (En : ends (mul_fuel D n l m r w)) by (apply ends_mul_fuel; [apply impl_ends|unfold n; lia]).
  destruct (Nat.le_ge_cases n (S k)) as [Hn|Hn].
  - apply upto_ends; [apply upto_mul_fuel; exact Hn|exact En].
  - apply mul_depth_claim; [exact H|exact Hn].
Qed.
Lemma bz_2n_n_claim k a b c d : Z.of_nat (length b) <= 19 * 2 ^ Z.of_nat k ->
  div_big_bz_2n_n D a b c d = bz_fuel D (S k) a b c d.
Proof.
  intros H. unfold div_big_bz_2n_n. set (n := S (length b)).
  assert (En : ends (bz_fuel D n a b c d)) by (apply ends_bz_fuel; [apply impl_ends|unfold n; lia]).
  destruct (Nat.le_ge_cases n (S k)) as [Hn|Hn].
  - apply upto_ends; [apply upto_bz_fuel; exact Hn|exact En].
  - apply bz_depth_claim; [exact H|exact Hn].
Qed.
End Claims.
