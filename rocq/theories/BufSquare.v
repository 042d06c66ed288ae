(** * BufSquare: squaring with a cleared output, for C39. *)
From Coq Require Import ZArith List Bool Lia.
From Verif Require Import Base Digit Slice Mul Div UBig Spec SpecWork WorkSize SpecMul SpecToom Hoare DigitOK ListLemmas
  KaratsubaProof ToomJam ToomSquare TypedProof ClaimsBasic ClaimsToom Cases Witness WorkExact.
Import ListNotations.
Open Scope Z_scope.

Lemma square_work_jam dbg t x prod work : valid t x -> valid t prod -> valid t work ->
  (2 * length x <= length prod)%nat -> (need (length x) (length x) <= length work)%nat ->
  num t prod = 0 -> (length x <= 378 \/ (length x <= 1131 /\ num t work = 0%Z))%nat ->
  (jam_product t x x -> square_with_work dbg t x prod work = Panic (PUnwrap Underflow))
  /\ (~ jam_product t x x -> exists r, square_with_work dbg t x prod work = Ret r
        /\ well_formed t r /\ num t r = num t x * num t x).
Proof.
  intros Hx Hp Hw HL HW Z0 Hn. unfold square_with_work.
  assert (H : spec (ToomJam.halt (radix t) x x) (square_fuel (impl dbg t) (S (length x)) x prod work)
    (fun r => mpost (radix t) x x prod work r /\ ~ ToomJam.jams (radix t) x x)).
  { apply (square_fuel_jam _ _ (impl_ok dbg t)); auto. right. split; [exact Z0|exact Hn]. }
  destruct (spec_exact _ _ _ _ H) as [H1 H2]; [intros a [_ Hf]; exact Hf|].
  split; [intros Hs; rewrite (H1 Hs); reflexivity|].
  intros Hs. destruct (H2 Hs) as ([[pr wk] n] & E & (L & Dp & _ & _ & _ & _ & V & N & _) & _).
  rewrite E. exists (firstn n pr). repeat split; auto. apply below_firstn, Dp.
Qed.

Lemma square_clean_claim dbg t x out work out' work' : valid t x ->
  valid t out -> valid t work -> valid t out' -> valid t work' ->
  num t out = 0 -> num t out' = 0 ->
  (length x <= 378 \/ (length x <= 1131 /\ num t work = 0%Z /\ num t work' = 0%Z))%nat ->
  (2 * length x <= length out)%nat -> (2 * length x <= length out')%nat ->
  (need (length x) (length x) <= length work)%nat -> (need (length x) (length x) <= length work')%nat ->
  square_with_work dbg t x out work = square_with_work dbg t x out' work'.
Proof.
  intros Hx H1 H2 H3 H4 Z1 Z2 Hn L1 L2 L3 L4.
  destruct (square_work_jam dbg t x out work) as [A1 A2]; auto; [tauto|].
  destruct (square_work_jam dbg t x out' work') as [B1 B2]; auto; [tauto|].
  apply (same_outcome t (jam_product t x x) (num t x * num t x)); auto.
  destruct (jam_check t x x) eqn:E; [left; apply jam_computed; auto|right].
  intros K. apply jam_computed in K; auto. congruence.
Qed.

(** 379 digits whose value at 1 is like [toom_dirty]. *)
Definition scratch_dirty : list Z := repeat 255 127
  ++ [2] ++ repeat 1 41 ++ [0] ++ repeat 255 43 ++ repeat 1 38 ++ [0; 1; 1]
  ++ zeros 124 ++ [1].
Definition swayed (x out work work' : list Z) : bool :=
  match square_with_work true B8 x out work, square_with_work true B8 x out work' with
  | Ret r, Ret r' => negb (num B8 r =? num B8 r')
  | _, _ => false
  end.
Lemma swayed_ok x out work work' : swayed x out work work' = true ->
  exists r r', square_with_work true B8 x out work = Ret r
    /\ square_with_work true B8 x out work' = Ret r' /\ num B8 r <> num B8 r'.
Proof.
  unfold swayed. destruct (square_with_work true B8 x out work) as [r| |]; try discriminate.
  destruct (square_with_work true B8 x out work') as [r'| |]; try discriminate.
  intros H. exists r, r'. repeat split; auto. apply negb_true_iff, Z.eqb_neq in H. exact H.
Qed.
