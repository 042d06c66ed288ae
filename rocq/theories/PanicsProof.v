(** * PanicsProof: which message an operator ends with. *)
From Coq Require Import ZArith String List Bool Lia.
From Verif Require Import Base Digit Slice Mul Div UBig Traits Panics Spec TypedProof SpecMul SpecToom SpecCount ClaimsBasic SubExact ClaimsDiv DivPad ClaimsToom.
Import ListNotations.
Open Scope Z_scope.

Lemma debug_claim e e' : error_debug e = error_debug e' -> e = e'.
Proof. destruct e, e'; intros H; try reflexivity; discriminate H. Qed.
Lemma eqb_claim e e' : error_eqb e e' = true <-> e = e'.
Proof. destruct e, e'; split; intros H; try reflexivity; discriminate H. Qed.

(** the cause is read off the text *)
Definition known : list (family * panic) :=
  flat_map (fun e => [(Another, PUnwrap e); (Subtraction, PExplicit e); (Division, PExplicit e); (Remainder, PExplicit e)])
    [InvalidNumber; Underflow; DivisionByZero; NoSpace]
  ++ [(Another, PSpace); (Another, PUnimplemented)].
Definition cause (s : string) : option (family * panic) :=
  find (fun k => match message (fst k) (snd k) with Some u => String.eqb u s | None => false end) known.
Definition tag (o : family) (w : panic) : family := match w with PExplicit _ => o | _ => Another end.
Lemma cause_read o w s : message o w = Some s -> cause s = Some (tag o w, w).
Proof.
  intros H. destruct w as [| | | | | | |e|e|]; try discriminate H; try destruct e; try destruct o;
    try discriminate H; injection H as <-; reflexivity.
Qed.
Lemma cause_claim o o' w w' s : message o w = Some s -> message o' w' = Some s ->
  w = w' /\ (forall e, w = PExplicit e -> o = o').
Proof.
  intros H H'. apply cause_read in H, H'. rewrite H in H'. injection H' as E1 E2.
  split; [exact E2|]. intros e E. subst w w'. exact E1.
Qed.

(** ** Operators *)
Lemma sub_said dbg t x y : valid t x -> well_formed t y ->
  (num t x < num t y -> printed Subtraction (sub_assign (impl dbg t) x y) = Some "Failed to subtract: Underflow"%string)
  /\ (num t y <= num t x -> exists r, sub_assign (impl dbg t) x y = Ret r).
Proof.
  intros Vx Wy. destruct (sub_claim dbg t x y Vx Wy) as [H1 H2]. split; intros H.
  - rewrite (H1 H). reflexivity.
  - destruct (H2 H) as (r & E & _). exists r. exact E.
Qed.
Lemma sub_T_said dbg t x n : well_formed t x -> storage t n -> n < radix t ->
  (num t x < n -> printed Subtraction (sub_assign_T dbg t x n) = Some "Failed to subtract: Underflow"%string)
  /\ (n <= num t x -> exists r, sub_assign_T dbg t x n = Ret r).
Proof.
  intros Wx Sn Hn. destruct (sub_T_claim dbg t x n Wx Sn Hn) as [H1 H2]. split; intros H.
  - rewrite (H1 H). reflexivity.
  - destruct (H2 H) as (r & E & _). exists r. exact E.
Qed.
Lemma sub_pair_said dbg t x n : is_binary t = false -> well_formed t x -> storage t n -> radix t <= n ->
  (num t x < n -> x <> [] \/ n mod radix t <> 0 ->
     printed Subtraction (sub_assign_T dbg t x n) = Some "Failed to subtract: Underflow"%string)
  /\ (x = [] -> n mod radix t = 0 -> sub_assign_T dbg t x n = Panic PIndex)
  /\ (n <= num t x -> exists r, sub_assign_T dbg t x n = Ret r).
Proof.
  intros Hb Wx Sn Hn. destruct (sub_pair_explicit_claim dbg t x n Hb Wx Sn Hn) as [H1 H2]. split; [|split].
  - intros H HO. rewrite (H1 H).
    destruct ((Z.of_nat (length x) =? 0) && (n mod radix t =? 0)) eqn:E; [exfalso|reflexivity].
    apply andb_true_iff in E. destruct E as [E1 E2]. apply Z.eqb_eq in E1, E2.
    destruct HO as [HO|HO]; [|auto]. destruct x; [auto|discriminate E1].
  - intros -> E. assert (H : num t [] < n) by (pose proof (radix_gt t); cbn; lia).
    rewrite (H1 H), E. reflexivity.
  - intros H. destruct (H2 H) as (r & E & _). exists r. exact E.
Qed.
Lemma zero_said dbg t x :
  printed Division (div_assign (impl dbg t) x []) = Some "Failed to perform division: Division by zero"%string
  /\ printed Remainder (rem_assign (impl dbg t) x []) = Some "Failed to compute remainder: Division by zero"%string.
Proof. destruct (div_zero_claim dbg t x) as (_ & _ & -> & ->). split; reflexivity. Qed.
Lemma divrem_T_said dbg t x n : valid t x -> storage t n -> n < radix t ->
  (n = 0 -> printed Division (div_assign_T dbg t x n) = Some "Failed to perform division: Division by zero"%string
    /\ printed Remainder (rem_assign_T dbg t x n) = Some "Failed to compute remainder: Division by zero"%string)
  /\ (n <> 0 -> exists q r, div_assign_T dbg t x n = Ret q /\ rem_assign_T dbg t x n = Ret r).
Proof.
  intros Vx Sn Hn. destruct (divrem_T_claim dbg t x n Vx Sn Hn) as [H1 H2]. split; intros H.
  - destruct (H1 H) as [-> ->]. split; reflexivity.
  - destruct (H2 H) as (q & r & E1 & E2 & _). exists q, r. split; assumption.
Qed.
Lemma thin_said dbg t x d : valid t x -> 0 < d < radix t ->
  precedes (length x) (num t x) 2 d = false -> (length x <= places (radix t) (num t x / d))%nat ->
  printed Division (div_assign (impl dbg t) x [d; 0])
    = Some "Failed to perform division: Not enough space to store the result"%string
  /\ printed Remainder (rem_assign (impl dbg t) x [d; 0])
    = Some "Failed to compute remainder: Not enough space to store the result"%string.
Proof.
  intros Vx Hd Hp Hl. destruct (thin_claim dbg t x d Vx ltac:(lia) Hp) as (_ & H & _).
  destruct (H ltac:(lia) Hl) as [-> ->]. split; reflexivity.
Qed.
Lemma mul_said dbg t x y : valid t x -> valid t y ->
  (jam_product t x y -> printed Another (mul_assign (impl dbg t) x y)
     = Some "called `Result::unwrap()` on an `Err` value: Underflow"%string)
  /\ (~ jam_product t x y -> exists r, mul_assign (impl dbg t) x y = Ret r).
Proof.
  intros Vx Vy. destruct (mul_jam_claim dbg t x y Vx Vy) as [H1 H2]. split; intros H.
  - rewrite (H1 H). reflexivity.
  - destruct (H2 H) as (r & E & _). exists r. exact E.
Qed.
Lemma square_said dbg t x : valid t x -> (length x <= 1131)%nat ->
  (jam_product t x x -> printed Another (square (impl dbg t) x)
     = Some "called `Result::unwrap()` on an `Err` value: Underflow"%string)
  /\ (~ jam_product t x x -> exists r, square (impl dbg t) x = Ret r).
Proof.
  intros Vx Hl. destruct (square_jam_claim dbg t x Vx Hl) as [H1 H2]. split; intros H.
  - rewrite (H1 H). reflexivity.
  - destruct (H2 H) as (r & E & _). exists r. exact E.
Qed.
Lemma shr_said dbg t x n : is_binary t = false -> well_formed t x -> 0 <= n ->
  (4 * Z.of_nat (MAX_HEX_PLACES t) < n -> printed Another (shr_assign dbg t x n) = Some "not implemented"%string)
  /\ (n <= 4 * Z.of_nat (MAX_HEX_PLACES t) -> exists r, shr_assign dbg t x n = Ret r).
Proof.
  intros Hb Wx Hn. pose proof (shr_panic_claim dbg t x n Hn) as H1.
  pose proof (shr_claim dbg t x n Wx Hn) as H2. rewrite Hb in H1, H2. split; intros H.
  - rewrite (H1 H). reflexivity.
  - destruct (H2 H) as (r & E & _). exists r. exact E.
Qed.
