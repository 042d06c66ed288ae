(** * Property C75: calculating with texts. *)
From Coq Require Import ZArith String List Bool.
From Verif Require Import Base Digit Slice UBig Text Calc Spec SpecCalc SpecOrder Cases CalcProof.
Import ListNotations.
Open Scope Z_scope.

(** Reading two numerals, adding and printing gives the text of the sum. *)
Theorem C75_add : forall dbg t a b v w, literal a v -> literal b w ->
  exists s, calculate dbg t (add_assign (impl dbg t)) a b = Ret (ROk s) /\ canonical (is_binary t) s (v + w).
Proof. exact calc_add_claim. Qed.
Print Assumptions C75_add.
(** A difference is right, possibly with superfluous zeros; a negative one panics. *)
Theorem C75_sub : forall dbg t a b v w, literal a v -> literal b w ->
  (w <= v -> exists s, calculate dbg t (sub_assign (impl dbg t)) a b = Ret (ROk s) /\ literal s (v - w))
  /\ (v < w -> calculate dbg t (sub_assign (impl dbg t)) a b = Panic (PExplicit Underflow)).
Proof. exact calc_sub_claim. Qed.
Print Assumptions C75_sub.
(** "10000" - "9998" is "002". *)
Theorem C75_sub_refuted : exists a b s, literal a 10000 /\ literal b 9998
  /\ calculate true D8 (sub_assign (impl true D8)) a b = Ret (ROk s) /\ ~ minimal s.
Proof.
  exists [49; 48; 48; 48; 48], [57; 57; 57; 56], [48; 48; 50].
  split; [left; numeral_fact|]. split; [left; numeral_fact|]. split; [vm_compute; reflexivity|].
  intros [H|H]; [discriminate H|apply H; reflexivity].
Qed.
Print Assumptions C75_sub_refuted.
(** A product is right, or both factors have at least 20 digits, one more than 40, and
    the multiplication panics. *)
Theorem C75_mul : forall dbg t a b v w, literal a v -> literal b w ->
  (exists s, calculate dbg t (mul_assign (impl dbg t)) a b = Ret (ROk s) /\ canonical (is_binary t) s (v * w))
  \/ (calculate dbg t (mul_assign (impl dbg t)) a b = Panic (PUnwrap Underflow)
      /\ radix t ^ 19 <= v /\ radix t ^ 19 <= w /\ radix t ^ 40 <= Z.max v w).
Proof. exact calc_mul_claim. Qed.
Print Assumptions C75_mul.
(** Quotient and remainder by zero panic, by one digit they are right. *)
Theorem C75_div : forall dbg t a b v w, literal a v -> literal b w ->
  (w = 0 -> calculate dbg t (div_assign (impl dbg t)) a b = Panic (PExplicit DivisionByZero)
     /\ calculate dbg t (rem_assign (impl dbg t)) a b = Panic (PExplicit DivisionByZero))
  /\ (0 < w < radix t -> exists p q, calculate dbg t (div_assign (impl dbg t)) a b = Ret (ROk p)
     /\ calculate dbg t (rem_assign (impl dbg t)) a b = Ret (ROk q)
     /\ canonical (is_binary t) p (v / w) /\ canonical (is_binary t) q (v mod w)).
Proof. exact calc_div_claim. Qed.
Print Assumptions C75_div.
(** These texts can be read again, and there is only one for each integer. *)
Theorem C75_canonical : forall h s v, canonical h s v -> literal s v /\ forall s', canonical h s' v -> s = s'.
Proof. exact canonical_claim. Qed.
Print Assumptions C75_canonical.
(** Other texts are refused (up to the exceptions of C25), the first operand first. *)
Theorem C75_error : forall dbg t op a b, no_literal a \/ (exists v, literal a v) /\ no_literal b ->
  calculate dbg t op a b = Ret (RErr InvalidNumber).
Proof. exact calc_error_claim. Qed.
Print Assumptions C75_error.
(** Two numerals, however written, compare like the integers. *)
Theorem C75_compare : forall dbg t a b v w, literal a v -> literal b w -> exists x y,
  from_str dbg t a = Ret (ROk x) /\ from_str dbg t b = Ret (ROk y)
  /\ ubig_cmp x y = (v ?= w) /\ ubig_eqb x y = (v =? w).
Proof. exact calc_compare_claim. Qed.
Print Assumptions C75_compare.
Example C75_case :
  let a := text_of "0x0F423F" in let b := text_of "017" in
  literal a 999999 /\ literal b 17
  /\ calculate true D8 (add_assign (impl true D8)) a b = Ret (ROk (text_of "1000016"))
  /\ calculate true B8 (add_assign (impl true B8)) a b = Ret (ROk (text_of "0xf4250"))
  /\ calculate true D32 (mul_assign (impl true D32)) a b = Ret (ROk (text_of "16999983"))
  /\ calculate false B16 (div_assign (impl false B16)) a b = Ret (ROk (text_of "0xe5c7"))
  /\ calculate false D64 (rem_assign (impl false D64)) a b = Ret (ROk (text_of "8"))
  /\ canonical false (text_of "1000016") 1000016.
Proof.
  split; [right; exists (text_of "0F423F"); split; [reflexivity|numeral_fact]|]. split; [left; numeral_fact|].
  repeat match goal with |- calculate _ _ _ _ _ = _ /\ _ => split; [vm_compute; reflexivity|] end. numeral_fact.
Qed.
Example C75_error_case : no_literal (text_of "12z")
  /\ calculate true D8 (add_assign (impl true D8)) (text_of "12z") (text_of "1") = Ret (RErr InvalidNumber).
Proof.
  split; [|vm_compute; reflexivity]. split; [discriminate|]. split; [discriminate|]. split.
  - cbn. intuition discriminate.
  - intros v [[[_ H] _]|(h & E & _)]; [|discriminate E].
    inversion H as [|c l _ H1]; subst. inversion H1 as [|c l _ H2]; subst. inversion H2 as [|c l C _]; subst.
    destruct C as [[_ [_ C]]|[C _]]; [apply C; reflexivity|discriminate C].
Qed.
