(** * Property C79: sums and products in any order. *)
From Coq Require Import ZArith String List Bool Permutation.
From Verif Require Import Base Digit Slice UBig Text Calc Spec SpecMul SpecToom SpecHist SpecCount SpecCalc SpecOrder Cases Witness CalcProof
  ExprProof TallyProof SumProof.
From Verif Require Import Expr SpecExpr SpecTally SpecSum.
Import ListNotations.
Open Scope Z_scope.

(** Neither the order of the terms of a sum nor the brackets show, not even in leading
    zeros. *)
Theorem C79_sum : forall dbg t e e' x, Permutation (terms e) (terms e') -> known t (terms e) ->
  (evaluate dbg t e = Ret (ROk x) <-> evaluate dbg t e' = Ret (ROk x)).
Proof. exact sum_order_claim. Qed.
Print Assumptions C79_sum.
(** The sum has as many digits as the longest term, or as it needs. *)
Theorem C79_sum_value : forall dbg t e cs, worths t (terms e) cs ->
  comes_to t e (Value (sum_cell t cs)) /\ exists x, evaluate dbg t e = Ret (ROk x) /\ fits t x (sum_cell t cs).
Proof. exact sum_value_claim. Qed.
Print Assumptions C79_sum_value.
(** Products of the same factors that do not panic are equal, *)
Theorem C79_product : forall dbg t e e' x y, Permutation (factors e) (factors e') -> known t (factors e) ->
  evaluate dbg t e = Ret (ROk x) -> evaluate dbg t e' = Ret (ROk y) -> x = y.
Proof. exact product_order_claim. Qed.
Print Assumptions C79_product.
(** and right. *)
Theorem C79_product_value : forall dbg t e x, known t (factors e) -> evaluate dbg t e = Ret (ROk x) ->
  exists cs, worths t (factors e) cs /\ fits t x (product_cell t cs) /\ num t x = product (map worth cs).
Proof. exact product_value_claim. Qed.
Print Assumptions C79_product_value.
(** But the order decides whether they panic: x * x * 0 does and x * 0 * x does not. *)
Theorem C79_product_refuted : exists e e' : expr, Permutation (factors e) (factors e') /\ known B8 (factors e)
  /\ forall dbg, evaluate dbg B8 e = Panic (PUnwrap Underflow) /\ evaluate dbg B8 e' = Ret (ROk []).
Proof.
  set (x := Lit (print B8 kara_bad)).
  exists (Times (Times x x) (Lit [48])), (Times (Times x (Lit [48])) x).
  split; [exact (Permutation_app_head [x] (Permutation_app_comm [x] [Lit [48]]))|].
  split; [|intros [|]; split; vm_compute; reflexivity].
  assert (K : exists o, comes_to B8 x o).
  { eexists (Value _). left. eexists. split; [apply print_literal; fact|reflexivity]. }
  constructor; [exact K|]. constructor; [exact K|]. constructor; [|constructor].
  eexists (Value _). left. eexists. split; [left; numeral_fact|reflexivity].
Qed.
Print Assumptions C79_product_refuted.

(** (99 + 3) + (10000 - 9998) and 3 + ((10000 - 9998) + 99) *)
Definition gap_term : expr := Minus (Lit (text_of "10000")) (Lit (text_of "9998")).
Definition one_order : expr := Plus (Plus (Lit (text_of "99")) (Lit (text_of "3"))) gap_term.
Definition other_order : expr := Plus (Lit (text_of "3")) (Plus gap_term (Lit (text_of "99"))).
Example C79_sum_case : Permutation (terms one_order) (terms other_order) /\ known D8 (terms one_order)
  /\ evaluate true D8 one_order = Ret (ROk [4; 1]) /\ evaluate true D8 other_order = Ret (ROk [4; 1])
  /\ evaluate true D8 (Plus (Lit (text_of "3")) gap_term) = Ret (ROk [5; 0])
  /\ sum_cell D8 [Cell 1 3; Cell 2 2] = Cell 2 5.
Proof.
  split; [|split; [|repeat split; vm_compute; reflexivity]].
  - exact (Permutation_app_comm [Lit (text_of "99")] [Lit (text_of "3"); gap_term]).
  - assert (L : forall s, numeral_of 10 s -> simple D8 (Lit s)) by (intros s N; left; eexists; left; split; [exact N|reflexivity]).
    assert (K : forall e, simple D8 e -> exists o, comes_to D8 e o).
    { intros e H. destruct (either_claim D8 e H) as (o & Ho & _). exists o. exact Ho. }
    constructor; [|constructor; [|constructor; [|constructor]]]; apply K.
    1, 2: apply L; split; [discriminate|chars].
    split; apply L; (split; [discriminate|chars]).
Qed.
(** 7 * 30 * 11 in two orders *)
Example C79_product_case :
  let e := Times (Times (Lit (text_of "7")) (Lit (text_of "30"))) (Lit (text_of "11")) in
  let e' := Times (Lit (text_of "11")) (Times (Lit (text_of "7")) (Lit (text_of "30"))) in
  Permutation (factors e) (factors e') /\ known D8 (factors e)
  /\ evaluate true D8 e = Ret (ROk [10; 23]) /\ evaluate true D8 e' = Ret (ROk [10; 23]).
Proof.
  split; [|split; [|repeat split; vm_compute; reflexivity]].
  - exact (Permutation_app_comm [Lit (text_of "7"); Lit (text_of "30")] [Lit (text_of "11")]).
  - repeat (constructor; [eexists (Value _); left; eexists; split; [left; numeral_fact|reflexivity]|]). constructor.
Qed.
