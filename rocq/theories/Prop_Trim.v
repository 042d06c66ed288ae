(** * Property C80: expressions that mean the same. *)
From Coq Require Import ZArith String List Bool.
From Verif Require Import Base Digit Slice UBig Text Calc Spec SpecMul SpecToom SpecHist SpecCount SpecCalc SpecOrder Cases CalcProof
  ExprProof TallyProof TrimProof.
From Verif Require Import Expr SpecExpr SpecTally SpecTrim.
Import ListNotations.
Open Scope Z_scope.

(** From the form of an expression: no leading zeros, the right value, the canonical text. *)
Theorem C80_trim : forall dbg t e c, comes_to t e (Value c) -> trim t e -> trim_divisors t e -> exists x s,
  evaluate dbg t e = Ret (ROk x) /\ well_formed t x /\ integer e (num t x)
  /\ compute dbg t e = Ret (ROk s) /\ canonical (is_binary t) s (num t x).
Proof. exact trim_text_claim. Qed.
Print Assumptions C80_trim.
(** The right value also with leading zeros. *)
Theorem C80_value : forall t e c, comes_to t e (Value c) -> trim_divisors t e -> integer e (worth c).
Proof. exact trim_value_claim. Qed.
Print Assumptions C80_value.
(** Two expressions of that form that stand for the same integer return the same digits, *)
Theorem C80_equal : forall dbg dbg' t e e' c c' v, comes_to t e (Value c) -> comes_to t e' (Value c') ->
  trim t e -> trim t e' -> trim_divisors t e -> trim_divisors t e' -> integer e v -> integer e' v ->
  evaluate dbg t e = evaluate dbg' t e'.
Proof. exact equal_claim. Qed.
Print Assumptions C80_equal.
(** and the same text in all binary, or all decimal, types. *)
Theorem C80_text : forall dbg dbg' t t' e e' c c' v, is_binary t = is_binary t' ->
  comes_to t e (Value c) -> comes_to t' e' (Value c') ->
  trim t e -> trim t' e' -> trim_divisors t e -> trim_divisors t' e' -> integer e v -> integer e' v ->
  exists s, compute dbg t e = Ret (ROk s) /\ compute dbg' t' e' = Ret (ROk s) /\ canonical (is_binary t) s v.
Proof. exact equal_text_claim. Qed.
Print Assumptions C80_text.
(** a * (b + d) = a * b + a * d and (a + b)^2 = a^2 + 2 a b + b^2, for all parts, those with
    leading zeros included *)
Theorem C80_distribute : forall dbg dbg' t a b d c c',
  comes_to t (Times a (Plus b d)) (Value c) -> comes_to t (Plus (Times a b) (Times a d)) (Value c') ->
  trim_divisors t a -> trim_divisors t b -> trim_divisors t d ->
  evaluate dbg t (Times a (Plus b d)) = evaluate dbg' t (Plus (Times a b) (Times a d)).
Proof. exact distribute_claim. Qed.
Print Assumptions C80_distribute.
Theorem C80_binomial : forall dbg dbg' t a b c c',
  let e := Power (Plus a b) 2 in
  let e' := Plus (Plus (Power a 2) (Times (Times a b) (Lit [50]))) (Power b 2) in
  comes_to t e (Value c) -> comes_to t e' (Value c') -> trim_divisors t a -> trim_divisors t b ->
  evaluate dbg t e = evaluate dbg' t e'.
Proof. exact binomial_claim. Qed.
Print Assumptions C80_binomial.
(** Differences do not have that form: 10000 - 9998 and 2. *)
Theorem C80_minus_refuted : exists e e', integer e 2 /\ integer e' 2 /\ ~ trim D8 e /\ trim D8 e'
  /\ forall dbg, evaluate dbg D8 e = Ret (ROk [2; 0]) /\ evaluate dbg D8 e' = Ret (ROk [2]).
Proof.
  exists (Minus (Lit (text_of "10000")) (Lit (text_of "9998"))), (Lit (text_of "2")).
  split; [exists 10000, 9998; split; [left; numeral_fact|]; split; [left; numeral_fact|reflexivity]|].
  split; [left; numeral_fact|]. split; [intros H; exact H|]. split; [exact I|].
  intros [|]; split; vm_compute; reflexivity.
Qed.
Print Assumptions C80_minus_refuted.
(** 9 * ((10000 - 9998) + 5) and 9 * (10000 - 9998) + 9 * 5 in base 100 *)
Example C80_case :
  let g := Minus (Lit (text_of "10000")) (Lit (text_of "9998")) in
  let e := Times (Lit (text_of "9")) (Plus g (Lit (text_of "5"))) in
  let e' := Plus (Times (Lit (text_of "9")) g) (Times (Lit (text_of "9")) (Lit (text_of "5"))) in
  (exists o, comes_to D8 e o) /\ (exists o, comes_to D8 e' o) /\ trim D8 e /\ trim D8 e'
  /\ trim_divisors D8 e /\ trim_divisors D8 e'
  /\ evaluate true D8 e = Ret (ROk [63]) /\ evaluate true D8 e' = Ret (ROk [63])
  /\ evaluate true D8 (Plus g (Lit (text_of "5"))) = Ret (ROk [7; 0]).
Proof.
  intros g e e'.
  assert (L : forall s, numeral_of 10 s -> simple D8 (Lit s)) by (intros s N; left; eexists; left; split; [exact N|reflexivity]).
  assert (K : forall e, simple D8 e -> exists o, comes_to D8 e o).
  { intros u H. destruct (either_claim D8 u H) as (o & Ho & _). exists o. exact Ho. }
  assert (Sg : simple D8 g) by (split; apply L; (split; [discriminate|chars])).
  assert (S9 : simple D8 (Lit (text_of "9"))) by (apply L; split; [discriminate|chars]).
  assert (S5 : simple D8 (Lit (text_of "5"))) by (apply L; split; [discriminate|chars]).
  split; [apply K; split; [exact S9|split; assumption]|].
  split; [apply K; split; split; assumption|].
  split; [exact I|]. split; [split; exact I|]. split; [cbn; tauto|]. split; [cbn; tauto|].
  repeat split; vm_compute; reflexivity.
Qed.
