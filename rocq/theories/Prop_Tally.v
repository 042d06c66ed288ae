(** * Property C78: every expression over texts, differences inside differences included. *)
From Coq Require Import ZArith String List Bool.
From Verif Require Import Base Digit Slice UBig Text Calc Spec SpecMul SpecToom SpecHist SpecCount SpecCalc SpecOrder Cases CalcProof
  ExprProof TallyProof.
From Verif Require Import Expr SpecExpr SpecTally.
Import ListNotations.
Open Scope Z_scope.

(** Digit counts and values decide: the number, the refusal or the panic. *)
Theorem C78_outcome : forall dbg t e o, comes_to t e o ->
  match o with
  | Value c => exists x, evaluate dbg t e = Ret (ROk x) /\ fits t x c
      /\ exists s, compute dbg t e = Ret (ROk s) /\ literal s (worth c)
         /\ (tight (radix t) c -> canonical (is_binary t) s (worth c))
  | Refused => compute dbg t e = Ret (RErr InvalidNumber)
  | Stop w => compute dbg t e = Panic w
  end.
Proof. exact fate_claim. Qed.
Print Assumptions C78_outcome.
(** They also decide the text, superfluous zeros included. *)
Theorem C78_text : forall dbg t e c, comes_to t e (Value c) -> exists s, compute dbg t e = Ret (ROk s) /\ cell_text t c s
  /\ forall s', cell_text t c s' -> s' = s.
Proof. exact text_claim. Qed.
Print Assumptions C78_text.
(** Sums, differences, products, shifts to the right, short shifts to the left, quotients
    and remainders by single digits have exactly one such outcome, however they are nested. *)
Theorem C78_either : forall t e, simple t e -> exists o, comes_to t e o /\ forall o', comes_to t e o' -> o' = o.
Proof. exact either_claim. Qed.
Print Assumptions C78_either.
(** A value is always the right one, unless something is divided by a number with
    leading zeros. *)
Theorem C78_value : forall t e c, comes_to t e (Value c) -> tight_divisors t e -> integer e (worth c).
Proof. exact value_claim. Qed.
Print Assumptions C78_value.
(** Debug and release builds agree. *)
Theorem C78_builds : forall t e, (exists o, comes_to t e o) -> evaluate true t e = evaluate false t e.
Proof. exact build_fate. Qed.
Print Assumptions C78_builds.
(** Without that condition values are wrong: 50 / (10000 - 9998) = 0 and
    50 % (10000 - 9998) = 50 in base 100. *)
Theorem C78_divisor_refuted : exists a b, integer (Over a b) 25 /\ integer (Modulo a b) 0
  /\ forall dbg, compute dbg D8 (Over a b) = Ret (ROk (text_of "0"))
       /\ compute dbg D8 (Modulo a b) = Ret (ROk (text_of "50")).
Proof.
  exists (Lit (text_of "50")), (Minus (Lit (text_of "10000")) (Lit (text_of "9998"))).
  assert (A : integer (Lit (text_of "50")) 50) by (left; numeral_fact).
  assert (B : integer (Minus (Lit (text_of "10000")) (Lit (text_of "9998"))) 2).
  { exists 10000, 9998. split; [left; numeral_fact|]. split; [left; numeral_fact|reflexivity]. }
  split; [exists 50, 2; auto|]. split; [exists 50, 2; auto|].
  intros [|]; split; vm_compute; reflexivity.
Qed.
Print Assumptions C78_divisor_refuted.
(** Comparisons look at digit counts first; they are right without leading zeros. *)
Theorem C78_compare : forall dbg t a b c d, comes_to t a (Value c) -> comes_to t b (Value d) -> exists x y,
  evaluate dbg t a = Ret (ROk x) /\ evaluate dbg t b = Ret (ROk y)
  /\ ubig_cmp x y = match (width c ?= width d)%nat with Eq => worth c ?= worth d | o => o end
  /\ (ubig_eqb x y = true <-> c = d)
  /\ (tight (radix t) c -> tight (radix t) d ->
      ubig_cmp x y = (worth c ?= worth d) /\ (ubig_eqb x y = true <-> worth c = worth d)).
Proof. exact compare_claim. Qed.
Print Assumptions C78_compare.
(** With them they can be wrong: 10000 - 9998 is not equal to 2, and larger than 7. *)
Theorem C78_compare_refuted : exists a b c x y z, integer a 2 /\ integer b 2 /\ integer c 7
  /\ forall dbg, evaluate dbg D8 a = Ret (ROk x) /\ evaluate dbg D8 b = Ret (ROk y) /\ evaluate dbg D8 c = Ret (ROk z)
       /\ ubig_eqb x y = false /\ ubig_cmp x z = Gt.
Proof.
  exists (Minus (Lit (text_of "10000")) (Lit (text_of "9998"))), (Lit (text_of "2")), (Lit (text_of "7")), [2; 0], [2], [7].
  split; [exists 10000, 9998; split; [left; numeral_fact|]; split; [left; numeral_fact|reflexivity]|].
  split; [left; numeral_fact|]. split; [left; numeral_fact|].
  intros [|]; repeat split; vm_compute; reflexivity.
Qed.
Print Assumptions C78_compare_refuted.
(** Binary numbers of fewer than sixteen digits display as the decimal text of their value,
    leading zeros or not. *)
Theorem C78_display : forall dbg t e c, is_binary t = true -> (width c < 16)%nat -> comes_to t e (Value c) -> exists x s,
  evaluate dbg t e = Ret (ROk x) /\ fmt_display_bin dbg t Text.plain x = Ret s /\ canonical false s (worth c).
Proof. exact display_claim. Qed.
Print Assumptions C78_display.
(** 5 - (10000 - 9998) panics, 500 - (10000 - 9998) is 498; both from the digit counts *)
Example C78_case :
  let d := Minus (Lit (text_of "10000")) (Lit (text_of "9998")) in
  comes_to D8 d (Value (Cell 2 2))
  /\ comes_to D8 (Minus (Lit (text_of "5")) d) (Stop (PExplicit Underflow))
  /\ comes_to D8 (Minus (Lit (text_of "500")) d) (Value (Cell 2 498))
  /\ comes_to D8 (Plus (Lit (text_of "5x")) d) Refused
  /\ compute true D8 d = Ret (ROk (text_of "002"))
  /\ compute true D8 (Minus (Lit (text_of "500")) d) = Ret (ROk (text_of "498"))
  /\ simple D8 (Minus (Lit (text_of "500")) d) /\ tight_divisors D8 (Minus (Lit (text_of "500")) d).
Proof.
  cbv zeta. assert (L : forall s v, numeral_of 10 s /\ numeral_value 10 s = v ->
    comes_to D8 (Lit s) (Value (Cell (places (radix D8) v) v))).
  { intros s v N. left. exists v. split; [left; exact N|reflexivity]. }
  assert (H : comes_to D8 (Minus (Lit (text_of "10000")) (Lit (text_of "9998"))) (Value (Cell 2 2))).
  { exists (Value (Cell 3 10000)). split; [apply (L _ 10000); numeral_fact|].
    exists (Value (Cell 2 9998)). split; [apply (L _ 9998); numeral_fact|].
    split; [exact I|]. split; [exact I|]. left. split; [|vm_compute; reflexivity].
    split; [vm_compute; repeat constructor|discriminate]. }
  split; [exact H|]. split; [|split; [|split; [|split; [|split; [|split]]]]].
  - exists (Value (Cell 1 5)). split; [apply (L _ 5); numeral_fact|]. exists (Value (Cell 2 2)). split; [exact H|].
    split; [exact I|]. split; [exact I|]. right. split; [|reflexivity]. intros [K _]. vm_compute in K.
    exact (PeanoNat.Nat.nle_succ_diag_l 1 K).
  - exists (Value (Cell 2 500)). split; [apply (L _ 500); numeral_fact|]. exists (Value (Cell 2 2)). split; [exact H|].
    split; [exact I|]. split; [exact I|]. left. split; [|vm_compute; reflexivity].
    split; [vm_compute; repeat constructor|discriminate].
  - exists Refused. split; [|reflexivity]. right. split; [|reflexivity].
    split; [discriminate|]. split; [discriminate|]. split; [cbn; intuition discriminate|].
    intros v [[[_ K] _]|(h & E & _)]; [|discriminate E].
    inversion K as [|c l _ K1]; subst. inversion K1 as [|c l C _]; subst.
    destruct C as [[_ [_ C]]|[C _]]; [apply C; reflexivity|discriminate C].
  - vm_compute. reflexivity.
  - vm_compute. reflexivity.
  - cbn [simple]. split; [left; eexists; left; numeral_fact|]. split; left; eexists; left; numeral_fact.
  - cbn [tight_divisors]. tauto.
Qed.
(** 65536 - 65534 in base 256: two digits, shown as "0x002" and displayed as "2" *)
Example C78_display_case : let d := Minus (Lit (text_of "0x10000")) (Lit (text_of "65534")) in
  comes_to B8 d (Value (Cell 2 2)) /\ is_binary B8 = true
  /\ compute false B8 d = Ret (ROk (text_of "0x002")) /\ fmt_display_bin false B8 Text.plain [2; 0] = Ret (text_of "2").
Proof.
  split; [|repeat split; vm_compute; reflexivity].
  exists (Value (Cell 3 65536)). split.
  { left. exists 65536. split; [right; exists (text_of "10000"); split; [reflexivity|numeral_fact]|reflexivity]. }
  exists (Value (Cell 2 65534)). split; [left; exists 65534; split; [left; numeral_fact|reflexivity]|].
  split; [exact I|]. split; [exact I|]. left. split; [|vm_compute; reflexivity].
  split; [vm_compute; repeat constructor|discriminate].
Qed.
(** 500 - (10000 - 9998) / 7 *)
Example C78_either_case : simple D8 (Minus (Lit (text_of "500")) (Over (Minus (Lit (text_of "10000")) (Lit (text_of "9998"))) (Lit (text_of "7"))))
  /\ compute true D8 (Minus (Lit (text_of "500")) (Over (Minus (Lit (text_of "10000")) (Lit (text_of "9998"))) (Lit (text_of "7"))))
     = Ret (ROk (text_of "500")).
Proof.
  split; [|vm_compute; reflexivity]. cbn [simple]. split; [left; eexists; left; numeral_fact|].
  split; [split; left; eexists; left; numeral_fact|]. exists (text_of "7"), 7.
  split; [reflexivity|]. split; [left; numeral_fact|reflexivity].
Qed.
