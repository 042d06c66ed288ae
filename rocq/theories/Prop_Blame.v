(** * Property C82: the part of an expression that is to blame for a panic. *)
From Coq Require Import ZArith NArith String List Bool.
From Verif Require Import Base Digit Slice UBig Text Calc Panics Spec SpecMul SpecToom SpecHist SpecCount SpecCalc SpecOrder Cases CalcProof.
From Verif Require Import Expr SpecExpr SpecTally TallyProof SpecBlame BlameProof.
Import ListNotations.
Open Scope Z_scope.

(** Some part stops on its own with the same panic although its operands return, for the reason
    given by [at_fault] (SpecBlame.v). *)
Theorem C82_blame : forall dbg t e w, comes_to t e (Stop w) ->
  exists s, part e s /\ at_fault t w s /\ evaluate dbg t s = Panic w /\ evaluate dbg t e = Panic w.
Proof. exact blame_claim. Qed.
Print Assumptions C82_blame.
(** The reasons are exact: nothing at fault has another outcome. *)
Theorem C82_fault : forall t e w o, at_fault t w e -> comes_to t e o -> o = Stop w.
Proof. exact fault_claim. Qed.
Print Assumptions C82_fault.
Theorem C82_message : forall dbg t e w, comes_to t e (Stop w) -> exists s, part e s /\ at_fault t w s
  /\ printed (family_of s) (evaluate dbg t s) =
     match w with
     | PIndex => None
     | PUnimplemented => Some "not implemented"%string
     | PUnwrap _ => Some "called `Result::unwrap()` on an `Err` value: Underflow"%string
     | PExplicit Underflow => Some "Failed to subtract: Underflow"%string
     | PExplicit e => Some ((match s with Over _ _ => "Failed to perform division: " | _ => "Failed to compute remainder: " end)
         ++ (match e with DivisionByZero => "Division by zero" | _ => "Not enough space to store the result" end))%string
     | _ => None
     end.
Proof. exact said_claim. Qed.
Print Assumptions C82_message.
(** A failed subtraction: some difference is negative, or takes away leading zeros. *)
Theorem C82_negative : forall t e, comes_to t e (Stop (PExplicit Underflow)) ->
  exists a b c d, part e (Minus a b) /\ comes_to t a (Value c) /\ comes_to t b (Value d)
    /\ (worth c < worth d \/ ~ tight (radix t) d)
    /\ (tight_divisors t e -> integer a (worth c) /\ integer b (worth d)).
Proof. exact negative_claim. Qed.
Print Assumptions C82_negative.
Theorem C82_by_zero : forall t e, comes_to t e (Stop (PExplicit DivisionByZero)) ->
  exists a b, (part e (Over a b) \/ part e (Modulo a b)) /\ (exists d, comes_to t b (Value d) /\ worth d = 0)
    /\ (tight_divisors t e -> integer b 0).
Proof. exact by_zero_claim. Qed.
Print Assumptions C82_by_zero.
(** Without differences, divisions and right shifts only products are left to stop. *)
Theorem C82_growing : forall t e w, growing e -> comes_to t e (Stop w) ->
  w = PUnwrap Underflow /\ exists s, part e s /\ at_fault t w s
    /\ match s with Times _ _ | Power _ _ => True | ShiftL _ _ => is_binary t = false | _ => False end.
Proof. exact growing_claim. Qed.
Print Assumptions C82_growing.
Theorem C82_refused : forall t e, comes_to t e Refused -> exists s, part e (Lit s) /\ no_literal s.
Proof. exact refused_claim. Qed.
Print Assumptions C82_refused.
(** The simple expressions (SpecTally.v) return a number, contain a text that is no number, or
    contain a part at fault. *)
Theorem C82_total : forall dbg t e, simple t e ->
  (exists x, evaluate dbg t e = Ret (ROk x) /\ valid t x)
  \/ (evaluate dbg t e = Ret (RErr InvalidNumber) /\ exists s, part e (Lit s) /\ no_literal s)
  \/ (exists w, evaluate dbg t e = Panic w /\ exists s, part e s /\ at_fault t w s /\ evaluate dbg t s = Panic w).
Proof. exact total_claim. Qed.
Print Assumptions C82_total.
(** Every expression, of known outcome or not: an expression that returns a number has only parts
    that do, and what is evaluated first decides when it fails. *)
Theorem C82_parts : forall dbg t s e x, evaluate dbg t e = Ret (ROk x) -> part e s ->
  exists y, evaluate dbg t s = Ret (ROk y).
Proof. exact parts_claim. Qed.
Print Assumptions C82_parts.
Theorem C82_first : forall dbg t s e, leads e s ->
  (forall w, evaluate dbg t s = Panic w -> evaluate dbg t e = Panic w)
  /\ (forall r, evaluate dbg t s = Ret (RErr r) -> evaluate dbg t e = Ret (RErr r)).
Proof. exact leads_claim. Qed.
Print Assumptions C82_first.
(** The second alternative of C82_negative happens: 5 - (10000 - 9998) is 3, and stops. *)
Theorem C82_negative_refuted : exists a b, integer a 5 /\ integer b 2
  /\ forall dbg, printed Subtraction (evaluate dbg D8 (Minus a b)) = Some "Failed to subtract: Underflow"%string.
Proof.
  exists (Lit (text_of "5")), (Minus (Lit (text_of "10000")) (Lit (text_of "9998"))).
  split; [left; numeral_fact|].
  split; [exists 10000, 9998; split; [left; numeral_fact|]; split; [left; numeral_fact|reflexivity]|].
  intros [|]; vm_compute; reflexivity.
Qed.
Print Assumptions C82_negative_refuted.
(** 7 + (3 - 9) * 2: the difference is to blame. *)
Example C82_case :
  let s := Minus (Lit (text_of "3")) (Lit (text_of "9")) in
  let e := Plus (Lit (text_of "7")) (Times s (Lit (text_of "2"))) in
  comes_to B16 e (Stop (PExplicit Underflow)) /\ part e s /\ at_fault B16 (PExplicit Underflow) s
  /\ evaluate true B16 s = Panic (PExplicit Underflow) /\ evaluate true B16 e = Panic (PExplicit Underflow)
  /\ growing (Lit (text_of "7")) /\ ~ growing e /\ simple B16 e.
Proof.
  intros s e.
  assert (L : forall u v, literal u v -> comes_to B16 (Lit u) (Value (Cell (places (radix B16) v) v)))
    by (intros u v H; left; exists v; auto).
  assert (L3 := L (text_of "3") 3 ltac:(left; numeral_fact)).
  assert (L9 := L (text_of "9") 9 ltac:(left; numeral_fact)).
  assert (L7 := L (text_of "7") 7 ltac:(left; numeral_fact)).
  assert (Hs : comes_to B16 s (Stop (PExplicit Underflow))).
  { eexists. split; [exact L3|]. eexists. split; [exact L9|]. split; [exact I|]. split; [exact I|]. right.
    split; [|reflexivity]. intros [_ H]. exact (H eq_refl). }
  split; [eexists; split; [exact L7|]; exists (Stop (PExplicit Underflow)); split; [exists (Stop (PExplicit Underflow)); split; [exact Hs|reflexivity]|reflexivity]|].
  split; [right; right; right; left; left; reflexivity|].
  split; [split; [reflexivity|]; do 2 eexists; split; [exact L3|]; split; [exact L9|right; reflexivity]|].
  split; [vm_compute; reflexivity|]. split; [vm_compute; reflexivity|]. split; [exact I|]. split; [cbn; tauto|].
  split; [left; exists 7; left; numeral_fact|]. split; [split; left|left; exists 2; left; numeral_fact].
  - exists 3. left; numeral_fact.
  - exists 9. left; numeral_fact.
Qed.
(** ("x" - 3) * (3 - 9) is refused before the difference fails; the other way round it fails. *)
Example C82_first_case :
  let s := Minus (Lit (text_of "x")) (Lit (text_of "3")) in
  let u := Minus (Lit (text_of "3")) (Lit (text_of "9")) in
  leads (Times s u) s /\ leads (Times u s) u
  /\ evaluate true D8 s = Ret (RErr InvalidNumber) /\ evaluate true D8 (Times s u) = Ret (RErr InvalidNumber)
  /\ evaluate true D8 (Times u s) = Panic (PExplicit Underflow)
  /\ evaluate true D8 (Plus (Times u (Lit (text_of "0"))) s) = Panic (PExplicit Underflow).
Proof. cbv zeta. split; [right; left; reflexivity|]. split; [right; left; reflexivity|]. repeat split; vm_compute; reflexivity. Qed.
