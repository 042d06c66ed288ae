(** * Property C76: expressions over texts. *)
From Coq Require Import ZArith String List Bool.
From Verif Require Import Base Digit Slice UBig Text Calc Expr Spec SpecDiv SpecMul SpecToom SpecBz SpecCalc SpecExpr SpecOrder Cases CalcProof ExprProof.
Import ListNotations.
Open Scope Z_scope.

(** Sums and differences of terms have the right value; without differences also the one
    text of that value. *)
Theorem C76_value : forall dbg t e v, means t e v ->
  (linear e -> exists s, compute dbg t e = Ret (ROk s) /\ literal s v)
  /\ (positive e -> exists s, compute dbg t e = Ret (ROk s) /\ canonical (is_binary t) s v).
Proof. exact expr_right_claim. Qed.
Print Assumptions C76_value.
(** The first negative difference, zero divisor, jammed product, stopped division or shift decides the panic. *)
Theorem C76_stops : forall dbg t c e, stops t c e -> linear e -> compute dbg t e = Panic c.
Proof. exact expr_stops_claim. Qed.
Print Assumptions C76_stops.
(** There is no third possibility without divisions, powers and shifts to the left, and the two exclude each other. *)
Theorem C76_either : forall t e, every_literal (fun s => exists v, literal s v) e -> undivided e ->
  ((exists v, means t e v) \/ exists c, stops t c e)
  /\ ~ ((exists v, means t e v) /\ exists c, stops t c e /\ linear e).
Proof. exact expr_total_claim. Qed.
Print Assumptions C76_either.
(** An expression has at most one value, and only products of large numbers jam. *)
Theorem C76_unique : forall t e v w, means t e v -> means t e w -> v = w.
Proof. exact means_unique. Qed.
Print Assumptions C76_unique.
Theorem C76_jam : forall t v w, 0 <= v -> 0 <= w -> jam_at (radix t) v w ->
  radix t ^ 19 <= v /\ radix t ^ 19 <= w /\ radix t ^ 40 <= Z.max v w.
Proof. exact jam_large. Qed.
Print Assumptions C76_jam.
(** Simple sufficient conditions for quotients and powers. *)
Theorem C76_simple : forall t v w n, 0 <= v ->
  (0 < w < radix t -> divisible t v w)
  /\ (v ^ Z.of_N n < radix t ^ 40 -> moderate t v (Z.of_N n) /\ ~ jam_power (radix t) v (Z.of_N n)).
Proof. exact simple_claim. Qed.
Print Assumptions C76_simple.
(** Types and builds do not show: the same value, and among the binary or the decimal types
    the same text. *)
Theorem C76_types : forall dbg dbg' t t' e v v' s s', means t e v -> means t' e v' -> linear e ->
  compute dbg t e = Ret (ROk s) -> compute dbg' t' e = Ret (ROk s') ->
  v = v' /\ literal s v /\ literal s' v /\ (positive e -> is_binary t = is_binary t' -> s = s').
Proof. exact expr_types_claim. Qed.
Print Assumptions C76_types.
(** Subtracting a difference can go wrong: 5 - (10000 - 9998) panics in base 100. *)
Theorem C76_nested_refuted : exists e, means D8 e 3
  /\ compute true D8 e = Panic (PExplicit Underflow) /\ compute false D8 e = Panic (PExplicit Underflow).
Proof.
  exists (Minus (Lit [53]) (Minus (Lit [49; 48; 48; 48; 48]) (Lit [57; 57; 57; 56]))).
  split; [|split; vm_compute; reflexivity].
  apply (means_minus D8 _ _ 5 2); [constructor; left; numeral_fact| |discriminate].
  apply (means_minus D8 _ _ 10000 9998); [constructor; left; numeral_fact|constructor; left; numeral_fact|discriminate].
Qed.
Print Assumptions C76_nested_refuted.
(** 0x1F * 200 / 7 + 30 - 0x10 = 899, with a negative variant *)
Definition term : expr :=
  Plus (Over (Times (Lit (text_of "0x1F")) (Lit (text_of "200"))) (Lit (text_of "7"))) (Lit (text_of "30")).
Example C76_case : means D8 term 915 /\ linear (Minus term (Lit (text_of "0x10"))) /\ positive term
  /\ compute true D8 term = Ret (ROk (text_of "915")) /\ compute false B64 term = Ret (ROk (text_of "0x393"))
  /\ compute true D8 (Minus term (Lit (text_of "0x10"))) = Ret (ROk (text_of "899"))
  /\ stops D8 (PExplicit Underflow) (Plus (Minus (Lit (text_of "6")) (Lit (text_of "30"))) term).
Proof.
  split.
  { apply (means_plus D8 _ _ 885 30); [|constructor; left; numeral_fact].
    apply (means_over D8 _ _ 6200 7); [|constructor; left; numeral_fact|apply divisible_digit; split; reflexivity].
    apply (means_times D8 _ _ 31 200);
      [constructor; right; exists (text_of "1F"); split; [reflexivity|numeral_fact]|constructor; left; numeral_fact|].
    intros J. destruct (jam_large D8 31 200 ltac:(discriminate) ltac:(discriminate) J) as (H & _).
    vm_compute in H. apply H. reflexivity. }
  split; [cbn; tauto|]. split; [cbn; tauto|].
  repeat match goal with |- compute _ _ _ = _ /\ _ => split; [vm_compute; reflexivity|] end.
  apply stops_left; [left; reflexivity|]. apply (stops_negative D8 _ _ 6 30); [constructor; left; numeral_fact..|reflexivity].
Qed.
(** (3 << 9) ^ 5 >> 20; a shift of a decimal number by 33 places panics *)
Example C76_shift_case :
  let e := Power (ShiftL (Lit (text_of "3")) 9) 5 in
  means B16 e (1536 ^ 5) /\ means B16 (ShiftR e 20) (1536 ^ 5 / 2 ^ 20)
  /\ compute true B16 (ShiftR e 20) = Ret (ROk (text_of "0x1e6000000"))
  /\ stops D16 PUnimplemented (ShiftR (Lit (text_of "3")) 33).
Proof.
  assert (M : means B16 (Power (ShiftL (Lit (text_of "3")) 9) 5) (1536 ^ 5)).
  { apply (means_power B16 _ 1536 5); [| |].
    - apply (means_left B16 _ 3 9); [constructor; left; numeral_fact|discriminate|left; discriminate].
    - apply moderate_small; [discriminate|vm_compute; reflexivity].
    - apply power_small; [discriminate|vm_compute; reflexivity]. }
  split; [exact M|]. split; [apply means_right; [exact M|discriminate|vm_compute; discriminate]|].
  split; [vm_compute; reflexivity|].
  apply (stops_shift_right D16 _ 3 33); [constructor; left; numeral_fact|discriminate|].
  intros H. vm_compute in H. apply H. reflexivity.
Qed.
