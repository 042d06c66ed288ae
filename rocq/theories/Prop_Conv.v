(** * Property C77: converting texts to decimal. *)
From Coq Require Import ZArith String List Bool.
From Verif Require Import Base Digit Slice UBig Text Calc Spec SpecDec SpecBz SpecCalc SpecOrder Cases CalcProof ConvProof.
Import ListNotations.
Open Scope Z_scope.

(** A numeral, decimal or hexadecimal, comes out as the one decimal text of its value:
    always in decimal types, below 16 digits in binary ones. *)
Theorem C77_convert : forall dbg t a v, literal a v -> is_binary t = false \/ v < radix t ^ 15 ->
  exists s, convert dbg t a = Ret (ROk s) /\ canonical false s v.
Proof. exact convert_claim. Qed.
Print Assumptions C77_convert.
(** Through any two types, with or without a second conversion. *)
Theorem C77_twice : forall dbg dbg' t t' a v s, literal a v ->
  is_binary t = false \/ v < radix t ^ 15 -> is_binary t' = false \/ v < radix t' ^ 15 ->
  convert dbg t a = Ret (ROk s) -> convert dbg' t' s = Ret (ROk s) /\ convert dbg' t' a = Ret (ROk s).
Proof. exact convert_twice_claim. Qed.
Print Assumptions C77_twice.
(** From 16 digits on binary types lose zeros: "1" and 38 zeros come out as 10^22. *)
Theorem C77_refuted : exists a s, literal a (10 ^ 38) /\ convert true B8 a = Ret (ROk s) /\ canonical false s (10 ^ 22).
Proof.
  exists (49 :: repeat 48 38), (49 :: repeat 48 22).
  split; [left; cbn [repeat]; numeral_fact|]. split; [vm_compute; reflexivity|]. cbn [repeat]. numeral_fact.
Qed.
Print Assumptions C77_refuted.
(** The exact outcome up to 5102 digits if no inner division ties: too small unless all
    lower parts fill their places (C29), or a panic, which needs more than 120 digits. *)
Theorem C77_exact : forall dbg t a v, is_binary t = true -> literal a v -> v < radix t ^ 5102 -> cut_smoothly t v ->
  (scale_jams t v \/ cut_jams t v -> convert dbg t a = Panic (PUnwrap Underflow))
  /\ (~ (scale_jams t v \/ cut_jams t v) -> exists s w, convert dbg t a = Ret (ROk s) /\ canonical false s w
       /\ w <= v /\ (w = v <-> filled t v)).
Proof. exact convert_exact_claim. Qed.
Print Assumptions C77_exact.
Theorem C77_short : forall t v, is_binary t = true -> 0 <= v < radix t ^ 120 -> ~ (scale_jams t v \/ cut_jams t v).
Proof. exact convert_short_claim. Qed.
Print Assumptions C77_short.
(** Other texts are refused, up to the exceptions of C25. *)
Theorem C77_error : forall dbg t a, no_literal a -> convert dbg t a = Ret (RErr InvalidNumber).
Proof. exact convert_error_claim. Qed.
Print Assumptions C77_error.
Example C77_case : let a := text_of "0xFFFFFFFFFFFFFFFFFFFF" in
  literal a (16 ^ 20 - 1) /\ 16 ^ 20 - 1 < radix B8 ^ 15
  /\ convert true B8 a = Ret (ROk (text_of "1208925819614629174706175"))
  /\ convert false D64 a = Ret (ROk (text_of "1208925819614629174706175"))
  /\ convert true B16 (text_of "0000120") = Ret (ROk (text_of "120")).
Proof.
  split; [right; exists (text_of "FFFFFFFFFFFFFFFFFFFF"); split; [reflexivity|numeral_fact]|].
  repeat split; vm_compute; reflexivity.
Qed.
