(** * Property C81: the messages of panics. *)
From Coq Require Import ZArith String List Bool.
From Verif Require Import Base Digit Slice Mul Div UBig Traits Panics Spec SpecMul SpecToom SpecCount Cases Witness ClaimsToom PanicsProof.
Import ListNotations.
Open Scope Z_scope.

(** A message tells its cause, and for the messages of [-], [/] and [%] the operator. *)
Theorem C81_cause : forall o o' w w' s, message o w = Some s -> message o' w' = Some s ->
  w = w' /\ (forall e, w = PExplicit e -> o = o').
Proof. exact cause_claim. Qed.
Print Assumptions C81_cause.
Theorem C81_debug : forall e e', (error_debug e = error_debug e' -> e = e') /\ (error_eqb e e' = true <-> e = e').
Proof. exact (fun e e' => conj (debug_claim e e') (eqb_claim e e')). Qed.
Print Assumptions C81_debug.
Theorem C81_sub : forall dbg t x y, valid t x -> well_formed t y ->
  (num t x < num t y -> printed Subtraction (sub_assign (impl dbg t) x y) = Some "Failed to subtract: Underflow"%string)
  /\ (num t y <= num t x -> exists r, sub_assign (impl dbg t) x y = Ret r).
Proof. exact sub_said. Qed.
Print Assumptions C81_sub.
Theorem C81_sub_digit : forall dbg t x n, well_formed t x -> storage t n -> n < radix t ->
  (num t x < n -> printed Subtraction (sub_assign_T dbg t x n) = Some "Failed to subtract: Underflow"%string)
  /\ (n <= num t x -> exists r, sub_assign_T dbg t x n = Ret r).
Proof. exact sub_T_said. Qed.
Print Assumptions C81_sub_digit.
(** Machine integers of two decimal digits: 0 minus a multiple of the radix stops at an index instead. *)
Theorem C81_sub_pair : forall dbg t x n, is_binary t = false -> well_formed t x -> storage t n -> radix t <= n ->
  (num t x < n -> x <> [] \/ n mod radix t <> 0 ->
     printed Subtraction (sub_assign_T dbg t x n) = Some "Failed to subtract: Underflow"%string)
  /\ (x = [] -> n mod radix t = 0 -> sub_assign_T dbg t x n = Panic PIndex)
  /\ (n <= num t x -> exists r, sub_assign_T dbg t x n = Ret r).
Proof. exact sub_pair_said. Qed.
Print Assumptions C81_sub_pair.
Theorem C81_zero : forall dbg t x,
  printed Division (div_assign (impl dbg t) x []) = Some "Failed to perform division: Division by zero"%string
  /\ printed Remainder (rem_assign (impl dbg t) x []) = Some "Failed to compute remainder: Division by zero"%string.
Proof. exact zero_said. Qed.
Print Assumptions C81_zero.
Theorem C81_div_digit : forall dbg t x n, valid t x -> storage t n -> n < radix t ->
  (n = 0 -> printed Division (div_assign_T dbg t x n) = Some "Failed to perform division: Division by zero"%string
    /\ printed Remainder (rem_assign_T dbg t x n) = Some "Failed to compute remainder: Division by zero"%string)
  /\ (n <> 0 -> exists q r, div_assign_T dbg t x n = Ret q /\ rem_assign_T dbg t x n = Ret r).
Proof. exact divrem_T_said. Qed.
Print Assumptions C81_div_digit.
(** The other message of divisions: a single digit with a leading zero as divisor. *)
Theorem C81_space : forall dbg t x d, valid t x -> 0 < d < radix t ->
  precedes (length x) (num t x) 2 d = false -> (length x <= places (radix t) (num t x / d))%nat ->
  printed Division (div_assign (impl dbg t) x [d; 0])
    = Some "Failed to perform division: Not enough space to store the result"%string
  /\ printed Remainder (rem_assign (impl dbg t) x [d; 0])
    = Some "Failed to compute remainder: Not enough space to store the result"%string.
Proof. exact thin_said. Qed.
Print Assumptions C81_space.
(** Products that stop report an underflow that the caller did not cause. *)
Theorem C81_mul : forall dbg t x y, valid t x -> valid t y ->
  (jam_product t x y -> printed Another (mul_assign (impl dbg t) x y)
     = Some "called `Result::unwrap()` on an `Err` value: Underflow"%string)
  /\ (~ jam_product t x y -> exists r, mul_assign (impl dbg t) x y = Ret r).
Proof. exact mul_said. Qed.
Print Assumptions C81_mul.
Theorem C81_square : forall dbg t x, valid t x -> (length x <= 1131)%nat ->
  (jam_product t x x -> printed Another (square (impl dbg t) x)
     = Some "called `Result::unwrap()` on an `Err` value: Underflow"%string)
  /\ (~ jam_product t x x -> exists r, square (impl dbg t) x = Ret r).
Proof. exact square_said. Qed.
Print Assumptions C81_square.
Theorem C81_shr : forall dbg t x n, is_binary t = false -> well_formed t x -> 0 <= n ->
  (4 * Z.of_nat (MAX_HEX_PLACES t) < n -> printed Another (shr_assign dbg t x n) = Some "not implemented"%string)
  /\ (n <= 4 * Z.of_nat (MAX_HEX_PLACES t) -> exists r, shr_assign dbg t x n = Ret r).
Proof. exact shr_said. Qed.
Print Assumptions C81_shr.
(** A divisor 2 with a leading zero in base 100 is refused for lack of space, not for being zero. *)
Example C81_case : valid B8 [1; 2] /\ well_formed B8 [1; 3]
  /\ printed Subtraction (sub_assign (impl true B8) [1; 2] [1; 3]) = Some "Failed to subtract: Underflow"%string
  /\ storage D8 200 /\ sub_assign_T true D8 [] 200 = Panic PIndex
  /\ printed Subtraction (sub_assign_T true D8 [] 201) = Some "Failed to subtract: Underflow"%string
  /\ valid B8 (toom_bad B8) /\ jam_product B8 (toom_bad B8) (toom_bad B8)
  /\ printed Another (shr_assign true D8 [1] 5) = Some "not implemented"%string
  /\ printed Division (div_assign (impl true B8) [7; 1] [0; 0]) = Some "Failed to perform division: Division by zero"%string
  /\ printed Remainder (rem_assign (impl false D8) [7; 9] [2; 0])
     = Some "Failed to compute remainder: Not enough space to store the result"%string.
Proof.
  split; [fact|]. split; [fact|]. split; [reflexivity|].
  split; [fact|]. split; [fact|]. split; [fact|]. split; [fact|]. split; [apply jam_computed; fact|].
  repeat split; vm_compute; reflexivity.
Qed.
