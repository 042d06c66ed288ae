(** * Properties C30-C32: histories of operations, and the choice of digit type. *)
From Coq Require Import ZArith Arith List Bool.
From Verif Require Import Base Digit Slice Mul Div UBig Text Spec SpecDiv SpecHist Hist Cases Witness ClaimsDiv
  KeepsDiv HistProof Prop_SquareBig.
Import ListNotations.
Open Scope Z_scope.

(** Registers may hold unnormalised numbers of any length; only the digits count. *)
Theorem C30_digits : forall dbg t p r r', Forall (typed t) p -> Forall (digit_division t) p ->
  (forall k, valid t (r k)) -> model_run dbg t p r = Ret r' -> forall k, valid t (r' k).
Proof. exact run_valid_claim. Qed.
Print Assumptions C30_digits.
(** division by big numbers, binary types: also on their own *)
Theorem C30_div_binary : forall dbg t, is_binary t = true -> forall x y, valid t x -> valid t y ->
  forall r, div_assign (impl dbg t) x y = Ret r -> valid t r.
Proof. exact k_div_bin. Qed.
Print Assumptions C30_div_binary.
Theorem C30_rem_binary : forall dbg t, is_binary t = true -> forall x y, valid t x -> valid t y ->
  forall r, rem_assign (impl dbg t) x y = Ret r -> valid t r.
Proof. exact k_rem_bin. Qed.
Print Assumptions C30_rem_binary.
(** Other divisions break the invariant: 10000 / 158 in base 100. *)
Theorem C30_decimal_division_refuted : forall dbg, well_formed D8 [0; 0; 1]
  /\ div_assign_T dbg D8 [0; 0; 1] 158 = Ret [240; 62]
  /\ div_assign (impl dbg D8) [0; 0; 1] [58; 1] = Ret [240; 62] /\ ~ valid D8 [240; 62].
Proof.
  intros dbg. split; [fact|]. split; [destruct dbg; vm_compute; reflexivity|].
  split; [destruct dbg; vm_compute; reflexivity|]. intros H. inversion_clear H.
  destruct H0 as [_ H]. vm_compute in H. discriminate H.
Qed.
Print Assumptions C30_decimal_division_refuted.

(** Missing from C31: squares of numbers of more than 1131 digits.  Divisions and machine
    operations are not part of C31; included are divisions that are sound (SpecHist.v),
    and machine operations except with two-digit decimal subtrahends and divisors. *)
Theorem C31_partial : forall dbg t p r r', Forall (typed t) p -> (forall k, valid t (r k)) ->
  calm_run dbg t p r -> model_run dbg t p r = Ret r' ->
  forall k, valid t (r' k) /\ num t (r' k) = int_run p (fun k => num t (r k)) k.
Proof. exact run_denotes_claim. Qed.
Print Assumptions C31_partial.
(** Without squares, powers and big divisions, the restriction is on the steps alone. *)
Theorem C31_no_squares : forall dbg t p r r', Forall (typed t) p -> Forall (always_calm t) p ->
  (forall k, valid t (r k)) -> model_run dbg t p r = Ret r' ->
  forall k, valid t (r' k) /\ num t (r' k) = int_run p (fun k => num t (r k)) k.
Proof. exact run_always_claim. Qed.
Print Assumptions C31_no_squares.
(** The full statement is false: the one-step program of C15. *)
Theorem C31_refuted : forall dbg, exists p r r', Forall (typed B8) p /\ (forall k, well_formed B8 (r k))
  /\ model_run dbg B8 p r = Ret r' /\ num B8 (r' 0%nat) <> int_run p (fun k => num B8 (r k)) 0%nat.
Proof. exact (run_refuted _ C15_refuted). Qed.
Print Assumptions C31_refuted.
Definition program : list step :=
  [SSet 0 7; SPow 0 9; SCopy 1 0; SShl 1 3; SSquare 1; SSub 1 0; SMul 0 1; SAddInt 0 250; SDivInt 1 77;
   SAdd 0 1; SRemInt 1 91].
(** 13 digits divided by 5 in base 100 *)
Definition dividing : list step :=
  [SSet 0 7; SPow 0 29; SSet 1 3; SPow 1 20; SCopy 2 0; SDiv 0 1; SRem 2 1].
Example C30_C31_case :
  Forall (typed D8) program /\ Forall (digit_division D8) program
  /\ match model_run true D8 program (fun _ => []) with
     | Ret r => num D8 (r 0%nat) = int_run program (fun _ => 0) 0%nat
         /\ num D8 (r 1%nat) = int_run program (fun _ => 0) 1%nat
         /\ length (r 0%nat) = 13%nat /\ num D8 (r 1%nat) = 40
     | _ => False
     end.
Proof.
  split; [|split].
  - repeat constructor; vm_compute; congruence.
  - repeat constructor; vm_compute; congruence.
  - vm_compute. repeat split.
Qed.
Example C31_calm_case : calm_run true D8 program (fun _ => []).
Proof.
  unfold program.
  repeat (split; [cbn [calm]; repeat split; try (apply Nat.leb_le);
    first [vm_compute; reflexivity|right; vm_compute; reflexivity]
    |intros r E; vm_compute in E; injection E as <-]).
  exact I.
Qed.

Example C31_division_case : calm_run true D8 dividing (fun _ => [])
  /\ match model_run true D8 dividing (fun _ => []) with
     | Ret r => num D8 (r 0%nat) = 7 ^ 29 / 3 ^ 20 /\ num D8 (r 2%nat) = 7 ^ 29 mod 3 ^ 20
     | _ => False
     end.
Proof.
  split; [|vm_compute; split; reflexivity]. unfold dividing.
  assert (HS : scales D8 5 (3 ^ 20)) by (apply (scales_check D8 5 _ 1); dfact).
  do 5 (split; [cbn [calm]; repeat split; try (apply Nat.leb_le); vm_compute; reflexivity
    |intros r E; vm_compute in E; injection E as <-]).
  split; [|intros r E; vm_compute in E; injection E as <-; split; [|intros r E; exact I]];
    (split; [fact|split; [fact|right; exact HS]]).
Qed.

Theorem C32_add : forall dbg t t' x y x' y', valid t x -> valid t y -> valid t' x' -> valid t' y' ->
  num t x = num t' x' -> num t y = num t' y' ->
  exists r r', add_assign (impl dbg t) x y = Ret r /\ add_assign (impl dbg t') x' y' = Ret r'
    /\ num t r = num t' r'.
Proof. exact two_add. Qed.
Print Assumptions C32_add.
Theorem C32_sub : forall dbg t t' x y x' y', well_formed t x -> well_formed t y ->
  well_formed t' x' -> well_formed t' y' ->
  num t x = num t' x' -> num t y = num t' y' -> num t y <= num t x ->
  exists r r', sub_assign (impl dbg t) x y = Ret r /\ sub_assign (impl dbg t') x' y' = Ret r'
    /\ num t r = num t' r'.
Proof. exact two_sub. Qed.
Print Assumptions C32_sub.
(** two products that both come about are equal *)
Theorem C32_mul : forall dbg t t' x y x' y' r r',
  valid t x -> valid t y -> valid t' x' -> valid t' y' ->
  num t x = num t' x' -> num t y = num t' y' ->
  mul_assign (impl dbg t) x y = Ret r -> mul_assign (impl dbg t') x' y' = Ret r' ->
  num t r = num t' r'.
Proof. exact two_mul. Qed.
Print Assumptions C32_mul.
(** Missing: that both products come about, beyond schoolbook lengths; see C32_refuted. *)
Theorem C32_mul_partial : forall dbg t t' x y x' y',
  valid t x -> valid t y -> valid t' x' -> valid t' y' ->
  num t x = num t' x' -> num t y = num t' y' ->
  (length x < 20 \/ length y < 20)%nat -> (length x' < 20 \/ length y' < 20)%nat ->
  exists r r', mul_assign (impl dbg t) x y = Ret r /\ mul_assign (impl dbg t') x' y' = Ret r'
    /\ num t r = num t' r'.
Proof. exact two_mul_short. Qed.
Print Assumptions C32_mul_partial.
(** The same square panics with 8-bit digits and is computed with 64-bit digits. *)
Theorem C32_refuted : exists x x' r', well_formed B8 x /\ well_formed B64 x' /\ num B8 x = num B64 x'
  /\ mul_assign (impl true B8) x x = Panic (PUnwrap Underflow)
  /\ mul_assign (impl true B64) x' x' = Ret r' /\ num B64 r' = num B8 x * num B8 x.
Proof.
  exists kara_bad, kara_bad64, kara_bad64_square. fact.
Qed.
Print Assumptions C32_refuted.
(** whole programs, over any two types *)
Theorem C32_programs : forall dbg t t' p r s r' s', Forall (typed t) p -> Forall (typed t') p ->
  (forall k, valid t (r k)) -> (forall k, valid t' (s k)) -> (forall k, num t (r k) = num t' (s k)) ->
  calm_run dbg t p r -> calm_run dbg t' p s ->
  model_run dbg t p r = Ret r' -> model_run dbg t' p s = Ret s' ->
  forall k, num t (r' k) = num t' (s' k).
Proof. exact two_programs. Qed.
Print Assumptions C32_programs.
Theorem C32_parse : forall dbg t t' s,
  numeral_of 10 s \/ (exists h, s = hex_prefix ++ h /\ numeral_of 16 h) ->
  exists r r', from_str dbg t s = Ret (ROk r) /\ from_str dbg t' s = Ret (ROk r')
    /\ num t r = num t' r'.
Proof. exact two_parse. Qed.
Print Assumptions C32_parse.
(** Strings that are no numerals are judged differently: "12+3". *)
Theorem C32_parse_refuted : exists s r, from_str true D8 s = Ret (ROk r) /\ num D8 r = 1203
  /\ from_str true D16 s = Ret (RErr InvalidNumber).
Proof. exists [49; 50; 43; 51], [3; 12]. fact. Qed.
Print Assumptions C32_parse_refuted.
(** 2^40 - 1 in bytes and in base 10^4 *)
Example C32_case : let x := repeat 255 5 in let x' := [7775; 1162; 995; 1] in
  valid B8 x /\ valid D16 x' /\ num B8 x = num D16 x'
  /\ mul_assign (impl true B8) x x = Ret [1; 0; 0; 0; 0; 254; 255; 255; 255; 255]
  /\ mul_assign (impl true D16) x' x' = Ret [625; 5145; 4301; 9612; 2581; 2089; 1].
Proof. fact. Qed.
