(** * Property C72: division of and by numbers with leading zeros. *)
From Coq Require Import ZArith List Bool Lia.
From Verif Require Import Base Digit UBig Spec SpecMul SpecDiv SpecBz Cases ClaimsDiv ClaimsDivBig ClaimsBz DivPad DivLift ListLemmas.
Import ListNotations.
Open Scope Z_scope.

(** Nothing is divided if the dividend has fewer digits than the divisor, or as many
    and is smaller: the quotient is zero and the remainder the dividend, leading zeros
    included.  [precedes] is in SpecMul.v. *)
Theorem C72_undivided : forall dbg t x y, valid t x -> valid t y ->
  precedes (length x) (num t x) (length y) (num t y) = true ->
  div_assign (impl dbg t) x y = Ret [] /\ rem_assign (impl dbg t) x y = Ret x.
Proof. exact undivided_claim. Qed.
Print Assumptions C72_undivided.
(** 7 / (256^2 - 65534) is 0: the divisor is 2 with a leading zero. *)
Example C72_undivided_case : sub_assign (impl true B8) [0; 0; 1] [254; 255] = Ret [2; 0]
  /\ precedes 1 7 2 2 = true /\ div_assign (impl true B8) [7] [2; 0] = Ret [].
Proof. repeat split; vm_compute; reflexivity. Qed.

(** Otherwise a dividend with leading zeros is divided as it should be: by fewer than
    twenty digits, under the conditions of C17 and C18, *)
Theorem C72_dividend : forall dbg t x y, valid t x -> well_formed t y -> y <> [] ->
  precedes (length x) (num t x) (length y) (num t y) = false ->
  (length y < 20)%nat -> (length y = 1%nat \/ divides t x y) -> divided dbg t x y.
Proof. exact short_pad_claim. Qed.
Print Assumptions C72_dividend.
(** and by twenty digits or more; the recursive division stops exactly as it does
    without them (C68). *)
Theorem C72_dividend_large : forall dbg t x y, valid t x -> well_formed t y -> (20 <= length y)%nat ->
  precedes (length x) (num t x) (length y) (num t y) = false ->
  (if is_binary t then ~ recursive_tie t x y else scales t (length y) (num t y) /\ ~ recursive_open t x y) ->
  (recursive_jam t x y -> stops dbg t x y (PUnwrap Underflow))
  /\ (~ recursive_jam t x y -> divided dbg t x y).
Proof. exact large_pad_claim. Qed.
Print Assumptions C72_dividend_large.
Example C72_dividend_case : valid B8 [7; 3; 0; 0] /\ well_formed B8 [9; 2]
  /\ precedes 4 (num B8 [7; 3; 0; 0]) 2 (num B8 [9; 2]) = false
  /\ div_assign (impl true B8) [7; 3; 0; 0] [9; 2] = Ret [1]
  /\ rem_assign (impl true B8) [7; 3; 0; 0] [9; 2] = Ret [254].
Proof. fact. Qed.

(** A divisor of one digit and a leading zero: the quotient must fit into one digit less
    than the dividend has. *)
Theorem C72_thin : forall dbg t x d, valid t x -> 0 <= d < radix t ->
  precedes (length x) (num t x) 2 d = false ->
  (d = 0 -> div_assign (impl dbg t) x [d; 0] = Panic (PExplicit DivisionByZero)
            /\ rem_assign (impl dbg t) x [d; 0] = Panic (PExplicit DivisionByZero))
  /\ (d <> 0 -> (length x <= places (radix t) (num t x / d))%nat ->
       div_assign (impl dbg t) x [d; 0] = Panic (PExplicit NoSpace)
       /\ rem_assign (impl dbg t) x [d; 0] = Panic (PExplicit NoSpace))
  /\ (d <> 0 -> (places (radix t) (num t x / d) < length x)%nat -> divided dbg t x [d; 0]).
Proof. exact thin_claim. Qed.
Print Assumptions C72_thin.
Example C72_thin_case : precedes 2 (num B8 [5; 200]) 2 2 = false
  /\ div_assign (impl true B8) [5; 200] [2; 0] = Panic (PExplicit NoSpace)
  /\ precedes 2 (num B8 [5; 1]) 2 2 = false
  /\ div_assign (impl true B8) [5; 1] [2; 0] = Ret [130].
Proof. repeat split; vm_compute; reflexivity. Qed.

(** A divisor of three or more digits, the last of them zero: debug builds of binary
    types and of D64 always panic. *)
Theorem C72_debug : forall t x y, is_binary t = true \/ t = D64 -> valid t x -> valid t y -> (2 <= length y)%nat ->
  precedes (length x) (num t x) (S (length y)) (num t y) = false ->
  stops true t x (y ++ [0]) POverflow.
Proof. exact padded_claim. Qed.
Print Assumptions C72_debug.
Example C72_debug_case : precedes 4 (num B8 [7; 9; 9; 4]) 3 (num B8 [2; 3]) = false
  /\ div_assign (impl true B8) [7; 9; 9; 4] [2; 3; 0] = Panic POverflow
  /\ div_assign (impl true D64) [7; 9; 9; 4] [2; 3; 0] = Panic POverflow.
Proof. repeat split; vm_compute; reflexivity. Qed.

(** The other decimal types shift the divisor by the least power of two above the base.
    If the digit below the leading zero then becomes a leading digit of at least half the
    base, without overflow, and that of the dividend stays below it, the division is
    right. *)
Theorem C72_decimal : forall dbg t, small_decimal t -> forall s, radix t < 2 ^ s < 2 * radix t ->
  forall x y, valid t x -> valid t y -> (2 <= length y < 19)%nat ->
  precedes (length x) (num t x) (S (length y)) (num t y) = false ->
  num t y * 2 ^ s < radix t ^ Z.of_nat (S (length y)) ->
  radix t <= 2 * (num t y * 2 ^ s / radix t ^ Z.of_nat (length y)) ->
  num t x * 2 ^ s / radix t ^ Z.of_nat (length x) < num t y * 2 ^ s / radix t ^ Z.of_nat (length y) ->
  divided dbg t x (y ++ [0]).
Proof. exact lifted_claim. Qed.
Print Assumptions C72_decimal.
Example C72_decimal_case : radix D8 < 2 ^ 7 < 2 * radix D8
  /\ sub_assign (impl true D8) [0; 0; 0; 0; 1] [98; 96; 49; 99] = Ret [2; 3; 50; 0]
  /\ num D8 [2; 3; 50] * 2 ^ 7 / radix D8 ^ 3 = 64
  /\ num D8 [7; 9; 9; 1; 4; 45] * 2 ^ 7 / radix D8 ^ 6 = 57
  /\ div_assign (impl true D8) [7; 9; 9; 1; 4; 45] [2; 3; 50; 0] = Ret [58; 2; 90].
Proof. repeat split; vm_compute; reflexivity. Qed.

(** If the leading digit is less than half the base, debug builds panic. *)
Theorem C72_decimal_debug : forall t s x y, small_decimal t -> radix t < 2 ^ s < 2 * radix t ->
  valid t x -> valid t y -> (2 <= length y)%nat ->
  precedes (length x) (num t x) (S (length y)) (num t y) = false ->
  2 * ((num t y * 2 ^ s / radix t ^ Z.of_nat (length y)) mod radix t) < radix t ->
  stops true t x (y ++ [0]) PDebug.
Proof. exact lifted_debug_claim. Qed.
Print Assumptions C72_decimal_debug.
Example C72_decimal_debug_case : num D8 [2; 3; 22] * 2 ^ 7 / radix D8 ^ 3 = 28
  /\ div_assign (impl true D8) [7; 9; 9; 1; 4; 45] [2; 3; 22; 0] = Panic PDebug.
Proof. repeat split; vm_compute; reflexivity. Qed.

(** Release builds return something else than quotient and remainder, in binary types, *)
Theorem C72_release_refuted : exists x a b y q r, well_formed B8 x /\ well_formed B8 a /\ well_formed B8 b
  /\ num B8 a - num B8 b = num B8 y /\ 0 < num B8 y
  /\ sub_assign (impl false B8) a b = Ret y
  /\ div_assign (impl false B8) x y = Ret q /\ rem_assign (impl false B8) x y = Ret r
  /\ ~ euclid (num B8 x) (num B8 y) (num B8 q) (num B8 r).
Proof.
  exists [7; 9; 9; 4], [0; 0; 0; 1], [254; 252; 255], [2; 3; 0], [84; 89], [127; 96].
  do 3 (split; [fact|]).
  split; [vm_compute; reflexivity|]. split; [vm_compute; reflexivity|].
  do 3 (split; [vm_compute; reflexivity|]).
  intros [H _]. vm_compute in H. discriminate H.
Qed.
Print Assumptions C72_release_refuted.
(** and digits that are no decimal digits in decimal types; debug builds panic. *)
Theorem C72_decimal_refuted : exists x a b y q, well_formed D8 x /\ well_formed D8 a /\ well_formed D8 b
  /\ sub_assign (impl false D8) a b = Ret y /\ 0 < num D8 y
  /\ div_assign (impl false D8) x y = Ret q /\ ~ valid D8 q
  /\ div_assign (impl true D8) x y = Panic PDebug.
Proof.
  exists [7; 9; 9; 4], [0; 0; 0; 1], [98; 96; 99], [2; 3; 0], [166; 172].
  do 3 (split; [fact|]).
  split; [vm_compute; reflexivity|]. split; [vm_compute; reflexivity|]. split; [vm_compute; reflexivity|].
  split; [|vm_compute; reflexivity].
  intros H. inversion H as [|? ? H1 H2]. cbn in H1. lia.
Qed.
Print Assumptions C72_decimal_refuted.
(** If only the last of the three conditions of [C72_decimal] is missing, debug builds too
    can return digits that are no decimal digits. *)
Theorem C72_decimal_large_refuted : exists x a b y q, well_formed D8 x /\ well_formed D8 a /\ well_formed D8 b
  /\ sub_assign (impl true D8) a b = Ret (y ++ [0]) /\ num D8 y * 2 ^ 7 < radix D8 ^ 4
  /\ radix D8 <= 2 * (num D8 y * 2 ^ 7 / radix D8 ^ 3)
  /\ div_assign (impl true D8) x (y ++ [0]) = Ret q /\ ~ valid D8 q.
Proof.
  exists [7; 9; 9; 1; 4; 55], [0; 0; 0; 0; 1], [98; 96; 49; 99], [2; 3; 50], [37; 1; 110].
  do 3 (split; [fact|]).
  split; [vm_compute; reflexivity|]. split; [vm_compute; reflexivity|].
  split; [vm_compute; congruence|]. split; [vm_compute; reflexivity|].
  intros H. do 2 apply below_cons in H as [_ H]. apply below_cons in H as [H _]. cbn in H. lia.
Qed.
Print Assumptions C72_decimal_large_refuted.
(** If the shifted divisor overflows, they can return a wrong quotient. *)
Theorem C72_decimal_wrap_refuted : exists x a b y q r, well_formed D16 x /\ well_formed D16 a /\ well_formed D16 b
  /\ sub_assign (impl true D16) a b = Ret (y ++ [0]) /\ 0 < num D16 y
  /\ div_assign (impl true D16) x (y ++ [0]) = Ret q /\ rem_assign (impl true D16) x (y ++ [0]) = Ret r
  /\ ~ euclid (num D16 x) (num D16 y) (num D16 q) (num D16 r).
Proof.
  exists [7; 9; 9; 1; 4; 55], [0; 0; 0; 0; 1], [9998; 9996; 99; 9999], [2; 3; 9900], [1367; 8719; 144], [4773; 4563; 1111].
  do 3 (split; [fact|]).
  do 4 (split; [vm_compute; reflexivity|]).
  intros [H _]. vm_compute in H. discriminate H.
Qed.
Print Assumptions C72_decimal_wrap_refuted.
