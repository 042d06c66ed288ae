(** * Property C71: what the slice routines leave behind, also when they fail. *)
From Coq Require Import ZArith List Bool.
From Verif Require Import Base Digit Slice Mul Div UBig Spec SpecMul Cases ErrProof.
Import ListNotations.
Open Scope Z_scope.

(** C71: in each theorem the digits left behind are those of the result modulo the
    width of the buffer, whether or not the routine reports an error, and the whole
    return value is given. *)
Theorem C71_inc : forall dbg t x, valid t x ->
  exists r, inc_assign (impl dbg t) x = Ret (r, radix t ^ Z.of_nat (length x) <=? num t x + 1) /\ length r = length x /\ valid t r
    /\ num t r = (num t x + 1) mod radix t ^ Z.of_nat (length x).
Proof. exact inc_wraps. Qed.
Print Assumptions C71_inc.
Example C71_inc_case : valid D8 [99; 99]
  /\ inc_assign (impl true D8) [99; 99] = Ret ([0; 0], true).
Proof. fact. Qed.

Theorem C71_dec : forall dbg t x, valid t x ->
  exists r, length r = length x /\ valid t r /\ num t r = (num t x - 1) mod radix t ^ Z.of_nat (length x)
    /\ dec_assign (impl dbg t) x = Ret (r, if num t x =? 0 then RErr Underflow
         else ROk (if num t x =? radix t ^ Z.of_nat (length x - 1) then (length x - 1)%nat else length x)).
Proof. exact dec_outcome. Qed.
Print Assumptions C71_dec.
Example C71_dec_case : valid D8 [0; 0]
  /\ dec_assign (impl true D8) [0; 0] = Ret ([99; 99], RErr Underflow)
  /\ dec_assign (impl true D8) [0; 1] = Ret ([99; 0], ROk 1%nat).
Proof. fact. Qed.

Theorem C71_add_digit : forall dbg t x d, valid t x -> 0 <= d < radix t ->
  exists r, length r = length x /\ valid t r /\ num t r = (num t x + d) mod radix t ^ Z.of_nat (length x)
    /\ add_assign_digit (impl dbg t) x d = Ret (r, let k := (num t x + d) / radix t ^ Z.of_nat (length x) in if k =? 0 then None else Some k).
Proof. exact add_digit_outcome. Qed.
Print Assumptions C71_add_digit.
Example C71_add_digit_case : valid D8 [60; 99]
  /\ 0 <= 41 < radix D8
  /\ add_assign_digit (impl true D8) [60; 99] 41 = Ret ([1; 0], Some 1)
  /\ add_assign_digit (impl true D8) [] 41 = Ret ([], Some 41).
Proof. fact. Qed.

Theorem C71_sub_digit : forall dbg t x d, valid t x -> 0 <= d < radix t ->
  exists r, length r = length x /\ valid t r /\ num t r = (num t x - d) mod radix t ^ Z.of_nat (length x)
    /\ sub_assign_digit (impl dbg t) x d = Ret (r, if num t x <? d then RErr Underflow
         else ROk (if ((num t x mod radix t <? d) && (num t x / radix t =? radix t ^ (Z.of_nat (length x) - 2)))%bool
                   then (length x - 1)%nat else length x)).
Proof. exact sub_digit_outcome. Qed.
Print Assumptions C71_sub_digit.
Example C71_sub_digit_case : valid D8 [5; 0]
  /\ 0 <= 6 < radix D8
  /\ sub_assign_digit (impl true D8) [5; 0] 6 = Ret ([99; 99], RErr Underflow)
  /\ sub_assign_digit (impl true D8) [5; 1] 6 = Ret ([99; 0], ROk 1%nat)
  /\ sub_assign_digit (impl true D8) [5; 0; 1] 5 = Ret ([0; 0; 1], ROk 3%nat).
Proof. fact. Qed.

Theorem C71_add_big : forall dbg t x y, valid t x -> valid t y -> (length y <= length x)%nat ->
  exists r, add_assign_big (impl dbg t) x y = Ret (r, radix t ^ Z.of_nat (length x) <=? num t x + num t y) /\ length r = length x /\ valid t r
    /\ num t r = (num t x + num t y) mod radix t ^ Z.of_nat (length x).
Proof. exact add_big_wraps. Qed.
Print Assumptions C71_add_big.
Example C71_add_big_case : valid B8 [250; 255]
  /\ valid B8 [10]
  /\ add_assign_big (impl true B8) [250; 255] [10] = Ret ([4; 0], true).
Proof. fact. Qed.

Theorem C71_sub_big : forall dbg t x y, valid t x -> valid t y -> (length y <= length x)%nat ->
  exists r, length r = length x /\ valid t r /\ num t r = (num t x - num t y) mod radix t ^ Z.of_nat (length x)
    /\ sub_assign_big (impl dbg t) x y = Ret (r, if num t x <? num t y then RErr Underflow
         else ROk (left_over (radix t) (length x) (num t x) (length y) (num t y))).
Proof. exact sub_big_outcome. Qed.
Print Assumptions C71_sub_big.
Example C71_sub_big_case : valid B8 [1; 0; 2]
  /\ valid B8 [2; 0; 2]
  /\ sub_assign_big (impl true B8) [1; 0; 2] [2; 0; 2] = Ret ([255; 255; 255], RErr Underflow)
  /\ sub_assign_big (impl true B8) [0; 0; 1] [255; 255] = Ret ([1; 0; 0], ROk 2%nat).
Proof. fact. Qed.

Theorem C71_sub_into : forall dbg t x y s, valid t x -> valid t y -> (length y <= length x <= length s)%nat ->
  exists r, length r = length x /\ valid t r /\ num t r = (num t x - num t y) mod radix t ^ Z.of_nat (length x)
    /\ sub_big_into (impl dbg t) x y s = Ret (r ++ skipn (length x) s, if num t x <? num t y then RErr Underflow
         else ROk (left_over (radix t) (length x) (num t x) (length y) (num t y))).
Proof. exact sub_into_outcome. Qed.
Print Assumptions C71_sub_into.
Example C71_sub_into_case : valid B8 [1; 0]
  /\ valid B8 [2; 0]
  /\ sub_big_into (impl true B8) [1; 0] [2; 0] [7; 8; 9] = Ret ([255; 255; 9], RErr Underflow).
Proof. fact. Qed.

Theorem C71_add_into : forall dbg t x y s, valid t x -> valid t y ->
  let n := Nat.max (length x) (length y) in (n <= length s)%nat ->
  exists r, length r = n /\ valid t r /\ num t r = (num t x + num t y) mod radix t ^ Z.of_nat n
    /\ add_big_into (impl dbg t) x y s = Ret (
         if radix t ^ Z.of_nat n <=? num t x + num t y then
           if (length s =? n)%nat then (r, RErr NoSpace)
           else (r ++ 1 :: skipn (n + 1) s, ROk (n + 1)%nat)
         else (r ++ skipn n s, ROk n)).
Proof. exact add_into_outcome. Qed.
Print Assumptions C71_add_into.
Example C71_add_into_case : valid B8 [250; 255]
  /\ valid B8 [10]
  /\ add_big_into (impl true B8) [10] [250; 255] [7; 8] = Ret ([4; 0], RErr NoSpace)
  /\ add_big_into (impl true B8) [10] [250; 255] [7; 8; 9; 3] = Ret ([4; 0; 1; 3], ROk 3%nat).
Proof. fact. Qed.

Theorem C71_rsub : forall dbg t x y, valid t x -> valid t y -> length y = length x ->
  exists r, length r = length x /\ valid t r /\ num t r = (num t y - num t x) mod radix t ^ Z.of_nat (length x)
    /\ rsub_assign_big (impl dbg t) x y = Ret (r, if num t y <? num t x then RErr Underflow else ROk (places (radix t) (num t y - num t x))).
Proof. exact rsub_outcome. Qed.
Print Assumptions C71_rsub.
Example C71_rsub_case : valid B8 [5; 1]
  /\ valid B8 [4; 1]
  /\ rsub_assign_big (impl true B8) [5; 1] [4; 1] = Ret ([255; 255], RErr Underflow)
  /\ rsub_assign_big (impl true B8) [4; 1] [5; 1] = Ret ([1; 0], ROk 1%nat).
Proof. fact. Qed.

(** A routine is undone by its inverse on the digits it left, after a failure too: every
    digit of the buffer is back, and the inverse reports a carry or a borrow exactly when
    the first routine did. *)
Theorem C71_inc_undone : forall dbg t x, valid t x ->
  exists r c res, inc_assign (impl dbg t) x = Ret (r, c) /\ dec_assign (impl dbg t) r = Ret (x, res) /\ (c = true <-> res = RErr Underflow).
Proof. exact inc_undone. Qed.
Print Assumptions C71_inc_undone.
Example C71_inc_undone_case : valid D8 [99; 99]
  /\ inc_assign (impl true D8) [99; 99] = Ret ([0; 0], true)
  /\ dec_assign (impl true D8) [0; 0] = Ret ([99; 99], RErr Underflow).
Proof. fact. Qed.

Theorem C71_dec_undone : forall dbg t x, valid t x ->
  exists r c res, dec_assign (impl dbg t) x = Ret (r, res) /\ inc_assign (impl dbg t) r = Ret (x, c) /\ (c = true <-> res = RErr Underflow).
Proof. exact dec_undone. Qed.
Print Assumptions C71_dec_undone.
Example C71_dec_undone_case : valid D8 [0; 0]
  /\ dec_assign (impl true D8) [0; 0] = Ret ([99; 99], RErr Underflow)
  /\ inc_assign (impl true D8) [99; 99] = Ret ([0; 0], true).
Proof. fact. Qed.

Theorem C71_add_undone : forall dbg t x y, valid t x -> valid t y -> (length y <= length x)%nat ->
  exists r c res, add_assign_big (impl dbg t) x y = Ret (r, c) /\ sub_assign_big (impl dbg t) r y = Ret (x, res)
    /\ (c = true <-> res = RErr Underflow).
Proof. exact add_undone. Qed.
Print Assumptions C71_add_undone.
Example C71_add_undone_case : valid B8 [250; 255]
  /\ valid B8 [10]
  /\ add_assign_big (impl true B8) [250; 255] [10] = Ret ([4; 0], true)
  /\ sub_assign_big (impl true B8) [4; 0] [10] = Ret ([250; 255], RErr Underflow).
Proof. fact. Qed.

Theorem C71_sub_undone : forall dbg t x y, valid t x -> valid t y -> (length y <= length x)%nat ->
  exists r c res, sub_assign_big (impl dbg t) x y = Ret (r, res) /\ add_assign_big (impl dbg t) r y = Ret (x, c)
    /\ (c = true <-> res = RErr Underflow).
Proof. exact sub_undone. Qed.
Print Assumptions C71_sub_undone.
Example C71_sub_undone_case : valid B8 [1; 0; 2]
  /\ valid B8 [2; 0; 2]
  /\ sub_assign_big (impl true B8) [1; 0; 2] [2; 0; 2] = Ret ([255; 255; 255], RErr Underflow)
  /\ add_assign_big (impl true B8) [255; 255; 255] [2; 0; 2] = Ret ([1; 0; 2], true).
Proof. fact. Qed.

Theorem C71_rsub_undone : forall dbg t x y, valid t x -> valid t y -> length y = length x ->
  exists r res res', rsub_assign_big (impl dbg t) x y = Ret (r, res) /\ rsub_assign_big (impl dbg t) r y = Ret (x, res')
    /\ (res = RErr Underflow <-> res' = RErr Underflow).
Proof. exact rsub_undone. Qed.
Print Assumptions C71_rsub_undone.
Example C71_rsub_undone_case : valid B8 [5; 1]
  /\ valid B8 [4; 1]
  /\ rsub_assign_big (impl true B8) [5; 1] [4; 1] = Ret ([255; 255], RErr Underflow)
  /\ rsub_assign_big (impl true B8) [255; 255] [4; 1] = Ret ([5; 1], RErr Underflow).
Proof. fact. Qed.

(** The order of the terms of a sum does not matter, not even for what a sum that does
    not fit leaves in the output. *)
Theorem C71_add_into_comm : forall dbg t x y s, valid t x -> valid t y -> add_big_into (impl dbg t) x y s = add_big_into (impl dbg t) y x s.
Proof. exact add_into_comm. Qed.
Print Assumptions C71_add_into_comm.
Example C71_add_into_comm_case : valid B8 [250; 255]
  /\ valid B8 [10]
  /\ add_big_into (impl true B8) [250; 255] [10] [7; 8] = Ret ([4; 0], RErr NoSpace)
  /\ add_big_into (impl true B8) [10] [250; 255] [7; 8] = Ret ([4; 0], RErr NoSpace).
Proof. fact. Qed.

(** Input that is refused at entry leaves every buffer as it was. *)
Theorem C71_refused : forall dbg t x y s w, ((length x < length y)%nat -> sub_assign_big (impl dbg t) x y = Ret (x, RErr Underflow))
  /\ ((length s < length x)%nat -> sub_big_into (impl dbg t) x y s = Ret (s, RErr NoSpace))
  /\ ((length x <= length s)%nat -> (length x < length y)%nat -> sub_big_into (impl dbg t) x y s = Ret (s, RErr Underflow))
  /\ ((length s < Nat.max (length x) (length y))%nat -> add_big_into (impl dbg t) x y s = Ret (s, RErr NoSpace))
  /\ div_assign_digit (impl dbg t) x 0 = Ret (x, RErr DivisionByZero)
  /\ div_assign_digit_pair (impl dbg t) x 0 0 = Ret (x, RErr DivisionByZero)
  /\ div_big_with_work (impl dbg t) x [] s w = Ret (x, s, w, RErr DivisionByZero).
Proof. exact refused. Qed.
Print Assumptions C71_refused.
Example C71_refused_case : sub_assign_big (impl true B8) [9] [1; 0] = Ret ([9], RErr Underflow)
  /\ add_big_into (impl true B8) [1; 2; 3] [1] [7; 7] = Ret ([7; 7], RErr NoSpace)
  /\ div_big_with_work (impl true B8) [1; 2; 3] [] [7; 7] [8] = Ret ([1; 2; 3], [7; 7], [8], RErr DivisionByZero).
Proof. fact. Qed.

