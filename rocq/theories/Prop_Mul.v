(** * Properties C12-C16, C21 (decimal), C34, C38, C39: multiplication, squaring, powers. *)
From Coq Require Import ZArith List Bool.
From Verif Require Import Base Digit Slice Mul Div UBig Spec WorkSize Cases Witness ClaimsMul.
From Verif Require ClaimsToom.
Import ListNotations.
Open Scope Z_scope.

Theorem C12_mul_short : forall dbg t x y, valid t x -> valid t y ->
  (length x < 20 \/ length y < 20)%nat ->
  exists r, mul_assign (impl dbg t) x y = Ret r /\ well_formed t r /\ num t r = num t x * num t y.
Proof. exact mul_short_claim. Qed.
Print Assumptions C12_mul_short.
Example C12_case : valid D16 [9999; 9999; 9999] /\ valid D16 [9999; 9999]
  /\ mul_assign (impl true D16) [9999; 9999; 9999] [9999; 9999] = Ret [1; 0; 9999; 9998; 9999].
Proof. fact. Qed.

Theorem C13_mul_value : forall dbg t x y r, valid t x -> valid t y ->
  mul_assign (impl dbg t) x y = Ret r -> well_formed t r /\ num t r = num t x * num t y.
Proof. exact mul_value_claim. Qed.
Print Assumptions C13_mul_value.
Example C13_case : let x := repeat 255 50 in valid B8 x
  /\ mul_assign (impl true B8) x x = Ret ([1] ++ zeros 49 ++ [254] ++ repeat 255 49).
Proof. fact. Qed.

(** Full statement of C14: multiplication returns for every pair of normalised
    numbers.  False: a 41-digit square panics inside Karatsuba. *)
Theorem C14_refuted : exists x, well_formed B8 x
  /\ mul_assign (impl true B8) x x = Panic (PUnwrap Underflow)
  /\ mul_assign (impl false B8) x x = Panic (PUnwrap Underflow)
  /\ square (impl true B8) x = Panic (PUnwrap Underflow).
Proof. exists kara_bad. fact. Qed.
Print Assumptions C14_refuted.
(** Missing: operands both of at least 20 digits, one of them longer than 40. *)
Theorem C14_partial : forall dbg t x y, well_formed t x -> well_formed t y ->
  (length x <= 40)%nat -> (length y <= 40)%nat ->
  exists r, mul_assign (impl dbg t) x y = Ret r /\ well_formed t r /\ num t r = num t x * num t y.
Proof. exact mul_mid_claim. Qed.
Print Assumptions C14_partial.
(** For the rest: one panic is possible and nothing else goes wrong. *)
Theorem C14_outcome : forall dbg t x y, valid t x -> valid t y ->
  (exists r, mul_assign (impl dbg t) x y = Ret r /\ well_formed t r /\ num t r = num t x * num t y)
  \/ mul_assign (impl dbg t) x y = Panic (PUnwrap Underflow).
Proof. exact ClaimsToom.mul_either_claim. Qed.
Print Assumptions C14_outcome.
Example C14_case : let x := repeat 99 40 in well_formed D8 x
  /\ mul_assign (impl true D8) x x = Ret ([1] ++ zeros 39 ++ [98] ++ repeat 99 39).
Proof. fact. Qed.

(** C15 beyond 1131 digits is false: see C15_refuted in Prop_SquareBig. *)
Theorem C15_partial : forall dbg t x r, valid t x -> (length x <= 1131)%nat ->
  square (impl dbg t) x = Ret r -> well_formed t r /\ num t r = num t x * num t x.
Proof. exact square_value_claim. Qed.
Print Assumptions C15_partial.
Theorem C15_equals_product_partial : forall dbg t x r s, valid t x -> (length x <= 1131)%nat ->
  square (impl dbg t) x = Ret r -> mul_assign (impl dbg t) x x = Ret s -> r = s.
Proof. exact square_mul_claim. Qed.
Print Assumptions C15_equals_product_partial.
Theorem C15_total_partial : forall dbg t x, valid t x ->
  (length x < 20)%nat \/ (normal x /\ (length x <= 40)%nat) ->
  exists r, square (impl dbg t) x = Ret r /\ well_formed t r /\ num t r = num t x * num t x.
Proof. exact square_total_claim. Qed.
Print Assumptions C15_total_partial.
Example C15_case : let x := repeat 255 30 in valid B8 x /\ (length x <= 1131)%nat
  /\ square (impl true B8) x = Ret ([1] ++ zeros 29 ++ [254] ++ repeat 255 29).
Proof. cbv zeta. split; [fact|]. split; [apply Nat.leb_le; vm_compute; reflexivity|fact]. Qed.

(** Missing: powers in which a factor of more than 1131 digits is squared
    (there squaring itself may be wrong, C15_refuted). *)
Theorem C16_partial : forall dbg t x e r, well_formed t x ->
  num t x ^ Z.of_N (e / 2) < radix t ^ 1131 ->
  pow (impl dbg t) x e = Ret r -> well_formed t r /\ num t r = num t x ^ Z.of_N e.
Proof. exact pow_value_claim. Qed.
Print Assumptions C16_partial.
Theorem C16_total_partial : forall dbg t x e, well_formed t x ->
  num t x ^ Z.of_N e < radix t ^ 40 ->
  exists r, pow (impl dbg t) x e = Ret r /\ well_formed t r /\ num t r = num t x ^ Z.of_N e.
Proof. exact pow_total_claim. Qed.
Print Assumptions C16_total_partial.
Example C16_case : well_formed D8 [7; 3] /\ num D8 [7; 3] ^ Z.of_N 13 < radix D8 ^ 40
  /\ pow (impl true D8) [7; 3] 13 = Ret [7; 43; 95; 22; 49; 13; 71; 56; 2; 88; 66; 70; 2; 85; 17; 15; 2]
  /\ num D8 [7; 43; 95; 22; 49; 13; 71; 56; 2; 88; 66; 70; 2; 85; 17; 15; 2] = 307 ^ 13
  /\ pow (impl true B16) [] 0 = Ret [1].
Proof. fact. Qed.

(** Decimal left shifts (C21).  Missing: shifts whose scale factor 2^n needs a
    square of more than 1131 digits. *)
Theorem C21_shl_decimal_partial : forall dbg t x n r, is_binary t = false -> valid t x -> 0 <= n ->
  2 ^ (n / 2) < radix t ^ 1131 -> shl_assign dbg t x n = Ret r ->
  valid t r /\ num t r = num t x * 2 ^ n /\ (normal x -> normal r).
Proof. exact shl_dec_value_claim. Qed.
Print Assumptions C21_shl_decimal_partial.
Theorem C21_shl_decimal_total_partial : forall dbg t x n, is_binary t = false -> valid t x -> 0 <= n ->
  2 ^ n < radix t ^ 40 ->
  2 ^ n < radix t ^ 19 \/ (length x < 20)%nat \/ (normal x /\ (length x <= 40)%nat) ->
  exists r, shl_assign dbg t x n = Ret r /\ valid t r /\ num t r = num t x * 2 ^ n
    /\ (normal x -> normal r).
Proof. exact shl_dec_total_claim. Qed.
Print Assumptions C21_shl_decimal_total_partial.
Example C21_decimal_case : is_binary D8 = false /\ valid D8 [1; 1] /\ 2 ^ 20 < radix D8 ^ 19
  /\ shl_assign true D8 [1; 1] 20 = Ret [76; 61; 90; 5; 1] /\ 101 * 2 ^ 20 = 105906176.
Proof. fact. Qed.

(** C34: laws of multiplication, for products that return. *)
Theorem C34_comm : forall dbg t x y a b, valid t x -> valid t y ->
  mul_assign (impl dbg t) x y = Ret a -> mul_assign (impl dbg t) y x = Ret b -> ubig_eqb a b = true.
Proof. exact mul_comm_claim. Qed.
Print Assumptions C34_comm.
Theorem C34_assoc : forall dbg t x y z xy a yz b, valid t x -> valid t y -> valid t z ->
  mul_assign (impl dbg t) x y = Ret xy -> mul_assign (impl dbg t) xy z = Ret a ->
  mul_assign (impl dbg t) y z = Ret yz -> mul_assign (impl dbg t) x yz = Ret b -> ubig_eqb a b = true.
Proof. exact mul_assoc_claim. Qed.
Print Assumptions C34_assoc.
Theorem C34_distr : forall dbg t x y z yz a xy xz b,
  well_formed t x -> well_formed t y -> well_formed t z ->
  add_assign (impl dbg t) y z = Ret yz -> mul_assign (impl dbg t) x yz = Ret a ->
  mul_assign (impl dbg t) x y = Ret xy -> mul_assign (impl dbg t) x z = Ret xz ->
  add_assign (impl dbg t) xy xz = Ret b -> ubig_eqb a b = true.
Proof. exact mul_distr_claim. Qed.
Print Assumptions C34_distr.
Theorem C34_one : forall dbg t x, well_formed t x ->
  exists a b, mul_assign (impl dbg t) x ubig_one = Ret a /\ mul_assign (impl dbg t) ubig_one x = Ret b
    /\ ubig_eqb a x = true /\ ubig_eqb b x = true.
Proof. exact mul_one_claim. Qed.
Print Assumptions C34_one.
Theorem C34_zero : forall dbg t x,
  mul_assign (impl dbg t) x ubig_zero = Ret ubig_zero
  /\ mul_assign (impl dbg t) ubig_zero x = Ret ubig_zero.
Proof. exact mul_zero_claim. Qed.
Print Assumptions C34_zero.
Example C34_case : well_formed B8 [3; 1] /\ well_formed B8 [200] /\ well_formed B8 [9; 9; 9]
  /\ mul_assign (impl true B8) [3; 1] [200] = Ret [88; 202]
  /\ mul_assign (impl true B8) [88; 202] [9; 9; 9] = Ret [24; 53; 60; 36; 7]
  /\ mul_assign (impl true B8) [200] [9; 9; 9] = Ret [8; 15; 15; 7]
  /\ mul_assign (impl true B8) [3; 1] [8; 15; 15; 7] = Ret [24; 53; 60; 36; 7].
Proof. fact. Qed.

(** C39: the product does not depend on the contents of the buffers. *)
Theorem C39_mul_scratch : forall dbg t x y out work out' work' r, valid t x -> valid t y ->
  valid t out -> valid t work -> valid t out' -> valid t work' ->
  (length x + length y <= length out)%nat -> (length x + length y <= length out')%nat ->
  (need (length x) (length y) <= length work)%nat -> (need (length x) (length y) <= length work')%nat ->
  mul_big_into_with_work (impl dbg t) x y out work = Ret r ->
  forall r', mul_big_into_with_work (impl dbg t) x y out' work' = Ret r' ->
  firstn (snd r) (fst (fst r)) = firstn (snd r') (fst (fst r')).
Proof. exact work_indep_claim. Qed.
Print Assumptions C39_mul_scratch.
(** For squaring it is false: Toom-3 squaring reads its result buffer before
    clearing it. *)
Theorem C39_square_refuted : exists x out out' work, well_formed B8 x /\ valid B8 out /\ valid B8 out'
  /\ exists r r', square_with_work true B8 x out work = Ret r
       /\ square_with_work true B8 x out' work = Ret r' /\ num B8 r <> num B8 r'.
Proof.
  exists toom_dirty, (zeros 256), (repeat 1 256), (zeros (calc_toom3_work_size 128)).
  repeat (split; [fact|]). apply dirty_ok. fact.
Qed.
Print Assumptions C39_square_refuted.
