(** * Properties C56-C63: the routines on digit slices. *)
From Coq Require Import ZArith List Bool.
From Verif Require Import Base Digit Slice Mul Div UBig Spec SpecMul SpecToom Cases SliceClaims OffsetProof.
Import ListNotations.
Open Scope Z_scope.

(** C56: addition.  The carry that is returned is what does not fit; nothing else
    changes.  [add_big_into] reports NoSpace exactly when the sum (or the longer
    operand) does not fit in the output. *)
Theorem C56_inc : forall dbg t x, valid t x ->
  exists r c, inc_assign (impl dbg t) x = Ret (r, c) /\ length r = length x /\ valid t r
    /\ num t r + radix t ^ Z.of_nat (length x) * Z.b2z c = num t x + 1.
Proof. exact inc_claim. Qed.
Print Assumptions C56_inc.
Example C56_inc_case : valid D8 [99; 99]
  /\ inc_assign (impl true D8) [99; 99] = Ret ([0; 0], true)
  /\ inc_assign (impl true D8) [99; 98] = Ret ([0; 99], false).
Proof. fact. Qed.

Theorem C56_add_digit : forall dbg t x d, valid t x -> 0 <= d < radix t ->
  exists r c, add_assign_digit (impl dbg t) x d = Ret (r, c) /\ length r = length x /\ valid t r
    /\ match c with
       | None => num t r = num t x + d
       | Some k => 0 < k < radix t /\ num t r + radix t ^ Z.of_nat (length x) * k = num t x + d
       end.
Proof. exact add_digit_claim. Qed.
Print Assumptions C56_add_digit.
Example C56_add_digit_case : valid D8 [99; 99] /\ 0 <= 7 < radix D8
  /\ add_assign_digit (impl true D8) [99; 99] 7 = Ret ([6; 0], Some 1)
  /\ add_assign_digit (impl true D8) [] 7 = Ret ([], Some 7).
Proof. fact. Qed.

Theorem C56_add_big : forall dbg t x y, valid t x -> valid t y ->
  if (length y <=? length x)%nat then
    exists r c, add_assign_big (impl dbg t) x y = Ret (r, c) /\ length r = length x /\ valid t r
      /\ num t r + radix t ^ Z.of_nat (length x) * Z.b2z c = num t x + num t y
  else add_assign_big (impl dbg t) x y = Panic PAssert.
Proof. exact add_big_claim. Qed.
Print Assumptions C56_add_big.
Example C56_add_big_case : valid D8 [50; 99; 99] /\ valid D8 [60]
  /\ add_assign_big (impl true D8) [50; 99; 99] [60] = Ret ([10; 0; 0], true)
  /\ add_assign_big (impl true D8) [60] [50; 99; 99] = Panic PAssert.
Proof. fact. Qed.

Theorem C56_add_into : forall dbg t x y s, valid t x -> valid t y -> valid t s ->
  let n := Nat.max (length x) (length y) in
  exists r res, add_big_into (impl dbg t) x y s = Ret (r, res) /\ length r = length s /\ valid t r
    /\ if ((length s <? n)%nat || (radix t ^ Z.of_nat (length s) <=? num t x + num t y))%bool
       then res = RErr NoSpace
       else let m := if num t x + num t y <? radix t ^ Z.of_nat n then n else S n in
            res = ROk m /\ num t (firstn m r) = num t x + num t y /\ skipn m r = skipn m s.
Proof. exact add_into_claim. Qed.
Print Assumptions C56_add_into.
Example C56_add_into_case : valid D8 [50; 99] /\ valid D8 [60] /\ valid D8 [1; 2; 3; 4]
  /\ add_big_into (impl true D8) [50; 99] [60] [1; 2; 3; 4] = Ret ([10; 0; 1; 4], ROk 3%nat)
  /\ add_big_into (impl true D8) [50; 99] [60] [1; 2] = Ret ([10; 0], RErr NoSpace).
Proof. fact. Qed.

(** C57: subtraction *)
Theorem C57_dec : forall dbg t x, valid t x ->
  exists r res, dec_assign (impl dbg t) x = Ret (r, res) /\ length r = length x /\ valid t r
    /\ if num t x =? 0 then res = RErr Underflow
       else exists n, res = ROk n /\ num t r = num t x - 1 /\ (n <= length x)%nat
            /\ num t (firstn n r) = num t x - 1
            /\ n = if num t x =? radix t ^ Z.of_nat (length x - 1) then (length x - 1)%nat else length x.
Proof. exact dec_claim. Qed.
Print Assumptions C57_dec.
Example C57_dec_case : valid D8 [0; 0; 1] /\ dec_assign (impl true D8) [0; 0; 1] = Ret ([99; 99; 0], ROk 2%nat)
  /\ dec_assign (impl true D8) [0; 0] = Ret ([99; 99], RErr Underflow).
Proof. fact. Qed.

Theorem C57_sub_digit : forall dbg t x d, valid t x -> 0 <= d < radix t ->
  exists r res, sub_assign_digit (impl dbg t) x d = Ret (r, res) /\ length r = length x /\ valid t r
    /\ if num t x <? d then res = RErr Underflow
       else exists n, res = ROk n /\ num t r = num t x - d /\ (n <= length x)%nat
            /\ num t (firstn n r) = num t x - d.
Proof. exact sub_digit_claim. Qed.
Print Assumptions C57_sub_digit.
Example C57_sub_digit_case : valid D8 [5; 0; 3] /\ 0 <= 6 < radix D8
  /\ sub_assign_digit (impl true D8) [5; 0; 3] 6 = Ret ([99; 99; 2], ROk 3%nat)
  /\ sub_assign_digit (impl true D8) [5; 0] 6 = Ret ([99; 99], RErr Underflow).
Proof. fact. Qed.

Theorem C57_sub_big : forall dbg t x y, valid t x -> valid t y ->
  exists r res, sub_assign_big (impl dbg t) x y = Ret (r, res) /\ length r = length x /\ valid t r
    /\ if ((length x <? length y)%nat || (num t x <? num t y))%bool then res = RErr Underflow
       else exists n, res = ROk n /\ num t r = num t x - num t y /\ (n <= length x)%nat
            /\ num t (firstn n r) = num t x - num t y.
Proof. exact sub_big_claim. Qed.
Print Assumptions C57_sub_big.
Example C57_sub_big_case : valid B8 [1; 2; 3] /\ valid B8 [2; 2]
  /\ sub_assign_big (impl true B8) [1; 2; 3] [2; 2] = Ret ([255; 255; 2], ROk 3%nat)
  /\ sub_assign_big (impl true B8) [1; 2] [2; 2] = Ret ([255; 255], RErr Underflow)
  /\ sub_assign_big (impl true B8) [9] [1; 0] = Ret ([9], RErr Underflow).
Proof. fact. Qed.

Theorem C57_sub_into : forall dbg t x y s, valid t x -> valid t y -> valid t s ->
  exists r res, sub_big_into (impl dbg t) x y s = Ret (r, res) /\ length r = length s /\ valid t r
    /\ if (length s <? length x)%nat then res = RErr NoSpace
       else if ((length x <? length y)%nat || (num t x <? num t y))%bool then res = RErr Underflow
       else exists n, res = ROk n /\ (n <= length x)%nat /\ num t (firstn n r) = num t x - num t y
            /\ num t (firstn (length x) r) = num t x - num t y
            /\ skipn (length x) r = skipn (length x) s
            /\ n = left_over (radix t) (length x) (num t x) (length y) (num t y).
Proof. exact sub_into_claim. Qed.
Print Assumptions C57_sub_into.
Example C57_sub_into_case : valid B8 [1; 2; 3] /\ valid B8 [1; 2; 2] /\ valid B8 [7; 7; 7; 7]
  /\ sub_big_into (impl true B8) [1; 2; 3] [1; 2; 2] [7; 7; 7; 7] = Ret ([0; 0; 1; 7], ROk 3%nat)
  /\ sub_big_into (impl true B8) [1; 2; 3] [0; 2; 3] [7; 7; 7; 7] = Ret ([1; 0; 0; 7], ROk 1%nat)
  /\ sub_big_into (impl true B8) [1; 2; 3] [1] [7; 7] = Ret ([7; 7], RErr NoSpace).
Proof. fact. Qed.

Theorem C57_rsub : forall dbg t x y, valid t x -> valid t y ->
  if (length y =? length x)%nat then
    exists r res, rsub_assign_big (impl dbg t) x y = Ret (r, res) /\ length r = length x /\ valid t r
      /\ if num t y <? num t x then res = RErr Underflow
         else exists n, res = ROk n /\ num t r = num t y - num t x /\ (n <= length x)%nat
              /\ num t (firstn n r) = num t y - num t x /\ normal (firstn n r)
  else rsub_assign_big (impl dbg t) x y = Panic PAssert.
Proof. exact rsub_claim. Qed.
Print Assumptions C57_rsub.
Example C57_rsub_case : valid B8 [1; 2; 3] /\ valid B8 [0; 3; 3]
  /\ rsub_assign_big (impl true B8) [1; 2; 3] [0; 3; 3] = Ret ([255; 0; 0], ROk 1%nat)
  /\ rsub_assign_big (impl true B8) [0; 3; 3] [1; 2; 3] = Ret ([1; 255; 255], RErr Underflow).
Proof. fact. Qed.

(** C58, full statement: the count returned by a successful slice subtraction is the
    number of digits of the difference.  False. *)
Theorem C58_refuted : forall dbg t, exists x y r n, well_formed t x /\ well_formed t y
  /\ sub_assign_big (impl dbg t) x y = Ret (r, ROk n) /\ ~ normal (firstn n r).
Proof.
  intros dbg t. exists [0; 0; 1], [radix t - 1; radix t - 1], [1; 0; 0], 2%nat.
  destruct dbg, t; (split; [fact|split; [fact|split; [fact|apply not_normal_b; fact]]]).
Qed.
Print Assumptions C58_refuted.
Theorem C58_digit_refuted : forall dbg t, exists x d r n, well_formed t x /\ 0 <= d < radix t
  /\ sub_assign_digit (impl dbg t) x d = Ret (r, ROk n) /\ ~ normal (firstn n r).
Proof.
  intros dbg t. exists [5], 5, [0], 1%nat.
  destruct dbg, t; (split; [fact|split; [fact|split; [fact|apply not_normal_b; fact]]]).
Qed.
Print Assumptions C58_digit_refuted.
(** The count is exactly [left_over]: right unless the subtraction borrows from the
    digits above the second operand, and then right when these are not 1 followed by
    zeros. *)
Theorem C58_count_partial : forall dbg t x y r n, valid t x -> valid t y ->
  sub_assign_big (impl dbg t) x y = Ret (r, ROk n) ->
  n = left_over (radix t) (length x) (num t x) (length y) (num t y)
  /\ (normal (firstn n r) <-> n = places (radix t) (num t x - num t y)).
Proof. exact sub_count_claim. Qed.
Print Assumptions C58_count_partial.
Theorem C58_normal_partial : forall dbg t x y r n, well_formed t x -> valid t y ->
  sub_assign_big (impl dbg t) x y = Ret (r, ROk n) -> ~ normal (firstn n r) ->
  lower (radix t) (num t x) (length y) < num t y
  /\ upper (radix t) (num t x) (length y) = radix t ^ Z.of_nat (length x - length y - 1).
Proof. exact sub_count_normal. Qed.
Print Assumptions C58_normal_partial.
Example C58_case : well_formed B8 [0; 0; 1] /\ valid B8 [255; 255]
  /\ sub_assign_big (impl true B8) [0; 0; 1] [255; 255] = Ret ([1; 0; 0], ROk 2%nat)
  /\ ~ normal (firstn 2 [1; 0; 0])
  /\ left_over 256 3 65536 2 65535 = 2%nat /\ places 256 (65536 - 65535) = 1%nat.
Proof. split; [fact|]. split; [fact|]. split; [fact|]. split; [apply not_normal_b; fact|]. fact. Qed.

(** C59, full statement: sub_big_into_abs_sign and sub_assign_big_abs_sign give the
    absolute value of the difference and its sign.  False for slices with leading
    zeros, and in place when digits above the length are not zero. *)
Theorem C59_refuted : forall dbg t, exists x y s, valid t x /\ valid t y /\ valid t s
  /\ (Nat.max (length x) (length y) <= length s)%nat
  /\ sub_big_into_abs_sign (impl dbg t) x y s = Panic (PUnwrap Underflow).
Proof.
  intros dbg t. exists [5], [4; 0], [0; 0]. destruct dbg, t; (split; [fact|split; [fact|split; [fact|split; [cbn; auto|fact]]]]).
Qed.
Print Assumptions C59_refuted.
Theorem C59_dirty_refuted : forall dbg t, exists l k y r s n, valid t l /\ well_formed t (firstn k l)
  /\ well_formed t y /\ (k <= length l)%nat /\ (length y <= length l)%nat
  /\ sub_assign_big_abs_sign (impl dbg t) l k y = Ret (r, (s, n))
  /\ num t (firstn n r) <> Z.abs (num t (firstn k l) - num t y).
Proof.
  intros dbg t. exists [5; 7], 1%nat, [6; 8], [1; 1], true, 2%nat.
  destruct dbg, t; (repeat (split; [solve [fact|cbn; auto]|]); vm_compute; discriminate).
Qed.
Print Assumptions C59_dirty_refuted.
(** Exactly what happens: the operand with more digits is taken to be the larger one
    (equal counts: the larger value); the routine stops exactly when it is not. *)
Theorem C59_into_partial : forall dbg t x y s, valid t x -> valid t y -> valid t s ->
  (Nat.max (length x) (length y) <= length s)%nat ->
  let lt := precedes (length x) (num t x) (length y) (num t y) in
  let '(a, b) := if lt then (y, x) else (x, y) in
  if num t a <? num t b then sub_big_into_abs_sign (impl dbg t) x y s = Panic (PUnwrap Underflow)
  else exists r n, sub_big_into_abs_sign (impl dbg t) x y s = Ret (r, (lt, n))
    /\ length r = length s /\ valid t r /\ num t (firstn n r) = num t a - num t b
    /\ n = left_over (radix t) (length a) (num t a) (length b) (num t b) /\ (n <= length a)%nat
    /\ num t (firstn (length a) r) = num t a - num t b
    /\ skipn (length a) r = skipn (length a) s.
Proof. exact abs_into_claim. Qed.
Print Assumptions C59_into_partial.
Example C59_into_case : valid D8 [3; 1] /\ valid D8 [7; 4] /\ valid D8 [8; 8; 8]
  /\ sub_big_into_abs_sign (impl true D8) [3; 1] [7; 4] [8; 8; 8] = Ret ([4; 3; 8], (true, 2%nat))
  /\ sub_big_into_abs_sign (impl true D8) [7; 4] [3; 1] [8; 8; 8] = Ret ([4; 3; 8], (false, 2%nat)).
Proof. fact. Qed.
Theorem C59_assign_partial : forall dbg t l k y, valid t l -> valid t y ->
  (k <= length l)%nat -> (length y <= length l)%nat ->
  let lt := precedes k (num t (firstn k l)) (length y) (num t y) in
  let m := if lt then length y else k in
  let d := if lt then num t y - num t (firstn m l) else num t (firstn m l) - num t y in
  if d <? 0 then sub_assign_big_abs_sign (impl dbg t) l k y = Panic (PUnwrap Underflow)
  else exists r n, sub_assign_big_abs_sign (impl dbg t) l k y = Ret (r, (lt, n))
    /\ length r = length l /\ valid t r /\ (n <= m)%nat /\ num t (firstn n r) = d
    /\ num t (firstn m r) = d /\ skipn m r = skipn m l
    /\ n = if lt then places (radix t) d
           else left_over (radix t) k (num t (firstn k l)) (length y) (num t y).
Proof. exact abs_assign_claim. Qed.
Print Assumptions C59_assign_partial.
Example C59_assign_case : valid D8 [3; 1; 0; 9] /\ valid D8 [7; 4; 1]
  /\ sub_assign_big_abs_sign (impl true D8) [3; 1; 0; 9] 2 [7; 4; 1] = Ret ([4; 3; 1; 9], (true, 3%nat))
  /\ sub_assign_big_abs_sign (impl true D8) [3; 1; 0; 9] 2 [4; 1] = Ret ([1; 0; 0; 9], (true, 1%nat)).
Proof. fact. Qed.
(** normalised operands: always right *)
Theorem C59_into_normal_partial : forall dbg t x y s, well_formed t x -> well_formed t y -> valid t s ->
  (Nat.max (length x) (length y) <= length s)%nat ->
  exists r n, sub_big_into_abs_sign (impl dbg t) x y s = Ret (r, (num t x <? num t y, n))
    /\ length r = length s /\ valid t r /\ (n <= Nat.max (length x) (length y))%nat
    /\ num t (firstn n r) = Z.abs (num t x - num t y)
    /\ skipn (Nat.max (length x) (length y)) r = skipn (Nat.max (length x) (length y)) s.
Proof. exact abs_into_normal. Qed.
Print Assumptions C59_into_normal_partial.
Theorem C59_assign_normal_partial : forall dbg t l k y, valid t l -> well_formed t (firstn k l) ->
  well_formed t y -> (k <= length l)%nat -> (length y <= length l)%nat ->
  num t (skipn k (firstn (length y) l)) = 0 ->
  let v := num t (firstn k l) in
  exists r n, sub_assign_big_abs_sign (impl dbg t) l k y = Ret (r, (v <? num t y, n))
    /\ length r = length l /\ valid t r /\ (n <= Nat.max k (length y))%nat
    /\ num t (firstn n r) = Z.abs (v - num t y)
    /\ skipn (Nat.max k (length y)) r = skipn (Nat.max k (length y)) l.
Proof. exact abs_assign_normal. Qed.
Print Assumptions C59_assign_normal_partial.
Example C59_normal_case : well_formed D8 [3; 1] /\ well_formed D8 [7; 4; 1]
  /\ well_formed D8 (firstn 2 [3; 1; 0; 9]) /\ num D8 (skipn 2 (firstn 3 [3; 1; 0; 9])) = 0
  /\ sub_big_into_abs_sign (impl true D8) [3; 1] [7; 4; 1] [8; 8; 8] = Ret ([4; 3; 1], (true, 3%nat)).
Proof. fact. Qed.

(** C60: shifts within a digit and doubling *)
Theorem C60_shl : forall dbg t x s c, valid t x -> 0 <= s -> 2 ^ s < radix t -> 0 <= c < 2 ^ s ->
  exists r c', shl_carry_assign_within_digit (impl dbg t) x s c = Ret (r, c')
    /\ length r = length x /\ valid t r /\ 0 <= c' < 2 ^ s
    /\ num t r + radix t ^ Z.of_nat (length x) * c' = num t x * 2 ^ s + c.
Proof. exact shl_claim. Qed.
Print Assumptions C60_shl.
Theorem C60_shr : forall dbg t x s c, valid t x -> 0 <= s -> 2 ^ s < radix t -> 0 <= c < 2 ^ s ->
  exists r n c', shr_carry_assign_within_digit (impl dbg t) x s c = Ret (r, (n, c'))
    /\ length r = length x /\ valid t r /\ 0 <= c' < 2 ^ s
    /\ num t r * 2 ^ s + c' = num t x + radix t ^ Z.of_nat (length x) * c
    /\ (n <= length x)%nat /\ num t (firstn n r) = num t r /\ normal (firstn n r).
Proof. exact shr_claim. Qed.
Print Assumptions C60_shr.
Theorem C60_double : forall dbg t x c, valid t x ->
  exists r c', double_carry_assign (impl dbg t) x c = Ret (r, c') /\ length r = length x /\ valid t r
    /\ num t r + radix t ^ Z.of_nat (length x) * Z.b2z c' = 2 * num t x + Z.b2z c.
Proof. exact double_claim. Qed.
Print Assumptions C60_double.
Example C60_case : valid D8 [50; 99] /\ 0 <= 3 /\ 2 ^ 3 < radix D8 /\ 0 <= 5 < 2 ^ 3
  /\ shl_carry_assign_within_digit (impl true D8) [50; 99] 3 5 = Ret ([5; 96], 7)
  /\ shr_carry_assign_within_digit (impl true D8) [50; 7] 3 0 = Ret ([93; 0], (1%nat, 6))
  /\ double_carry_assign (impl true D8) [50; 99] true = Ret ([1; 99], true).
Proof. fact. Qed.

(** C61: multiplication by one digit, by two digits, and digit by digit *)
Theorem C61_digit : forall dbg t x f o, valid t x -> 0 <= f < radix t -> 0 <= o < radix t ->
  exists r c, mul_add_assign_digit (impl dbg t) x f o = Ret (r, c) /\ length r = length x /\ valid t r
    /\ 0 <= c < radix t /\ num t r + radix t ^ Z.of_nat (length x) * c = num t x * f + o.
Proof. exact mul_digit_claim. Qed.
Print Assumptions C61_digit.
Theorem C61_digit_into : forall dbg t x f s, valid t x -> valid t s -> 0 <= f < radix t ->
  (length x < length s)%nat ->
  exists r, mul_digit_into (impl dbg t) x f s = Ret r /\ length r = length s /\ valid t r
    /\ num t (firstn (S (length x)) r) = num t x * f
    /\ skipn (S (length x)) r = skipn (S (length x)) s.
Proof. exact mul_digit_into_claim. Qed.
Print Assumptions C61_digit_into.
Theorem C61_pair : forall dbg t x f g o, valid t x -> 0 <= f < radix t -> 0 <= g < radix t -> 0 <= o < radix t ->
  exists r c d, mul_pair_add_assign_digit (impl dbg t) x f g o = Ret (r, (c, d))
    /\ length r = length x /\ valid t r /\ 0 <= c < radix t /\ 0 <= d < radix t
    /\ num t r + radix t ^ Z.of_nat (length x) * (c + radix t * d) = num t x * (f + radix t * g) + o.
Proof. exact mul_pair_claim. Qed.
Print Assumptions C61_pair.
Theorem C61_long : forall dbg t x y s, valid t x -> valid t y -> valid t s ->
  (length x + length y <= length s)%nat ->
  exists r n, mul_big_long_into (impl dbg t) x y s = Ret (r, n) /\ length r = length s /\ valid t r
    /\ (n <= length x + length y)%nat /\ num t (firstn n r) = num t x * num t y /\ normal (firstn n r)
    /\ num t (firstn (length x + length y) r) = num t x * num t y
    /\ skipn (length x + length y) r = skipn (length x + length y) s.
Proof. exact mul_long_claim. Qed.
Print Assumptions C61_long.
Theorem C61_square : forall dbg t x s, valid t x -> valid t s -> (2 * length x <= length s)%nat ->
  exists r n, square_long_into (impl dbg t) x s = Ret (r, n) /\ length r = length s /\ valid t r
    /\ (n <= 2 * length x)%nat /\ num t (firstn n r) = num t x * num t x /\ normal (firstn n r)
    /\ num t (firstn (2 * length x) r) = num t x * num t x
    /\ skipn (2 * length x) r = skipn (2 * length x) s.
Proof. exact square_long_claim. Qed.
Print Assumptions C61_square.
Example C61_case : valid D8 [99; 99] /\ valid D8 [5; 5; 5; 5; 5]
  /\ mul_add_assign_digit (impl true D8) [99; 99] 99 98 = Ret ([99; 99], 98)
  /\ mul_digit_into (impl true D8) [99; 99] 99 [5; 5; 5; 5; 5] = Ret [1; 99; 98; 5; 5]
  /\ mul_pair_add_assign_digit (impl true D8) [99; 99] 99 99 98 = Ret ([99; 0], (98, 99))
  /\ mul_big_long_into (impl true D8) [99; 99] [99; 0] [5; 5; 5; 5; 5] = Ret ([1; 99; 98; 0; 5], 3%nat)
  /\ square_long_into (impl true D8) [99; 99] [5; 5; 5; 5; 5] = Ret ([1; 0; 98; 99; 5], 4%nat).
Proof. fact. Qed.

(** C62: division by one digit and by three *)
Theorem C62_rem : forall dbg t x f, valid t x -> 0 <= f < radix t ->
  rem_digit (impl dbg t) x f = Ret (if f =? 0 then RErr DivisionByZero else ROk (num t x mod f)).
Proof. exact rem_digit_claim. Qed.
Print Assumptions C62_rem.
Theorem C62_div : forall dbg t x f, valid t x -> 0 <= f < radix t ->
  if f =? 0 then div_assign_digit (impl dbg t) x f = Ret (x, RErr DivisionByZero)
  else exists r n, div_assign_digit (impl dbg t) x f = Ret (r, ROk (n, num t x mod f))
    /\ length r = length x /\ valid t r /\ num t r = num t x / f /\ (n <= length x)%nat
    /\ num t (firstn n r) = num t x / f /\ normal (firstn n r).
Proof. exact div_digit_claim. Qed.
Print Assumptions C62_div.
Theorem C62_div3 : forall dbg t x c, valid t x -> 0 <= c < 3 ->
  exists r n m, div3_carry_assign (impl dbg t) x c = Ret (r, (n, m)) /\ length r = length x /\ valid t r
    /\ 0 <= m < 3 /\ num t r * 3 + m = num t x + radix t ^ Z.of_nat (length x) * c
    /\ (n <= length x)%nat /\ num t (firstn n r) = num t r /\ normal (firstn n r).
Proof. exact div3_claim. Qed.
Print Assumptions C62_div3.
Example C62_case : valid D8 [50; 7] /\ 0 <= 8 < radix D8
  /\ rem_digit (impl true D8) [50; 7] 8 = Ret (ROk 6)
  /\ div_assign_digit (impl true D8) [50; 7] 8 = Ret ([93; 0], ROk (1%nat, 6))
  /\ div3_carry_assign (impl true D8) [50; 2] 0 = Ret ([83; 0], (1%nat, 1))
  /\ div3_carry_assign (impl true D8) [50; 2] 2 = Ret ([50; 67], (2%nat, 0)).
Proof. fact. Qed.

(** C63: addition at an offset is right; subtraction at an offset truncates to the
    number of digits of the upper part. *)
Theorem C63_add : forall dbg t x y o, valid t x -> valid t y ->
  exists r, add_assign_big_at_offset (impl dbg t) x y o = Ret r /\ valid t r
    /\ num t r = num t x + radix t ^ Z.of_nat o * num t y
    /\ length r = wide (radix t) (Nat.max (length x) (o + length y))
                    (num t x + radix t ^ Z.of_nat o * num t y).
Proof. exact add_at_length. Qed.
Print Assumptions C63_add.
(** Adding zero beyond the end leaves leading zeros, and nothing else does. *)
Theorem C63_add_normal : forall dbg t x y o, well_formed t x -> well_formed t y ->
  exists r, add_assign_big_at_offset (impl dbg t) x y o = Ret r /\ valid t r
    /\ num t r = num t x + radix t ^ Z.of_nat o * num t y
    /\ (normal r <-> y <> [] \/ (o <= length x)%nat).
Proof. exact add_at_normal. Qed.
Print Assumptions C63_add_normal.
Theorem C63_sub_refuted : forall dbg t, exists x y o r, well_formed t x /\ well_formed t y
  /\ radix t ^ Z.of_nat o * num t y <= num t x
  /\ sub_assign_big_at_offset (impl dbg t) x y o = Ret (r, ROk tt)
  /\ num t r <> num t x - radix t ^ Z.of_nat o * num t y.
Proof.
  intros dbg t. exists [7; 8; 9], [8], 1%nat, [7; 0].
  destruct dbg, t; (split; [fact|split; [fact|split; [vm_compute; discriminate|split; [fact|vm_compute; discriminate]]]]).
Qed.
Print Assumptions C63_sub_refuted.
Theorem C63_sub_partial : forall dbg t x y o, valid t x -> valid t y ->
  exists r res, sub_assign_big_at_offset (impl dbg t) x y o = Ret (r, res) /\ valid t r
    /\ if ((length x <? o + length y)%nat || (num t x <? radix t ^ Z.of_nat o * num t y))%bool
       then res = RErr Underflow
       else let n := left_over (radix t) (length x - o) (upper (radix t) (num t x) o) (length y) (num t y) in
            res = ROk tt /\ length r = n
            /\ num t r = (num t x - radix t ^ Z.of_nat o * num t y) mod radix t ^ Z.of_nat n.
Proof. exact sub_at_claim. Qed.
Print Assumptions C63_sub_partial.
Example C63_case : valid D8 [7; 8; 9] /\ valid D8 [8; 9]
  /\ add_assign_big_at_offset (impl true D8) [7; 8; 9] [8; 99] 1 = Ret [7; 16; 8; 1]
  /\ add_assign_big_at_offset (impl true D8) [7] [8; 99] 3 = Ret [7; 0; 0; 8; 99]
  /\ add_assign_big_at_offset (impl true D8) [7] [] 3 = Ret [7; 0; 0]
  /\ sub_assign_big_at_offset (impl true D8) [7; 8; 9] [8] 0 = Ret ([99; 7; 9], ROk tt)
  /\ sub_assign_big_at_offset (impl true D8) [7; 8; 9] [8] 1 = Ret ([7; 0], ROk tt)
  /\ sub_assign_big_at_offset (impl true D8) [7; 8; 9] [9; 9] 1 = Ret ([7; 99; 99], RErr Underflow).
Proof. fact. Qed.
