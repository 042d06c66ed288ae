(** * Properties C08-C10: subtraction. *)
From Coq Require Import ZArith List Bool.
From Verif Require Import Base Digit Slice Mul Div UBig Spec Cases ClaimsBasic SubExact.
Import ListNotations.
Open Scope Z_scope.

Theorem C08_sub : forall dbg t x y, valid t x -> well_formed t y ->
  (num t x < num t y -> sub_assign (impl dbg t) x y = Panic (PExplicit Underflow))
  /\ (num t y <= num t x -> exists r, sub_assign (impl dbg t) x y = Ret r /\ valid t r
        /\ num t r = num t x - num t y).
Proof. exact sub_claim. Qed.
Print Assumptions C08_sub.
Example C08_case : valid D8 [0; 0; 1] /\ well_formed D8 [1] /\ well_formed D8 [1; 0; 1]
  /\ sub_assign (impl true D8) [0; 0; 1] [1] = Ret [99; 99]
  /\ sub_assign (impl true D8) [0; 0; 1] [1; 0; 1] = Panic (PExplicit Underflow).
Proof. fact. Qed.

(** Full statement: the difference of normalised numbers is normalised.  False:
    0x10000 - 0xffff gives the digits [1; 0]. *)
Theorem C09_refuted : exists t x y r, well_formed t x /\ well_formed t y
  /\ num t y <= num t x /\ sub_assign (impl true t) x y = Ret r /\ ~ normal r.
Proof. exists B8, [0; 0; 1], [255; 255], [1; 0]. fact. Qed.
Print Assumptions C09_refuted.

(** Missing: the case where [x] is longer than [y] by a single digit 1 and the
    borrow leaves a zero below it.  In every other case the result is normal, and in
    this case it never is. *)
Theorem C09_partial : forall dbg t x y r, well_formed t x -> well_formed t y ->
  sub_assign (impl dbg t) x y = Ret r ->
  (normal r <-> ~ (num t (skipn (length y) x) = 1 /\ num t r < radix t ^ (Z.of_nat (length y) - 1))).
Proof. exact sub_normal_iff_claim. Qed.
Print Assumptions C09_partial.
Example C09_case : well_formed B8 [0; 0; 2] /\ well_formed B8 [255; 255]
  /\ sub_assign (impl true B8) [0; 0; 2] [255; 255] = Ret [1; 0; 1]
  /\ num B8 (skipn 2 [0; 0; 2]) = 2.
Proof. fact. Qed.

(** Full statement: [x -= n] denotes the difference and is normalised.  False
    twice: 5 - 5 is the unnormalised [0], and a decimal [n] of two digits drops
    the top digit (304 - 204 gives 0). *)
Theorem C10_normal_refuted : exists t x n r, well_formed t x /\ storage t n /\ n <= num t x
  /\ sub_assign_T true t x n = Ret r /\ num t r = num t x - n /\ ~ normal r.
Proof. exists B8, [5], 5, [0]. fact. Qed.
Print Assumptions C10_normal_refuted.
Theorem C10_value_refuted : exists t x n r, well_formed t x /\ storage t n /\ n <= num t x
  /\ sub_assign_T true t x n = Ret r /\ num t r <> num t x - n.
Proof. exists D8, [4; 3], 204, [0]. fact. Qed.
Print Assumptions C10_value_refuted.
(** For decimal types it also panics with an index error instead of Underflow. *)
Theorem C10_panic_refuted : exists t x n, well_formed t x /\ storage t n /\ num t x < n
  /\ sub_assign_T true t x n = Panic PIndex.
Proof. exists D8, [], 200. fact. Qed.
Print Assumptions C10_panic_refuted.

(** Missing: decimal [n] of two digits.  For every [n] below the base (all [n]
    for binary types) the value and the panic condition are exact, and the
    result is normalised exactly when the difference is not zero or [n] is 0. *)
Theorem C10_partial : forall dbg t x n, well_formed t x -> storage t n -> n < radix t ->
  (num t x < n -> sub_assign_T dbg t x n = Panic (PExplicit Underflow))
  /\ (n <= num t x -> exists r, sub_assign_T dbg t x n = Ret r /\ valid t r
        /\ num t r = num t x - n /\ (normal r <-> n < num t x \/ n = 0)).
Proof. exact sub_T_claim. Qed.
Print Assumptions C10_partial.
Example C10_case : well_formed B8 [3; 1] /\ storage B8 4 /\ 4 < radix B8
  /\ sub_assign_T true B8 [3; 1] 4 = Ret [255]
  /\ sub_assign_T true B8 [3] 4 = Panic (PExplicit Underflow).
Proof. fact. Qed.

(** Missing: [n] below the base.  For a decimal [n] of two digits: which panic, and what
    is returned.  The top digit of the difference is always lost, so the value is right
    exactly if the difference is a single digit. *)
Theorem C10_two_digits_partial : forall dbg t x n, is_binary t = false ->
  well_formed t x -> storage t n -> radix t <= n ->
  (num t x < n -> sub_assign_T dbg t x n =
     Panic (if (Z.of_nat (length x) =? 0) && (n mod radix t =? 0) then PIndex else PExplicit Underflow))
  /\ (n <= num t x -> exists r, sub_assign_T dbg t x n = Ret r /\ valid t r
        /\ (num t r = num t x - n <-> num t x - n < radix t)
        /\ (forall k, 1 <= k -> radix t ^ k <= num t x - n < radix t ^ (k + 1) ->
              num t r = (num t x - n) mod radix t ^ k)).
Proof. exact sub_pair_explicit_claim. Qed.
Print Assumptions C10_two_digits_partial.
Example C10_two_digits_case : well_formed D8 [7; 2] /\ storage D8 204 /\ radix D8 <= 204
  /\ sub_assign_T true D8 [7; 2] 204 = Ret [3]
  /\ well_formed D8 [7; 2; 1] /\ 10 ^ 4 <= num D8 [7; 2; 1] - 204 < 10 ^ 6
  /\ sub_assign_T true D8 [7; 2; 1] 204 = Ret [3; 0]
  /\ sub_assign_T true D8 [1] 204 = Panic (PExplicit Underflow).
Proof. fact. Qed.
