(** * Properties C17 (two-digit divisors), C18, C19, C20: division of big numbers. *)
From Coq Require Import ZArith List Bool.
From Verif Require Import Base Digit Slice Mul Div UBig Spec SpecDiv Cases ClaimsDiv.
Import ListNotations.
Open Scope Z_scope.

(** Completes C17_partial: a decimal divisor of two digits is handled correctly
    when scaling does not add a digit to it. *)
Theorem C17_two_digits_partial : forall dbg t x n, valid t x -> storage t n -> radix t <= n ->
  scales t 2 n ->
  exists q r, div_assign_T dbg t x n = Ret q /\ rem_assign_T dbg t x n = Ret r
    /\ well_formed t q /\ well_formed t r /\ euclid (num t x) n (num t q) (num t r).
Proof. exact div_pair_claim. Qed.
Print Assumptions C17_two_digits_partial.
(** 1000000 / 156 and 123456 / 255; 157 is the first divisor that does not scale *)
Example C17_two_digits_case : scales D8 2 156 /\ scales D8 2 255 /\ ~ scales D8 2 157
  /\ div_assign_T true D8 [0; 0; 0; 1] 156 = Ret [10; 64] /\ 1000000 / 156 = 6410
  /\ rem_assign_T true D8 [0; 0; 0; 1] 156 = Ret [40] /\ 1000000 mod 156 = 40
  /\ div_assign_T true D8 [56; 34; 12] 255 = Ret [84; 4].
Proof.
  split; [apply (scales_check D8 2 156 6); dfact|].
  split; [apply (scales_check D8 2 255 5); dfact|].
  split; [|dfact]. intros H. specialize (H 6). discriminate H; discriminate || reflexivity.
Qed.

(** Full statement of C18: for every pair of well-formed binary numbers with a
    non-zero divisor the quotient and remainder are right ([divided], see
    ClaimsDiv.v: both methods and both operators return, and the Euclidean
    equation holds).  False: 2^31 / 0x80ffff gives 0 remainder 0, and 2^239
    divided by a number of 20 digits panics. *)
Theorem C18_refuted : exists x y, well_formed B8 x /\ well_formed B8 y /\ num B8 x = 2 ^ 31
  /\ num B8 y = 8454143 /\ div_assign_big (impl false B8) x y = Ret ([], ROk []).
Proof. exists [0; 0; 0; 128], [255; 255; 128]. dfact. Qed.
Print Assumptions C18_refuted.
Theorem C18_panic_refuted : exists x y, well_formed B64 x /\ well_formed B64 y /\ y <> []
  /\ div_assign_big (impl false B64) x y = Panic PIndex
  /\ rem_assign_big (impl false B64) x y = Panic PIndex.
Proof. exists (zeros 29 ++ [2 ^ 63]), (zeros 18 ++ [1; 2 ^ 63]). dfact. Qed.
Print Assumptions C18_panic_refuted.
(** Missing: divisions in which a partial remainder ties with the divisor. Divisors of
    20 digits or more: see Prop_DivBig.v. *)
Theorem C18_partial : forall dbg t x y, is_binary t = true -> well_formed t x -> well_formed t y ->
  y <> [] -> (length y < 20)%nat -> (length y = 1%nat \/ ~ tie t x y) -> divided dbg t x y.
Proof. exact div_binary_claim. Qed.
Print Assumptions C18_partial.
Example C18_case : well_formed B8 [1; 2; 3; 4; 5; 6] /\ well_formed B8 [1; 56; 1]
  /\ ~ tie B8 [1; 2; 3; 4; 5; 6] [1; 56; 1]
  /\ div_assign_big (impl true B8) [1; 2; 3; 4; 5; 6] [1; 56; 1] = Ret ([67; 104; 240; 4], ROk [190; 241])
  /\ euclid (num B8 [1; 2; 3; 4; 5; 6]) (num B8 [1; 56; 1])
       (num B8 [67; 104; 240; 4]) (num B8 [190; 241]).
Proof.
  split; [dfact|]. split; [dfact|]. split; [|dfact].
  apply (tie_check B8 _ _ 7); [reflexivity|dfact|]. repeat constructor; intros E; discriminate E.
Qed.
(** Dividends smaller than the divisor, of any length and any type. *)
Theorem C18_C19_smaller : forall dbg t x y, well_formed t x -> well_formed t y -> num t x < num t y ->
  divided dbg t x y /\ div_assign (impl dbg t) x y = Ret [] /\ rem_assign (impl dbg t) x y = Ret x.
Proof. exact div_smaller_claim. Qed.
Print Assumptions C18_C19_smaller.
(** The condition of C18_partial is needed: the refuting pair has a tie. *)
Example C18_tie : tie B8 [0; 0; 0; 128] [255; 255; 128].
Proof.
  exists 0, 1%nat. split; [dfact|]. split; [cbn; split; repeat constructor|dfact].
Qed.

(** Full statement of C19: [divided] for every pair of well-formed decimal
    numbers with a non-zero divisor.  False: 10^8 / 19900 gives 23391 remainder
    3475 instead of 5025 and 2500, and 10^6 / 160 returns digits above 99. *)
Theorem C19_refuted : exists x y q r, well_formed D8 x /\ well_formed D8 y
  /\ div_assign_big (impl false D8) x y = Ret (q, ROk r)
  /\ num D8 x = 10 ^ 8 /\ num D8 y = 19900 /\ num D8 q = 23391 /\ num D8 r = 3475.
Proof. exists [0; 0; 0; 0; 1], [0; 99; 1], [91; 33; 2], [75; 34]. dfact. Qed.
Print Assumptions C19_refuted.
Theorem C19_digits_refuted : exists x y q r, well_formed D8 x /\ well_formed D8 y /\ y <> []
  /\ div_assign_big (impl false D8) x y = Ret (q, ROk r) /\ In 248 q.
Proof.
  exists [0; 0; 0; 1], [60; 1], [238; 248; 30], [13].
  split; [dfact|]. split; [dfact|]. split; [discriminate|]. split; [dfact|]. right. left. reflexivity.
Qed.
Print Assumptions C19_digits_refuted.
(** Missing: divisors that gain a digit when scaled. Divisors of 20 digits or more: see
    Prop_DivBig.v. *)
Theorem C19_partial : forall dbg t x y, is_binary t = false -> well_formed t x -> well_formed t y ->
  y <> [] -> (length y < 20)%nat -> (length y = 1%nat \/ scales t (length y) (num t y)) ->
  divided dbg t x y.
Proof. exact div_decimal_claim. Qed.
Print Assumptions C19_partial.
Example C19_case : well_formed D8 [1; 2; 3; 4; 5; 6] /\ well_formed D8 [1; 56; 1]
  /\ scales D8 3 (num D8 [1; 56; 1])
  /\ div_assign_big (impl true D8) [1; 2; 3; 4; 5; 6] [1; 56; 1] = Ret ([14; 82; 87; 3], ROk [87; 35; 1])
  /\ euclid (num D8 [1; 2; 3; 4; 5; 6]) (num D8 [1; 56; 1])
       (num D8 [14; 82; 87; 3]) (num D8 [87; 35; 1]).
Proof.
  split; [dfact|]. split; [dfact|]. split; [|dfact]. apply (scales_check D8 3 _ 6); dfact.
Qed.

(** Full statement of C20: the error is reported exactly for a zero divisor, the
    operators panic for it, and an error leaves the dividend unchanged. The last
    part is false for [div_assign_big], which replaces the dividend by zeros. *)
Theorem C20_refuted : exists x s, well_formed B8 x
  /\ div_assign_big (impl false B8) x [] = Ret (s, RErr DivisionByZero) /\ num B8 x = 5 /\ num B8 s = 0.
Proof. exists [5], [0; 0]. dfact. Qed.
Print Assumptions C20_refuted.
Theorem C20_zero_divisor : forall dbg t x,
  div_assign_big (impl dbg t) x [] = Ret (repeat 0 (length x + 1), RErr DivisionByZero)
  /\ rem_assign_big (impl dbg t) x [] = Ret (x, RErr DivisionByZero)
  /\ div_assign (impl dbg t) x [] = Panic (PExplicit DivisionByZero)
  /\ rem_assign (impl dbg t) x [] = Panic (PExplicit DivisionByZero).
Proof. exact div_zero_claim. Qed.
Print Assumptions C20_zero_divisor.
Theorem C20_div_error : forall dbg t x y s e, normal y ->
  div_assign_big (impl dbg t) x y = Ret (s, RErr e) -> e = DivisionByZero /\ y = [].
Proof. exact div_error_claim. Qed.
Print Assumptions C20_div_error.
Theorem C20_rem_error : forall dbg t x y s e, normal y ->
  rem_assign_big (impl dbg t) x y = Ret (s, RErr e) -> e = DivisionByZero /\ y = [] /\ s = x.
Proof. exact rem_error_claim. Qed.
Print Assumptions C20_rem_error.
Example C20_case : div_assign_big (impl true D32) [7; 8] [] = Ret ([0; 0; 0], RErr DivisionByZero)
  /\ rem_assign_big (impl true D32) [7; 8] [] = Ret ([7; 8], RErr DivisionByZero).
Proof. dfact. Qed.
