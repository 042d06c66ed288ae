(** * Properties C45-C51: laws that relate several operations. *)
From Coq Require Import ZArith NArith List Bool Lia.
From Verif Require Import Base Digit Slice Mul Div UBig Text Spec SpecDiv SpecBz Cases ClaimsDiv ClaimsText Laws TextLaws.
From Verif Require ClaimsDivBig ClaimsBz.
Import ListNotations.
Open Scope Z_scope.

(** ** C45: addition and subtraction undo each other.
    Full statement: (x + y) - y == x, (x - y) + y == x and x - x == 0.  The first is
    false: 1 + 0xffff - 0xffff gives the digits [1; 0], which is not equal to [1]. *)
Theorem C45_refuted : exists t x y s r, well_formed t x /\ well_formed t y
  /\ add_assign (impl true t) x y = Ret s /\ sub_assign (impl true t) s y = Ret r
  /\ ubig_eqb r x = false.
Proof. exists B8, [1], [255; 255], [0; 0; 1], [1; 0]. fact. Qed.
Print Assumptions C45_refuted.
(** Missing: equality in the one case where the difference is not normalised.  The value
    always comes back. *)
Theorem C45_add_sub_partial : forall dbg t x y, well_formed t x -> well_formed t y ->
  exists s r, add_assign (impl dbg t) x y = Ret s /\ sub_assign (impl dbg t) s y = Ret r
    /\ num t r = num t x
    /\ (r = x <-> ~ (num t (skipn (length y) s) = 1 /\ num t x < radix t ^ (Z.of_nat (length y) - 1))).
Proof. exact add_sub_claim. Qed.
Print Assumptions C45_add_sub_partial.
Theorem C45_sub_add : forall dbg t x y, well_formed t x -> well_formed t y -> num t y <= num t x ->
  exists d, sub_assign (impl dbg t) x y = Ret d /\ add_assign (impl dbg t) d y = Ret x.
Proof. exact sub_add_claim. Qed.
Print Assumptions C45_sub_add.
Theorem C45_self : forall dbg t x, well_formed t x -> sub_assign (impl dbg t) x x = Ret [].
Proof. exact sub_self_claim. Qed.
Print Assumptions C45_self.
(** also when the difference is not normalised *)
Example C45_case : well_formed B8 [0; 0; 1] /\ well_formed B8 [255; 255]
  /\ sub_assign (impl true B8) [0; 0; 1] [255; 255] = Ret [1; 0]
  /\ add_assign (impl true B8) [1; 0] [255; 255] = Ret [0; 0; 1]
  /\ well_formed D8 [7; 40] /\ add_assign (impl true D8) [7; 40] [98; 99] = Ret [5; 40; 1]
  /\ sub_assign (impl true D8) [5; 40; 1] [98; 99] = Ret [7; 40].
Proof. fact. Qed.

(** ** C46: multiplication and division undo each other, as far as division is right:
    [division_right] (SpecBz.v), that is divisors of one digit, and longer ones without
    ties (binary), or that scale and do not open with a tie (decimal), and from 20 digits
    on in which no multiplication stops. *)
Theorem C46_mul_div : forall dbg t x y p, well_formed t x -> well_formed t y -> y <> [] ->
  mul_assign (impl dbg t) x y = Ret p -> division_right t p y ->
  div_assign (impl dbg t) p y = Ret x /\ rem_assign (impl dbg t) p y = Ret [].
Proof. exact mul_div_claim. Qed.
Print Assumptions C46_mul_div.
Theorem C46_div_mul : forall dbg t x y, well_formed t x -> well_formed t y -> y <> [] -> division_right t x y ->
  exists q r, div_assign (impl dbg t) x y = Ret q /\ rem_assign (impl dbg t) x y = Ret r
    /\ ubig_cmp r y = Lt
    /\ (forall p, mul_assign (impl dbg t) q y = Ret p -> add_assign (impl dbg t) p r = Ret x)
    /\ ((length y < 20)%nat -> exists p, mul_assign (impl dbg t) q y = Ret p).
Proof. exact div_mul_claim. Qed.
Print Assumptions C46_div_mul.
Example C46_case : well_formed B8 [1; 2; 3; 4] /\ well_formed B8 [7] /\ division_right B8 [7; 14; 21; 28] [7]
  /\ mul_assign (impl true B8) [1; 2; 3; 4] [7] = Ret [7; 14; 21; 28]
  /\ div_assign (impl true B8) [7; 14; 21; 28] [7] = Ret [1; 2; 3; 4]
  /\ rem_assign (impl true B8) [7; 14; 21; 28] [7] = Ret [].
Proof. split; [fact|]. split; [fact|]. split; [left; reflexivity|]. fact. Qed.

(** a divisor of 20 digits *)
Example C46_case_20 : let y := repeat 255 19 ++ [128] in
  division_right B8 (253 :: repeat 255 18 ++ [130; 1]) y
  /\ mul_assign (impl true B8) [3] y = Ret (253 :: repeat 255 18 ++ [130; 1])
  /\ div_assign (impl true B8) (253 :: repeat 255 18 ++ [130; 1]) y = Ret [3].
Proof.
  cbv zeta. split; [|fact]. right. right. split; [repeat constructor|].
  assert (Wy : well_formed B8 (repeat 255 19 ++ [128])) by dfact.
  split.
  { apply ClaimsBz.recursive_jam_short; [dfact|exact Wy|split; repeat constructor|].
    apply ClaimsBz.binary_fits; [reflexivity|exact Wy|repeat constructor]. }
  change (is_binary B8) with true. cbv iota.
  apply (ClaimsDivBig.recursive_tie_check B8 _ _ 0 20).
  - repeat constructor.
  - vm_compute. reflexivity.
  - dfact.
  - exists 20%nat, 0%nat. cbn. lia.
  - repeat constructor.
  - vm_compute. reflexivity.
Qed.

(** ** C47: numbers of digits *)
Theorem C47_add : forall dbg t x y r, well_formed t x -> well_formed t y ->
  add_assign (impl dbg t) x y = Ret r ->
  (Nat.max (length x) (length y) <= length r <= S (Nat.max (length x) (length y)))%nat.
Proof. exact add_length_claim. Qed.
Print Assumptions C47_add.
Theorem C47_mul : forall dbg t x y r, well_formed t x -> well_formed t y -> x <> [] -> y <> [] ->
  mul_assign (impl dbg t) x y = Ret r ->
  length r = (length x + length y)%nat \/ S (length r) = (length x + length y)%nat.
Proof. exact mul_length_claim. Qed.
Print Assumptions C47_mul.
Theorem C47_div : forall dbg t x y q r, well_formed t x -> well_formed t y -> y <> [] ->
  division_right t x y -> (length y <= length x)%nat ->
  div_assign (impl dbg t) x y = Ret q -> rem_assign (impl dbg t) x y = Ret r ->
  (length r <= length y)%nat
  /\ (length q = (length x - length y)%nat \/ length q = S (length x - length y)%nat).
Proof. exact div_length_claim. Qed.
Print Assumptions C47_div.
Example C47_case : add_assign (impl true D8) [99; 99] [1] = Ret [0; 0; 1]
  /\ mul_assign (impl true D8) [99; 99] [99] = Ret [1; 99; 98]
  /\ mul_assign (impl true D8) [1; 1] [1] = Ret [1; 1]
  /\ div_assign (impl true D8) [0; 0; 1] [7] = Ret [28; 14].
Proof. fact. Qed.

(** ** C48: shifts.  Zero of a binary type is left out: [0 << 9] is not normalised (C21). *)
Theorem C48_shl_shl : forall dbg t x m n, is_binary t = true -> well_formed t x -> x <> [] -> 0 <= m -> 0 <= n ->
  exists r s, shl_assign dbg t x m = Ret r /\ shl_assign dbg t r n = Ret s
    /\ shl_assign dbg t x (m + n) = Ret s.
Proof. exact shl_shl_claim. Qed.
Print Assumptions C48_shl_shl.
Theorem C48_shl_shr : forall dbg t x n, well_formed t x -> 0 <= n ->
  (if is_binary t then x <> [] else n <= 4 * Z.of_nat (MAX_HEX_PLACES t)) ->
  exists r, shl_assign dbg t x n = Ret r /\ shr_assign dbg t r n = Ret x.
Proof. exact shl_shr_claim. Qed.
Print Assumptions C48_shl_shr.
Theorem C48_shl_mul : forall dbg t x n p r, is_binary t = true -> well_formed t x -> x <> [] -> 0 <= n ->
  shl_assign dbg t [1] n = Ret p -> mul_assign (impl dbg t) x p = Ret r -> shl_assign dbg t x n = Ret r.
Proof. exact shl_mul_claim. Qed.
Print Assumptions C48_shl_mul.
Example C48_case : well_formed B8 [200; 1] /\ shl_assign true B8 [200; 1] 5 = Ret [0; 57]
  /\ shl_assign true B8 [0; 57] 10 = Ret [0; 0; 228] /\ shl_assign true B8 [200; 1] 15 = Ret [0; 0; 228]
  /\ shr_assign true B8 [0; 0; 228] 15 = Ret [200; 1]
  /\ well_formed D8 [99; 12] /\ shl_assign true D8 [99; 12] 4 = Ret [84; 7; 2]
  /\ shr_assign true D8 [84; 7; 2] 4 = Ret [99; 12].
Proof. fact. Qed.

(** ** C49: powers *)
Theorem C49_zero_one : forall dbg t x, well_formed t x ->
  pow (impl dbg t) x 0 = Ret [1] /\ pow (impl dbg t) x 1 = Ret x.
Proof. exact pow_zero_one_claim. Qed.
Print Assumptions C49_zero_one.
Theorem C49_add : forall dbg t x a b r1 r2 r3 r4, well_formed t x ->
  num t x ^ Z.of_N ((a + b) / 2) < radix t ^ 1131 ->
  pow (impl dbg t) x a = Ret r1 -> pow (impl dbg t) x b = Ret r2 ->
  mul_assign (impl dbg t) r1 r2 = Ret r3 -> pow (impl dbg t) x (a + b) = Ret r4 -> r3 = r4.
Proof. exact pow_add_claim. Qed.
Print Assumptions C49_add.
Theorem C49_mul_value : forall dbg t x a b y z z', well_formed t x -> (1 <= b)%N ->
  num t x ^ Z.of_N (a * b / 2) < radix t ^ 1131 ->
  pow (impl dbg t) x a = Ret y -> pow (impl dbg t) y b = Ret z ->
  pow (impl dbg t) x (a * b) = Ret z' -> z = z'.
Proof. exact pow_pow_value_claim. Qed.
Print Assumptions C49_mul_value.
Theorem C49_mul : forall dbg t x a b, well_formed t x -> 0 < num t x -> (1 <= b)%N ->
  num t x ^ Z.of_N (a * b) < radix t ^ 40 ->
  exists y z, pow (impl dbg t) x a = Ret y /\ pow (impl dbg t) y b = Ret z
    /\ pow (impl dbg t) x (a * b) = Ret z.
Proof. exact pow_pow_claim. Qed.
Print Assumptions C49_mul.
Example C49_case : well_formed D8 [7; 1] /\ pow (impl true D8) [7; 1] 2 = Ret [49; 14; 1]
  /\ pow (impl true D8) [7; 1] 3 = Ret [43; 50; 22; 1]
  /\ mul_assign (impl true D8) [49; 14; 1] [43; 50; 22; 1] = Ret [7; 73; 51; 25; 40; 1]
  /\ pow (impl true D8) [7; 1] 5 = Ret [7; 73; 51; 25; 40; 1]
  /\ pow (impl true D8) [49; 14; 1] 3 = pow (impl true D8) [7; 1] 6.
Proof. fact. Qed.

(** ** C50: numbers and their texts determine each other *)
Theorem C50_parse_print : forall dbg t s, is_binary t = false -> numeral_of 10 s -> minimal s ->
  exists r, from_str dbg t s = Ret (ROk r) /\ fmt_display_dec t plain r = s.
Proof. exact parse_print_dec_claim. Qed.
Print Assumptions C50_parse_print.
Theorem C50_parse_print_binary : forall dbg t s, is_binary t = true -> numeral_of 10 s -> minimal s ->
  numeral_value 10 s < radix t ^ 15 ->
  exists r, from_str dbg t s = Ret (ROk r) /\ fmt_display_bin dbg t plain r = Ret s.
Proof. exact parse_print_bin_claim. Qed.
Print Assumptions C50_parse_print_binary.
Theorem C50_parse_print_hex : forall dbg t s, is_binary t = true -> numeral_of 16 s -> minimal s -> lower_case s ->
  exists r, from_str dbg t (hex_prefix ++ s) = Ret (ROk r) /\ fmt_hex t false plain r = s
    /\ fmt_hex t false alternate r = hex_prefix ++ s.
Proof. exact parse_print_hex_claim. Qed.
Print Assumptions C50_parse_print_hex.
Theorem C50_print_parse : forall dbg t x, is_binary t = true -> well_formed t x -> (length x < 16)%nat ->
  exists s, fmt_display_bin dbg t plain x = Ret s /\ from_str dbg t s = Ret (ROk x).
Proof. exact print_parse_bin_claim. Qed.
Print Assumptions C50_print_parse.
(** a number can be carried to another decimal type through its text *)
Theorem C50_transfer : forall dbg t u x, is_binary t = false -> is_binary u = false -> well_formed t x ->
  exists y, from_str dbg u (fmt_display_dec t plain x) = Ret (ROk y) /\ well_formed u y /\ num u y = num t x
    /\ fmt_display_dec u plain y = fmt_display_dec t plain x.
Proof. exact transfer_claim. Qed.
Print Assumptions C50_transfer.
(** "70009", and 70009 over bytes *)
Example C50_case : minimal [55; 48; 48; 48; 57] /\ numeral_value 10 [55; 48; 48; 48; 57] = 70009
  /\ from_str true D8 [55; 48; 48; 48; 57] = Ret (ROk [9; 0; 7])
  /\ fmt_display_dec D8 plain [9; 0; 7] = [55; 48; 48; 48; 57]
  /\ from_str true B8 [55; 48; 48; 48; 57] = Ret (ROk [121; 17; 1])
  /\ fmt_display_bin true B8 plain [121; 17; 1] = Ret [55; 48; 48; 48; 57].
Proof. split; [right; discriminate|fact]. Qed.

(** ** C51: the order fits the arithmetic *)
Theorem C51_order : forall t x y z, well_formed t x -> well_formed t y -> well_formed t z ->
  (ubig_cmp x y = Eq <-> x = y)
  /\ ubig_cmp y x = CompOpp (ubig_cmp x y)
  /\ (ubig_cmp x y = Lt -> ubig_cmp y z = Lt -> ubig_cmp x z = Lt).
Proof. exact cmp_order_claim. Qed.
Print Assumptions C51_order.
Theorem C51_add : forall dbg t x y z, well_formed t x -> well_formed t y -> well_formed t z ->
  exists r s, add_assign (impl dbg t) x z = Ret r /\ add_assign (impl dbg t) y z = Ret s
    /\ ubig_cmp r s = ubig_cmp x y.
Proof. exact add_cmp_claim. Qed.
Print Assumptions C51_add.
Theorem C51_mul : forall dbg t x y z r s, well_formed t x -> well_formed t y -> well_formed t z -> z <> [] ->
  mul_assign (impl dbg t) x z = Ret r -> mul_assign (impl dbg t) y z = Ret s ->
  ubig_cmp r s = ubig_cmp x y.
Proof. exact mul_cmp_claim. Qed.
Print Assumptions C51_mul.
Theorem C51_sub : forall dbg t x y, well_formed t x -> well_formed t y ->
  (sub_assign (impl dbg t) x y = Panic (PExplicit Underflow) <-> ubig_cmp x y = Lt).
Proof. exact sub_cmp_claim. Qed.
Print Assumptions C51_sub.
Example C51_case : ubig_cmp [3; 1] [200] = Gt /\ ubig_cmp [200] [3; 1] = Lt
  /\ mul_assign (impl true B8) [3; 1] [9] = Ret [27; 9] /\ mul_assign (impl true B8) [200] [9] = Ret [8; 7]
  /\ ubig_cmp [27; 9] [8; 7] = Gt /\ sub_assign (impl true B8) [200] [3; 1] = Panic (PExplicit Underflow).
Proof. fact. Qed.
