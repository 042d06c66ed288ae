(** * Property C73: what shows of leading zeros. *)
From Coq Require Import ZArith List Bool Lia.
From Verif Require Import Base Digit UBig Text Spec Cases ClaimsText LeadZero.
Import ListNotations.
Open Scope Z_scope.

(** [==] compares digit counts and values, leading zeros counted; *)
Theorem C73_eq : forall t x y, valid t x -> valid t y ->
  (ubig_eqb x y = true <-> length x = length y /\ num t x = num t y).
Proof. exact lead_eq. Qed.
Print Assumptions C73_eq.
(** the order is that of the digit counts, and of the values for equal counts; *)
Theorem C73_cmp : forall t x y, valid t x -> valid t y ->
  ubig_cmp x y = match (length x ?= length y)%nat with Eq => num t x ?= num t y | c => c end.
Proof. exact lead_cmp. Qed.
Print Assumptions C73_cmp.
(** it still fits [==]. *)
Theorem C73_cmp_eq : forall t x y, valid t x -> valid t y -> (ubig_cmp x y = Eq <-> ubig_eqb x y = true).
Proof. exact lead_cmp_eq. Qed.
Print Assumptions C73_cmp_eq.
(** 65536 - 65534 is not equal to 2, and larger than 7. *)
Example C73_order_case : sub_assign (impl true B8) [0; 0; 1] [254; 255] = Ret [2; 0]
  /\ ubig_eqb [2; 0] [2] = false /\ ubig_cmp [2; 0] [7] = Gt.
Proof. repeat split; vm_compute; reflexivity. Qed.

(** The text has the right value *)
Theorem C73_hex : forall t upper x, is_binary t = true -> valid t x -> exists s,
  fmt_hex t upper plain x = s /\ fmt_hex t upper alternate x = hex_prefix ++ s
  /\ numeral_of 16 s /\ numeral_value 16 s = num t x /\ (if upper then upper_case s else lower_case s).
Proof. exact lead_hex. Qed.
Print Assumptions C73_hex.
Theorem C73_decimal : forall t x, is_binary t = false -> valid t x -> exists s,
  fmt_display_dec t plain x = s /\ numeral_of 10 s /\ numeral_value 10 s = num t x.
Proof. exact lead_dec. Qed.
Print Assumptions C73_decimal.
(** but a leading zero shows: a zero, followed by all places of the digits below it. *)
Theorem C73_hex_zero : forall t upper y, is_binary t = true -> valid t y -> exists u,
  fmt_hex t upper plain (y ++ [0]) = 48 :: u /\ 16 ^ Z.of_nat (length u) = radix t ^ Z.of_nat (length y).
Proof. exact lead_hex_zero. Qed.
Print Assumptions C73_hex_zero.
Theorem C73_decimal_zero : forall t y, is_binary t = false -> valid t y -> exists u,
  fmt_display_dec t plain (y ++ [0]) = 48 :: u /\ 10 ^ Z.of_nat (length u) = radix t ^ Z.of_nat (length y).
Proof. exact lead_dec_zero. Qed.
Print Assumptions C73_decimal_zero.
(** "002" in both *)
Example C73_text_case : fmt_hex B8 false plain [2; 0] = [48; 48; 50]
  /\ fmt_display_dec D8 plain [2; 0] = [48; 48; 50].
Proof. split; vm_compute; reflexivity. Qed.

(** Reading the text back gives the number without leading zeros. *)
Theorem C73_hex_round : forall dbg t upper x, is_binary t = true -> valid t x -> exists r,
  from_str dbg t (fmt_hex t upper alternate x) = Ret (ROk r) /\ well_formed t r /\ num t r = num t x.
Proof. exact lead_hex_round. Qed.
Print Assumptions C73_hex_round.
Theorem C73_decimal_round : forall dbg t x, is_binary t = false -> valid t x -> exists r,
  from_str dbg t (fmt_display_dec t plain x) = Ret (ROk r) /\ well_formed t r /\ num t r = num t x.
Proof. exact lead_dec_round. Qed.
Print Assumptions C73_decimal_round.
(** So does conversion from binary to decimal below sixteen digits, and its text. *)
Theorem C73_to_decimal : forall dbg t x, is_binary t = true -> valid t x -> (length x < 16)%nat -> exists r,
  to_decimal dbg t x = Ret r /\ well_formed (decimal_of t) r /\ num (decimal_of t) r = num t x.
Proof. exact lead_small. Qed.
Print Assumptions C73_to_decimal.
Theorem C73_display : forall dbg t x, is_binary t = true -> valid t x -> (length x < 16)%nat -> exists s,
  fmt_display_bin dbg t plain x = Ret s /\ numeral_of 10 s /\ numeral_value 10 s = num t x /\ minimal s.
Proof. exact lead_display. Qed.
Print Assumptions C73_display.
(** [2; 0] reads back as 2, and displays as "2". *)
Example C73_round_case : from_str true B8 (fmt_hex B8 false alternate [2; 0]) = Ret (ROk [2])
  /\ from_str true D8 (fmt_display_dec D8 plain [2; 0]) = Ret (ROk [2])
  /\ to_decimal true B8 [2; 1; 0] = Ret [58; 2] /\ fmt_display_bin true B8 plain [2; 0] = Ret [50].
Proof. repeat split; vm_compute; reflexivity. Qed.
