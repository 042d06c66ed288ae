(** * Properties C64, C65: decimal and hexadecimal places. *)
From Coq Require Import ZArith List Bool.
From Verif Require Import Base Digit Spec Cases Sizes.
Import ListNotations.
Open Scope Z_scope.

(** C64: the number of hexadecimal places of a binary digit and of decimal places of a
    decimal digit is exact; the number of decimal (hexadecimal) places read into one
    binary (decimal) digit is the largest that always fits. *)
Theorem C64 : forall t,
  (is_binary t = true -> 16 ^ Z.of_nat (NR_HEX_PLACES t) = radix t
     /\ 10 ^ Z.of_nat (MAX_DECIMAL_PLACES t) <= radix t < 10 ^ (Z.of_nat (MAX_DECIMAL_PLACES t) + 1))
  /\ (is_binary t = false -> 10 ^ Z.of_nat (NR_DECIMAL_PLACES t) = radix t
     /\ 16 ^ Z.of_nat (MAX_HEX_PLACES t) <= radix t < 16 ^ (Z.of_nat (MAX_HEX_PLACES t) + 1)).
Proof. exact constants. Qed.
Print Assumptions C64.
Example C64_case : is_binary B64 = true /\ MAX_DECIMAL_PLACES B64 = 19%nat /\ NR_HEX_PLACES B64 = 16%nat
  /\ is_binary D64 = false /\ NR_DECIMAL_PLACES D64 = 19%nat /\ MAX_HEX_PLACES D64 = 15%nat.
Proof. fact. Qed.

(** C65, full statement: [nr_decimal_places n] decimal places suffice for every number
    of n binary digits.  False for every n. *)
Theorem C65_refuted : forall t, is_binary t = true -> forall n, (0 < n)%nat ->
  exists x, well_formed t x /\ length x = n /\ 10 ^ Z.of_nat (nr_decimal_places t n) <= num t x.
Proof. exact too_short. Qed.
Print Assumptions C65_refuted.
(** One place more suffices for numbers of less than 14369 bytes. *)
Theorem C65_partial : forall t, is_binary t = true -> forall n x, (0 < n)%nat ->
  Z.of_nat n * Z.of_nat (size_of t) < 14369 -> valid t x -> (length x <= n)%nat ->
  num t x < 10 ^ Z.of_nat (S (nr_decimal_places t n)).
Proof. exact one_more. Qed.
Print Assumptions C65_partial.
(** The limit is exact: at 14369 bytes two places are missing, *)
Theorem C65_limit_refuted : exists x, well_formed B8 x /\ Z.of_nat (length x) = 14369
  /\ 10 ^ Z.of_nat (S (nr_decimal_places B8 (length x))) <= num B8 x.
Proof. exact first_miss. Qed.
Print Assumptions C65_limit_refuted.
(** and no fixed number of additional places is enough for all lengths. *)
Theorem C65_margin_refuted : forall t k, is_binary t = true -> exists x, well_formed t x
  /\ 10 ^ Z.of_nat (nr_decimal_places t (length x) + k) <= num t x.
Proof. exact never_enough. Qed.
Print Assumptions C65_margin_refuted.
Example C65_case : is_binary B8 = true /\ (0 < 1)%nat /\ Z.of_nat 1 * Z.of_nat (size_of B8) < 14369
  /\ valid B8 [255] /\ (length [255] <= 1)%nat
  /\ nr_decimal_places B8 1 = 2%nat /\ num B8 [255] = 255.
Proof. split; [fact|]. split; [auto|]. split; [fact|]. split; [fact|]. split; [auto|]. fact. Qed.
