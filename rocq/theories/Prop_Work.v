(** * Property C69: the scratch memory of multiplication and division. *)
From Coq Require Import ZArith List Bool.
From Verif Require Import Base Digit Slice Mul Div WorkBound.
Open Scope nat_scope.

(** Multiplication takes no scratch below 20 digits, then at most 9/4, and from 128
    digits on at most 7/2, of the length of the longer factor. *)
Theorem C69_karatsuba : forall n, (n < 20 -> calc_karatsuba_work_size n = 0)
  /\ (20 <= n -> n <= calc_karatsuba_work_size n /\ 4 * calc_karatsuba_work_size n <= 9 * n).
Proof. exact kara_size_claim. Qed.
Theorem C69_toom3 : forall n, 128 <= n -> 2 * n <= calc_toom3_work_size n /\ 2 * calc_toom3_work_size n <= 7 * n.
Proof. exact toom_size_claim. Qed.
(** Recursive division pads the divisor by less than a tenth (and one digit), and takes
    at most four times the length of the divisor. *)
Theorem C69_division : forall nd, 20 <= nd ->
  nd <= block_size nd /\ 10 * block_size nd < 11 * nd + 10
  /\ nd < calc_div_bz_work_size nd /\ calc_div_bz_work_size nd <= 4 * nd.
Proof. exact bz_size_claim. Qed.
(** A longer operand never takes less. *)
Theorem C69_grow : forall m n, m <= n ->
  calc_karatsuba_work_size m <= calc_karatsuba_work_size n
  /\ calc_toom3_work_size m <= calc_toom3_work_size n
  /\ calc_mul_work_size m <= calc_mul_work_size n
  /\ calc_div_long_work_size m <= calc_div_long_work_size n
  /\ (20 <= m -> block_size m <= block_size n /\ calc_div_bz_work_size m <= calc_div_bz_work_size n).
Proof. exact sizes_grow_claim. Qed.
(** So the sizes fit a 64-bit word for every length that fits memory. *)
Theorem C69_words : forall n, (Z.of_nat n < 2 ^ 61)%Z ->
  (Z.of_nat (calc_karatsuba_work_size n) < 2 ^ 64)%Z /\ (Z.of_nat (calc_toom3_work_size n) < 2 ^ 64)%Z
  /\ (Z.of_nat (calc_mul_work_size n) < 2 ^ 64)%Z
  /\ ((20 <= n)%nat -> Z.of_nat (3 * block_size n) < 2 ^ 64 /\ Z.of_nat (calc_div_bz_work_size n) < 2 ^ 64)%Z.
Proof. exact words_claim. Qed.

(** Concrete sizes: 127 and 128 digits, and the case in which padding is largest. *)
Example C69_case : calc_karatsuba_work_size 127 = 224 /\ calc_mul_work_size 128 = 338
  /\ block_size 81 = 88 /\ calc_div_bz_work_size 81 = 199.
Proof. vm_compute. auto. Qed.

Print Assumptions C69_karatsuba.
Print Assumptions C69_toom3.
Print Assumptions C69_division.
Print Assumptions C69_grow.
Print Assumptions C69_words.
