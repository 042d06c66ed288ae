(** * UnitTests: the unit tests inside the sources of the crate, run on the model.

    Written by tools/gen_unit_tests.py from the test modules in /repo/src.  They call the
    internal functions directly, so they also reach Karatsuba, Toom-3 and the recursive
    division on operands far below the cutoffs.  These are tests of the fidelity of the
    model, not proofs of properties.  [dbg] is true, as in a test build. *)
From Coq Require Import ZArith NArith List Bool.
From Verif Require Import Base Digit Slice Mul Div.
Import ListNotations.
Open Scope Z_scope.
Open Scope m_scope.

Definition holds (e : M Prop) : Prop := match e with Ret p => p | _ => False end.

(** ** src/digit.rs *)

(** src/digit.rs:915 *)
Example test_max_shift_binary : holds (
  v1 <- d_max_shift (impl true B8) 0 ;;
  let c1 := (v1 = 8) in
  v2 <- d_max_shift (impl true B8) 1 ;;
  let c2 := (v2 = 7) in
  v3 <- d_max_shift (impl true B8) 128 ;;
  let c3 := (v3 = 0) in
  v4 <- d_max_shift (impl true B16) 0 ;;
  let c4 := (v4 = 16) in
  v5 <- d_max_shift (impl true B16) 112 ;;
  let c5 := (v5 = 9) in
  v6 <- d_max_shift (impl true B16) 226 ;;
  let c6 := (v6 = 8) in
  v7 <- d_max_shift (impl true B16) 22754 ;;
  let c7 := (v7 = 1) in
  v8 <- d_max_shift (impl true B16) 32994 ;;
  let c8 := (v8 = 0) in
  v9 <- d_max_shift (impl true B32) 0 ;;
  let c9 := (v9 = 32) in
  v10 <- d_max_shift (impl true B32) 112 ;;
  let c10 := (v10 = 25) in
  v11 <- d_max_shift (impl true B32) 22754 ;;
  let c11 := (v11 = 17) in
  v12 <- d_max_shift (impl true B32) 32994 ;;
  let c12 := (v12 = 16) in
  v13 <- d_max_shift (impl true B32) 1991038305 ;;
  let c13 := (v13 = 1) in
  v14 <- d_max_shift (impl true B32) 4294967295 ;;
  let c14 := (v14 = 0) in
  Ret (c1 /\ c2 /\ c3 /\ c4 /\ c5 /\ c6 /\ c7 /\ c8 /\ c9 /\ c10 /\ c11 /\ c12 /\ c13 /\ c14)).
Proof. vm_compute. repeat split. Qed.

(** src/digit.rs:936 *)
Example test_max_shift_decimal : holds (
  v1 <- d_max_shift (impl true D8) 0 ;;
  let c1 := (v1 = 7) in
  v2 <- d_max_shift (impl true D8) 1 ;;
  let c2 := (v2 = 6) in
  v3 <- d_max_shift (impl true D8) 49 ;;
  let c3 := (v3 = 1) in
  v4 <- d_max_shift (impl true D8) 75 ;;
  let c4 := (v4 = 0) in
  v5 <- d_max_shift (impl true D16) 0 ;;
  let c5 := (v5 = 14) in
  v6 <- d_max_shift (impl true D16) 50 ;;
  let c6 := (v6 = 7) in
  v7 <- d_max_shift (impl true D16) 2139 ;;
  let c7 := (v7 = 2) in
  v8 <- d_max_shift (impl true D16) 7612 ;;
  let c8 := (v8 = 0) in
  v9 <- d_max_shift (impl true D32) 0 ;;
  let c9 := (v9 = 30) in
  v10 <- d_max_shift (impl true D32) 50 ;;
  let c10 := (v10 = 24) in
  v11 <- d_max_shift (impl true D32) 2139 ;;
  let c11 := (v11 = 18) in
  v12 <- d_max_shift (impl true D32) 7612 ;;
  let c12 := (v12 = 17) in
  v13 <- d_max_shift (impl true D32) 213781923 ;;
  let c13 := (v13 = 2) in
  v14 <- d_max_shift (impl true D32) 500000000 ;;
  let c14 := (v14 = 0) in
  Ret (c1 /\ c2 /\ c3 /\ c4 /\ c5 /\ c6 /\ c7 /\ c8 /\ c9 /\ c10 /\ c11 /\ c12 /\ c13 /\ c14)).
Proof. vm_compute. repeat split. Qed.

(** src/digit.rs:957 *)
Example test_inc_binary : holds (
  let d := 0 in
  '(d, overflow) <- d_inc (impl true B8) d ;;
  let c1 := (overflow = false) in
  let c2 := (d = 1) in
  let d := 254 in
  '(d, overflow) <- d_inc (impl true B8) d ;;
  let c3 := (overflow = false) in
  let c4 := (d = 255) in
  let d := 255 in
  '(d, overflow) <- d_inc (impl true B8) d ;;
  let c5 := (overflow = true) in
  let c6 := (d = 0) in
  let d := 255 in
  '(d, overflow) <- d_inc (impl true B16) d ;;
  let c7 := (overflow = false) in
  let c8 := (d = 256) in
  let d := 65535 in
  '(d, overflow) <- d_inc (impl true B16) d ;;
  let c9 := (overflow = true) in
  let c10 := (d = 0) in
  let d := 1048575 in
  '(d, overflow) <- d_inc (impl true B32) d ;;
  let c11 := (overflow = false) in
  let c12 := (d = 1048576) in
  let d := 4294967295 in
  '(d, overflow) <- d_inc (impl true B32) d ;;
  let c13 := (overflow = true) in
  let c14 := (d = 0) in
  Ret (c1 /\ c2 /\ c3 /\ c4 /\ c5 /\ c6 /\ c7 /\ c8 /\ c9 /\ c10 /\ c11 /\ c12 /\ c13 /\ c14)).
Proof. vm_compute. repeat split. Qed.

(** src/digit.rs:996 *)
Example test_inc_decimal : holds (
  let d := 0 in
  '(d, overflow) <- d_inc (impl true D8) d ;;
  let c1 := (overflow = false) in
  let c2 := (d = 1) in
  let d := 98 in
  '(d, overflow) <- d_inc (impl true D8) d ;;
  let c3 := (overflow = false) in
  let c4 := (d = 99) in
  let d := 99 in
  '(d, overflow) <- d_inc (impl true D8) d ;;
  let c5 := (overflow = true) in
  let c6 := (d = 0) in
  let d := 99 in
  '(d, overflow) <- d_inc (impl true D16) d ;;
  let c7 := (overflow = false) in
  let c8 := (d = 100) in
  let d := 9999 in
  '(d, overflow) <- d_inc (impl true D16) d ;;
  let c9 := (overflow = true) in
  let c10 := (d = 0) in
  let d := 99999999 in
  '(d, overflow) <- d_inc (impl true D32) d ;;
  let c11 := (overflow = false) in
  let c12 := (d = 100000000) in
  let d := 999999999 in
  '(d, overflow) <- d_inc (impl true D32) d ;;
  let c13 := (overflow = true) in
  let c14 := (d = 0) in
  Ret (c1 /\ c2 /\ c3 /\ c4 /\ c5 /\ c6 /\ c7 /\ c8 /\ c9 /\ c10 /\ c11 /\ c12 /\ c13 /\ c14)).
Proof. vm_compute. repeat split. Qed.

(** src/digit.rs:1035 *)
Example test_dec_binary : holds (
  let d := 1 in
  '(d, underflow) <- d_dec (impl true B8) d ;;
  let c1 := (underflow = false) in
  let c2 := (d = 0) in
  let d := 255 in
  '(d, underflow) <- d_dec (impl true B8) d ;;
  let c3 := (underflow = false) in
  let c4 := (d = 254) in
  let d := 0 in
  '(d, underflow) <- d_dec (impl true B8) d ;;
  let c5 := (underflow = true) in
  let c6 := (d = 255) in
  let d := 256 in
  '(d, underflow) <- d_dec (impl true B16) d ;;
  let c7 := (underflow = false) in
  let c8 := (d = 255) in
  let d := 0 in
  '(d, underflow) <- d_dec (impl true B16) d ;;
  let c9 := (underflow = true) in
  let c10 := (d = 65535) in
  let d := 1048576 in
  '(d, underflow) <- d_dec (impl true B32) d ;;
  let c11 := (underflow = false) in
  let c12 := (d = 1048575) in
  let d := 0 in
  '(d, underflow) <- d_dec (impl true B32) d ;;
  let c13 := (underflow = true) in
  let c14 := (d = 4294967295) in
  Ret (c1 /\ c2 /\ c3 /\ c4 /\ c5 /\ c6 /\ c7 /\ c8 /\ c9 /\ c10 /\ c11 /\ c12 /\ c13 /\ c14)).
Proof. vm_compute. repeat split. Qed.

(** src/digit.rs:1074 *)
Example test_dec_decimal : holds (
  let d := 1 in
  '(d, underflow) <- d_dec (impl true D8) d ;;
  let c1 := (underflow = false) in
  let c2 := (d = 0) in
  let d := 99 in
  '(d, underflow) <- d_dec (impl true D8) d ;;
  let c3 := (underflow = false) in
  let c4 := (d = 98) in
  let d := 0 in
  '(d, underflow) <- d_dec (impl true D8) d ;;
  let c5 := (underflow = true) in
  let c6 := (d = 99) in
  let d := 100 in
  '(d, underflow) <- d_dec (impl true D16) d ;;
  let c7 := (underflow = false) in
  let c8 := (d = 99) in
  let d := 0 in
  '(d, underflow) <- d_dec (impl true D16) d ;;
  let c9 := (underflow = true) in
  let c10 := (d = 9999) in
  let d := 100000000 in
  '(d, underflow) <- d_dec (impl true D32) d ;;
  let c11 := (underflow = false) in
  let c12 := (d = 99999999) in
  let d := 0 in
  '(d, underflow) <- d_dec (impl true D32) d ;;
  let c13 := (underflow = true) in
  let c14 := (d = 999999999) in
  Ret (c1 /\ c2 /\ c3 /\ c4 /\ c5 /\ c6 /\ c7 /\ c8 /\ c9 /\ c10 /\ c11 /\ c12 /\ c13 /\ c14)).
Proof. vm_compute. repeat split. Qed.

(** src/digit.rs:1113 *)
Example test_add_carry_assign_binary : holds (
  let d := 0 in
  '(d, overflow) <- d_add_carry (impl true B8) d 47 false ;;
  let c1 := (overflow = false) in
  let c2 := (d = 47) in
  let d := 128 in
  '(d, overflow) <- d_add_carry (impl true B8) d 127 false ;;
  let c3 := (overflow = false) in
  let c4 := (d = 255) in
  let d := 128 in
  '(d, overflow) <- d_add_carry (impl true B8) d 127 true ;;
  let c5 := (overflow = true) in
  let c6 := (d = 0) in
  let d := 128 in
  '(d, overflow) <- d_add_carry (impl true B8) d 128 false ;;
  let c7 := (overflow = true) in
  let c8 := (d = 0) in
  let d := 128 in
  '(d, overflow) <- d_add_carry (impl true B8) d 133 true ;;
  let c9 := (overflow = true) in
  let c10 := (d = 6) in
  let d := 128 in
  '(d, overflow) <- d_add_carry (impl true B16) d 65280 true ;;
  let c11 := (overflow = false) in
  let c12 := (d = 65409) in
  let d := 32768 in
  '(d, overflow) <- d_add_carry (impl true B16) d 65280 false ;;
  let c13 := (overflow = true) in
  let c14 := (d = 32512) in
  let d := 128 in
  '(d, overflow) <- d_add_carry (impl true B32) d 4278194432 false ;;
  let c15 := (overflow = false) in
  let c16 := (d = 4278194560) in
  let d := 2147488308 in
  '(d, overflow) <- d_add_carry (impl true B32) d 4289401396 true ;;
  let c17 := (overflow = true) in
  let c18 := (d = 2141922409) in
  Ret (c1 /\ c2 /\ c3 /\ c4 /\ c5 /\ c6 /\ c7 /\ c8 /\ c9 /\ c10 /\ c11 /\ c12 /\ c13 /\ c14 /\ c15 /\ c16 /\ c17 /\ c18)).
Proof. vm_compute. repeat split. Qed.

(** src/digit.rs:1162 *)
Example test_add_carry_assign_decimal : holds (
  let d := 0 in
  '(d, overflow) <- d_add_carry (impl true D8) d 47 false ;;
  let c1 := (overflow = false) in
  let c2 := (d = 47) in
  let d := 50 in
  '(d, overflow) <- d_add_carry (impl true D8) d 49 false ;;
  let c3 := (overflow = false) in
  let c4 := (d = 99) in
  let d := 50 in
  '(d, overflow) <- d_add_carry (impl true D8) d 49 true ;;
  let c5 := (overflow = true) in
  let c6 := (d = 0) in
  let d := 50 in
  '(d, overflow) <- d_add_carry (impl true D8) d 50 false ;;
  let c7 := (overflow = true) in
  let c8 := (d = 0) in
  let d := 50 in
  '(d, overflow) <- d_add_carry (impl true D8) d 55 true ;;
  let c9 := (overflow = true) in
  let c10 := (d = 6) in
  let d := 50 in
  '(d, overflow) <- d_add_carry (impl true D16) d 9900 true ;;
  let c11 := (overflow = false) in
  let c12 := (d = 9951) in
  let d := 5000 in
  '(d, overflow) <- d_add_carry (impl true D16) d 9900 false ;;
  let c13 := (overflow = true) in
  let c14 := (d = 4900) in
  let d := 50 in
  '(d, overflow) <- d_add_carry (impl true D32) d 999001100 false ;;
  let c15 := (overflow = false) in
  let c16 := (d = 999001150) in
  let d := 1001234 in
  '(d, overflow) <- d_add_carry (impl true D32) d 999781234 true ;;
  let c17 := (overflow = true) in
  let c18 := (d = 782469) in
  let d := 9999999999999999999 in
  '(d, overflow) <- d_add_carry (impl true D64) d 0 true ;;
  let c19 := (overflow = true) in
  let c20 := (d = 0) in
  let d := 9999999999999999999 in
  '(d, overflow) <- d_add_carry (impl true D64) d 46 false ;;
  let c21 := (overflow = true) in
  let c22 := (d = 45) in
  let d := 9999999999999999999 in
  '(d, overflow) <- d_add_carry (impl true D64) d 9999999999999999999 true ;;
  let c23 := (overflow = true) in
  let c24 := (d = 9999999999999999999) in
  Ret (c1 /\ c2 /\ c3 /\ c4 /\ c5 /\ c6 /\ c7 /\ c8 /\ c9 /\ c10 /\ c11 /\ c12 /\ c13 /\ c14 /\ c15 /\ c16 /\ c17 /\ c18 /\ c19 /\ c20 /\ c21 /\ c22 /\ c23 /\ c24)).
Proof. vm_compute. repeat split. Qed.

(** src/digit.rs:1226 *)
Example test_sub_carry_assign_binary : holds (
  let d := 47 in
  '(d, overflow) <- d_sub_carry (impl true B8) d 0 false ;;
  let c1 := (overflow = false) in
  let c2 := (d = 47) in
  let d := 128 in
  '(d, overflow) <- d_sub_carry (impl true B8) d 127 false ;;
  let c3 := (overflow = false) in
  let c4 := (d = 1) in
  let d := 128 in
  '(d, overflow) <- d_sub_carry (impl true B8) d 127 true ;;
  let c5 := (overflow = false) in
  let c6 := (d = 0) in
  let d := 128 in
  '(d, overflow) <- d_sub_carry (impl true B8) d 128 true ;;
  let c7 := (overflow = true) in
  let c8 := (d = 255) in
  let d := 127 in
  '(d, overflow) <- d_sub_carry (impl true B8) d 128 false ;;
  let c9 := (overflow = true) in
  let c10 := (d = 255) in
  let d := 128 in
  '(d, overflow) <- d_sub_carry (impl true B8) d 133 true ;;
  let c11 := (overflow = true) in
  let c12 := (d = 250) in
  let d := 65280 in
  '(d, overflow) <- d_sub_carry (impl true B16) d 128 false ;;
  let c13 := (overflow = false) in
  let c14 := (d = 65152) in
  let d := 32768 in
  '(d, overflow) <- d_sub_carry (impl true B16) d 65280 true ;;
  let c15 := (overflow = true) in
  let c16 := (d = 33023) in
  let d := 4278194560 in
  '(d, overflow) <- d_sub_carry (impl true B32) d 4278194432 false ;;
  let c17 := (overflow = false) in
  let c18 := (d = 128) in
  let d := 2141922408 in
  '(d, overflow) <- d_sub_carry (impl true B32) d 4289401396 true ;;
  let c19 := (overflow = true) in
  let c20 := (d = 2147488307) in
  Ret (c1 /\ c2 /\ c3 /\ c4 /\ c5 /\ c6 /\ c7 /\ c8 /\ c9 /\ c10 /\ c11 /\ c12 /\ c13 /\ c14 /\ c15 /\ c16 /\ c17 /\ c18 /\ c19 /\ c20)).
Proof. vm_compute. repeat split. Qed.

(** src/digit.rs:1280 *)
Example test_sub_carry_assign_decimal : holds (
  let d := 47 in
  '(d, overflow) <- d_sub_carry (impl true D8) d 0 false ;;
  let c1 := (overflow = false) in
  let c2 := (d = 47) in
  let d := 99 in
  '(d, overflow) <- d_sub_carry (impl true D8) d 49 false ;;
  let c3 := (overflow = false) in
  let c4 := (d = 50) in
  let d := 99 in
  '(d, overflow) <- d_sub_carry (impl true D8) d 99 true ;;
  let c5 := (overflow = true) in
  let c6 := (d = 99) in
  let d := 0 in
  '(d, overflow) <- d_sub_carry (impl true D8) d 50 false ;;
  let c7 := (overflow = true) in
  let c8 := (d = 50) in
  let d := 5 in
  '(d, overflow) <- d_sub_carry (impl true D8) d 55 true ;;
  let c9 := (overflow = true) in
  let c10 := (d = 49) in
  let d := 9950 in
  '(d, overflow) <- d_sub_carry (impl true D16) d 9900 false ;;
  let c11 := (overflow = false) in
  let c12 := (d = 50) in
  let d := 4900 in
  '(d, overflow) <- d_sub_carry (impl true D16) d 9900 true ;;
  let c13 := (overflow = true) in
  let c14 := (d = 4999) in
  let d := 999001150 in
  '(d, overflow) <- d_sub_carry (impl true D32) d 999001100 false ;;
  let c15 := (overflow = false) in
  let c16 := (d = 50) in
  let d := 782468 in
  '(d, overflow) <- d_sub_carry (impl true D32) d 999781234 true ;;
  let c17 := (overflow = true) in
  let c18 := (d = 1001233) in
  Ret (c1 /\ c2 /\ c3 /\ c4 /\ c5 /\ c6 /\ c7 /\ c8 /\ c9 /\ c10 /\ c11 /\ c12 /\ c13 /\ c14 /\ c15 /\ c16 /\ c17 /\ c18)).
Proof. vm_compute. repeat split. Qed.

(** src/digit.rs:1329 *)
Example test_shl_carry_assign_binary : holds (
  let d := 0 in
  '(d, carry) <- d_shl_carry (impl true B8) d 5 16 ;;
  let c1 := (d = 16) in
  let c2 := (carry = 0) in
  let d := 67 in
  '(d, carry) <- d_shl_carry (impl true B8) d 5 16 ;;
  let c3 := (d = 112) in
  let c4 := (carry = 8) in
  let d := 255 in
  '(d, carry) <- d_shl_carry (impl true B8) d 3 7 ;;
  let c5 := (d = 255) in
  let c6 := (carry = 7) in
  let d := 255 in
  '(d, carry) <- d_shl_carry (impl true B16) d 3 7 ;;
  let c7 := (d = 2047) in
  let c8 := (carry = 0) in
  let d := 41908 in
  '(d, carry) <- d_shl_carry (impl true B16) d 11 131 ;;
  let c9 := (d = 41091) in
  let c10 := (carry = 1309) in
  let d := 41908 in
  '(d, carry) <- d_shl_carry (impl true B32) d 11 131 ;;
  let c11 := (d = 85827715) in
  let c12 := (carry = 0) in
  let d := 2140775348 in
  '(d, carry) <- d_shl_carry (impl true B32) d 21 136323 ;;
  let c13 := (d = 1988236419) in
  let c14 := (carry = 1045300) in
  Ret (c1 /\ c2 /\ c3 /\ c4 /\ c5 /\ c6 /\ c7 /\ c8 /\ c9 /\ c10 /\ c11 /\ c12 /\ c13 /\ c14)).
Proof. vm_compute. repeat split. Qed.

(** src/digit.rs:1368 *)
Example test_shl_carry_assign_decimal : holds (
  let d := 0 in
  '(d, carry) <- d_shl_carry (impl true D8) d 5 10 ;;
  let c1 := (d = 10) in
  let c2 := (carry = 0) in
  let d := 43 in
  '(d, carry) <- d_shl_carry (impl true D8) d 5 10 ;;
  let c3 := (d = 86) in
  let c4 := (carry = 13) in
  let d := 99 in
  '(d, carry) <- d_shl_carry (impl true D8) d 3 7 ;;
  let c5 := (d = 99) in
  let c6 := (carry = 7) in
  let d := 99 in
  '(d, carry) <- d_shl_carry (impl true D16) d 3 7 ;;
  let c7 := (d = 799) in
  let c8 := (carry = 0) in
  let d := 9281 in
  '(d, carry) <- d_shl_carry (impl true D16) d 11 83 ;;
  let c9 := (d = 7571) in
  let c10 := (carry = 1900) in
  let d := 9281 in
  '(d, carry) <- d_shl_carry (impl true D32) d 11 83 ;;
  let c11 := (d = 19007571) in
  let c12 := (carry = 0) in
  let d := 781187923 in
  '(d, carry) <- d_shl_carry (impl true D32) d 21 27872 ;;
  let c13 := (d = 815123168) in
  let c14 := (carry = 1638269) in
  Ret (c1 /\ c2 /\ c3 /\ c4 /\ c5 /\ c6 /\ c7 /\ c8 /\ c9 /\ c10 /\ c11 /\ c12 /\ c13 /\ c14)).
Proof. vm_compute. repeat split. Qed.

(** src/digit.rs:1407 *)
Example test_shr_carry_assign_binary : holds (
  let d := 0 in
  '(d, carry) <- d_shr_carry (impl true B8) d 5 16 ;;
  let c1 := (d = 128) in
  let c2 := (carry = 0) in
  let d := 67 in
  '(d, carry) <- d_shr_carry (impl true B8) d 5 16 ;;
  let c3 := (d = 130) in
  let c4 := (carry = 3) in
  let d := 255 in
  '(d, carry) <- d_shl_carry (impl true B8) d 3 7 ;;
  let c5 := (d = 255) in
  let c6 := (carry = 7) in
  let d := 255 in
  '(d, carry) <- d_shr_carry (impl true B16) d 3 7 ;;
  let c7 := (d = 57375) in
  let c8 := (carry = 7) in
  let d := 41908 in
  '(d, carry) <- d_shr_carry (impl true B16) d 11 131 ;;
  let c9 := (d = 4212) in
  let c10 := (carry = 948) in
  let d := 41908 in
  '(d, carry) <- d_shr_carry (impl true B32) d 11 131 ;;
  let c11 := (d = 274726932) in
  let c12 := (carry = 948) in
  let d := 2140775348 in
  '(d, carry) <- d_shr_carry (impl true B32) d 21 136323 ;;
  let c13 := (d = 279190524) in
  let c14 := (carry = 1680308) in
  Ret (c1 /\ c2 /\ c3 /\ c4 /\ c5 /\ c6 /\ c7 /\ c8 /\ c9 /\ c10 /\ c11 /\ c12 /\ c13 /\ c14)).
Proof. vm_compute. repeat split. Qed.

(** src/digit.rs:1446 *)
Example test_shr_carry_assign_decimal : holds (
  let d := 0 in
  '(d, carry) <- d_shr_carry (impl true D8) d 5 10 ;;
  let c1 := (d = 31) in
  let c2 := (carry = 8) in
  let d := 43 in
  '(d, carry) <- d_shr_carry (impl true D8) d 5 10 ;;
  let c3 := (d = 32) in
  let c4 := (carry = 19) in
  let d := 99 in
  '(d, carry) <- d_shl_carry (impl true D8) d 3 7 ;;
  let c5 := (d = 99) in
  let c6 := (carry = 7) in
  let d := 99 in
  '(d, carry) <- d_shr_carry (impl true D16) d 3 7 ;;
  let c7 := (d = 8762) in
  let c8 := (carry = 3) in
  let d := 9281 in
  '(d, carry) <- d_shr_carry (impl true D16) d 11 83 ;;
  let c9 := (d = 409) in
  let c10 := (carry = 1649) in
  let d := 9281 in
  '(d, carry) <- d_shr_carry (impl true D32) d 11 83 ;;
  let c11 := (d = 40527348) in
  let c12 := (carry = 577) in
  let d := 781187923 in
  '(d, carry) <- d_shr_carry (impl true D32) d 21 27872 ;;
  let c13 := (d = 13290777) in
  let c14 := (carry = 1620819) in
  Ret (c1 /\ c2 /\ c3 /\ c4 /\ c5 /\ c6 /\ c7 /\ c8 /\ c9 /\ c10 /\ c11 /\ c12 /\ c13 /\ c14)).
Proof. vm_compute. repeat split. Qed.

(** src/digit.rs:1485 *)
Example test_mul_carry_assign_binary : holds (
  let d := 0 in
  '(d, carry) <- d_mul_carry (impl true B8) d 71 255 ;;
  let c1 := (d = 255) in
  let c2 := (carry = 0) in
  let d := 19 in
  '(d, carry) <- d_mul_carry (impl true B8) d 0 255 ;;
  let c3 := (d = 255) in
  let c4 := (carry = 0) in
  let d := 19 in
  '(d, carry) <- d_mul_carry (impl true B8) d 71 255 ;;
  let c5 := (d = 68) in
  let c6 := (carry = 6) in
  let d := 255 in
  '(d, carry) <- d_mul_carry (impl true B8) d 255 255 ;;
  let c7 := (d = 0) in
  let c8 := (carry = 255) in
  let d := 0 in
  '(d, carry) <- d_mul_carry (impl true B16) d 18218 65535 ;;
  let c9 := (d = 65535) in
  let c10 := (carry = 0) in
  let d := 5106 in
  '(d, carry) <- d_mul_carry (impl true B16) d 0 65535 ;;
  let c11 := (d = 65535) in
  let c12 := (carry = 0) in
  let d := 5106 in
  '(d, carry) <- d_mul_carry (impl true B16) d 18218 65535 ;;
  let c13 := (d = 25523) in
  let c14 := (carry = 1420) in
  let d := 65535 in
  '(d, carry) <- d_mul_carry (impl true B16) d 65535 65535 ;;
  let c15 := (d = 0) in
  let c16 := (carry = 65535) in
  let d := 0 in
  '(d, carry) <- d_mul_carry (impl true B32) d 1193940735 4294967295 ;;
  let c17 := (d = 4294967295) in
  let c18 := (carry = 0) in
  let d := 334670471 in
  '(d, carry) <- d_mul_carry (impl true B32) d 0 4294967295 ;;
  let c19 := (d = 4294967295) in
  let c20 := (carry = 0) in
  let d := 334670471 in
  '(d, carry) <- d_mul_carry (impl true B32) d 1193940735 4294967295 ;;
  let c21 := (d = 612726392) in
  let c22 := (carry = 93033703) in
  let d := 4294967295 in
  '(d, carry) <- d_mul_carry (impl true B32) d 4294967295 4294967295 ;;
  let c23 := (d = 0) in
  let c24 := (carry = 4294967295) in
  Ret (c1 /\ c2 /\ c3 /\ c4 /\ c5 /\ c6 /\ c7 /\ c8 /\ c9 /\ c10 /\ c11 /\ c12 /\ c13 /\ c14 /\ c15 /\ c16 /\ c17 /\ c18 /\ c19 /\ c20 /\ c21 /\ c22 /\ c23 /\ c24)).
Proof. vm_compute. repeat split. Qed.

(** src/digit.rs:1549 *)
Example test_mul_carry_assign_decimal : holds (
  let d := 0 in
  '(d, carry) <- d_mul_carry (impl true D8) d 47 99 ;;
  let c1 := (d = 99) in
  let c2 := (carry = 0) in
  let d := 13 in
  '(d, carry) <- d_mul_carry (impl true D8) d 0 99 ;;
  let c3 := (d = 99) in
  let c4 := (carry = 0) in
  let d := 13 in
  '(d, carry) <- d_mul_carry (impl true D8) d 47 99 ;;
  let c5 := (d = 10) in
  let c6 := (carry = 7) in
  let d := 99 in
  '(d, carry) <- d_mul_carry (impl true D8) d 99 99 ;;
  let c7 := (d = 0) in
  let c8 := (carry = 99) in
  let d := 0 in
  '(d, carry) <- d_mul_carry (impl true D16) d 4729 9999 ;;
  let c9 := (d = 9999) in
  let c10 := (carry = 0) in
  let d := 1392 in
  '(d, carry) <- d_mul_carry (impl true D16) d 0 9999 ;;
  let c11 := (d = 9999) in
  let c12 := (carry = 0) in
  let d := 1392 in
  '(d, carry) <- d_mul_carry (impl true D16) d 4729 9999 ;;
  let c13 := (d = 2767) in
  let c14 := (carry = 659) in
  let d := 9999 in
  '(d, carry) <- d_mul_carry (impl true D16) d 9999 9999 ;;
  let c15 := (d = 0) in
  let c16 := (carry = 9999) in
  let d := 0 in
  '(d, carry) <- d_mul_carry (impl true D32) d 647211698 999999999 ;;
  let c17 := (d = 999999999) in
  let c18 := (carry = 0) in
  let d := 13921887 in
  '(d, carry) <- d_mul_carry (impl true D32) d 0 999999999 ;;
  let c19 := (d = 999999999) in
  let c20 := (carry = 0) in
  let d := 13921887 in
  '(d, carry) <- d_mul_carry (impl true D32) d 647211698 999999999 ;;
  let c21 := (d = 124634125) in
  let c22 := (carry = 9010409) in
  let d := 999999999 in
  '(d, carry) <- d_mul_carry (impl true D32) d 999999999 999999999 ;;
  let c23 := (d = 0) in
  let c24 := (carry = 999999999) in
  Ret (c1 /\ c2 /\ c3 /\ c4 /\ c5 /\ c6 /\ c7 /\ c8 /\ c9 /\ c10 /\ c11 /\ c12 /\ c13 /\ c14 /\ c15 /\ c16 /\ c17 /\ c18 /\ c19 /\ c20 /\ c21 /\ c22 /\ c23 /\ c24)).
Proof. vm_compute. repeat split. Qed.

(** src/digit.rs:1613 *)
Example test_rem_carry_binary : holds (
  let d := 0 in
  rem <- d_rem_carry (impl true B8) d 35 33 ;;
  let c1 := (rem = 13) in
  let d := 9461 in
  rem <- d_rem_carry (impl true B16) d 4929 1925 ;;
  let c2 := (rem = 3577) in
  let d := 4092851187 in
  rem <- d_rem_carry (impl true B32) d 2557891634 267242409 ;;
  let c3 := (rem = 436644533) in
  let d := 17617506935104148140 in
  rem <- d_rem_carry (impl true B64) d 17499403916356494904 16381606322510225357 ;;
  let c4 := (rem = 10723890922131493404) in
  Ret (c1 /\ c2 /\ c3 /\ c4)).
Proof. vm_compute. repeat split. Qed.

(** src/digit.rs:1633 *)
Example test_rem_carry_decimal : holds (
  let d := 0 in
  rem <- d_rem_carry (impl true D8) d 23 21 ;;
  let c1 := (rem = 7) in
  let d := 7356 in
  rem <- d_rem_carry (impl true D16) d 6543 4878 ;;
  let c2 := (rem = 2748) in
  let d := 673987213 in
  rem <- d_rem_carry (impl true D32) d 985310213 5340 ;;
  let c3 := (rem = 292632753) in
  let d := 3219876444342231999 in
  rem <- d_rem_carry (impl true D64) d 4216766493986433786 3987463233760756987 ;;
  let c4 := (rem = 4017986314238083705) in
  Ret (c1 /\ c2 /\ c3 /\ c4)).
Proof. vm_compute. repeat split. Qed.

(** src/digit.rs:1653 *)
Example test_div3_carry_assign_binary : holds (
  let d := 0 in
  '(d, carry) <- d_div3_carry (impl true B8) d 0 ;;
  let c1 := (d = 0) in
  let c2 := (carry = 0) in
  let d := 21 in
  '(d, carry) <- d_div3_carry (impl true B8) d 0 ;;
  let c3 := (d = 7) in
  let c4 := (carry = 0) in
  let d := 21 in
  '(d, carry) <- d_div3_carry (impl true B8) d 1 ;;
  let c5 := (d = 92) in
  let c6 := (carry = 1) in
  let d := 21 in
  '(d, carry) <- d_div3_carry (impl true B32) d 1 ;;
  let c7 := (d = 1431655772) in
  let c8 := (carry = 1) in
  let d := 62379 in
  '(d, carry) <- d_div3_carry (impl true B16) d 2 ;;
  let c9 := (d = 64483) in
  let c10 := (carry = 2) in
  let d := 1346359096347283234 in
  '(d, carry) <- d_div3_carry (impl true B64) d 2 ;;
  let c11 := (d = 12746615747922128822) in
  let c12 := (carry = 0) in
  let d := 1346359096347283234 in
  '(d, carry) <- d_div3_carry (impl true B64) d 1 ;;
  let c13 := (d = 6597701056685611616) in
  let c14 := (carry = 2) in
  let d := 18446744073709551615 in
  '(d, carry) <- d_div3_carry (impl true B64) d 2 ;;
  let c15 := (d = 18446744073709551615) in
  let c16 := (carry = 2) in
  Ret (c1 /\ c2 /\ c3 /\ c4 /\ c5 /\ c6 /\ c7 /\ c8 /\ c9 /\ c10 /\ c11 /\ c12 /\ c13 /\ c14 /\ c15 /\ c16)).
Proof. vm_compute. repeat split. Qed.

(** src/digit.rs:1697 *)
Example test_div3_carry_assign_decimal : holds (
  let d := 0 in
  '(d, carry) <- d_div3_carry (impl true D8) d 0 ;;
  let c1 := (d = 0) in
  let c2 := (carry = 0) in
  let d := 15 in
  '(d, carry) <- d_div3_carry (impl true D8) d 0 ;;
  let c3 := (d = 5) in
  let c4 := (carry = 0) in
  let d := 15 in
  '(d, carry) <- d_div3_carry (impl true D8) d 1 ;;
  let c5 := (d = 38) in
  let c6 := (carry = 1) in
  let d := 15 in
  '(d, carry) <- d_div3_carry (impl true D32) d 1 ;;
  let c7 := (d = 333333338) in
  let c8 := (carry = 1) in
  let d := 6536 in
  '(d, carry) <- d_div3_carry (impl true D64) d 2 ;;
  let c9 := (d = 6666666666666668845) in
  let c10 := (carry = 1) in
  Ret (c1 /\ c2 /\ c3 /\ c4 /\ c5 /\ c6 /\ c7 /\ c8 /\ c9 /\ c10)).
Proof. vm_compute. repeat split. Qed.

(** src/digit.rs:1726 *)
Example test_div_carry_assign_binary : holds (
  let d := 20 in
  '(d, carry) <- d_div_carry (impl true B8) d 1 0 ;;
  let c1 := (d = 20) in
  let c2 := (carry = 0) in
  let d := 255 in
  '(d, carry) <- d_div_carry (impl true B8) d 1 0 ;;
  let c3 := (d = 255) in
  let c4 := (carry = 0) in
  let d := 0 in
  '(d, carry) <- d_div_carry (impl true B8) d 19 8 ;;
  let c5 := (d = 107) in
  let c6 := (carry = 15) in
  let d := 83 in
  '(d, carry) <- d_div_carry (impl true B8) d 19 8 ;;
  let c7 := (d = 112) in
  let c8 := (carry = 3) in
  let d := 83 in
  '(d, carry) <- d_div_carry (impl true B16) d 19 8 ;;
  let c9 := (d = 27598) in
  let c10 := (carry = 9) in
  let d := 83 in
  '(d, carry) <- d_div_carry (impl true B32) d 19 8 ;;
  let c11 := (d = 1808407286) in
  let c12 := (carry = 17) in
  Ret (c1 /\ c2 /\ c3 /\ c4 /\ c5 /\ c6 /\ c7 /\ c8 /\ c9 /\ c10 /\ c11 /\ c12)).
Proof. vm_compute. repeat split. Qed.

(** src/digit.rs:1760 *)
Example test_div_carry_assign_decimal : holds (
  let d := 14 in
  '(d, carry) <- d_div_carry (impl true D8) d 1 0 ;;
  let c1 := (d = 14) in
  let c2 := (carry = 0) in
  let d := 99 in
  '(d, carry) <- d_div_carry (impl true D8) d 1 0 ;;
  let c3 := (d = 99) in
  let c4 := (carry = 0) in
  let d := 0 in
  '(d, carry) <- d_div_carry (impl true D8) d 13 8 ;;
  let c5 := (d = 61) in
  let c6 := (carry = 7) in
  let d := 53 in
  '(d, carry) <- d_div_carry (impl true D8) d 13 8 ;;
  let c7 := (d = 65) in
  let c8 := (carry = 8) in
  let d := 53 in
  '(d, carry) <- d_div_carry (impl true D16) d 13 8 ;;
  let c9 := (d = 6157) in
  let c10 := (carry = 12) in
  let d := 53 in
  '(d, carry) <- d_div_carry (impl true D32) d 13 8 ;;
  let c11 := (d = 615384619) in
  let c12 := (carry = 6) in
  Ret (c1 /\ c2 /\ c3 /\ c4 /\ c5 /\ c6 /\ c7 /\ c8 /\ c9 /\ c10 /\ c11 /\ c12)).
Proof. vm_compute. repeat split. Qed.

(** src/digit.rs:1794 *)
Example test_add_prod_carry_assign_binary : holds (
  let d := 55 in
  '(d, carry) <- d_add_prod_carry (impl true B8) d 0 255 0 ;;
  let c1 := (d = 55) in
  let c2 := (carry = 0) in
  let d := 55 in
  '(d, carry) <- d_add_prod_carry (impl true B8) d 0 255 35 ;;
  let c3 := (d = 90) in
  let c4 := (carry = 0) in
  let d := 55 in
  '(d, carry) <- d_add_prod_carry (impl true B8) d 255 0 35 ;;
  let c5 := (d = 90) in
  let c6 := (carry = 0) in
  let d := 255 in
  '(d, carry) <- d_add_prod_carry (impl true B8) d 33 52 172 ;;
  let c7 := (d = 95) in
  let c8 := (carry = 8) in
  let d := 35 in
  '(d, carry) <- d_add_prod_carry (impl true B8) d 255 255 115 ;;
  let c9 := (d = 151) in
  let c10 := (carry = 254) in
  let d := 55 in
  '(d, carry) <- d_add_prod_carry (impl true B32) d 0 255 0 ;;
  let c11 := (d = 55) in
  let c12 := (carry = 0) in
  let d := 55 in
  '(d, carry) <- d_add_prod_carry (impl true B32) d 0 255 35 ;;
  let c13 := (d = 90) in
  let c14 := (carry = 0) in
  let d := 255 in
  '(d, carry) <- d_add_prod_carry (impl true B32) d 33 52 172 ;;
  let c15 := (d = 2143) in
  let c16 := (carry = 0) in
  let d := 35 in
  '(d, carry) <- d_add_prod_carry (impl true B32) d 255 255 115 ;;
  let c17 := (d = 65175) in
  let c18 := (carry = 0) in
  let d := 1902211789 in
  '(d, carry) <- d_add_prod_carry (impl true B32) d 4064359761 2191032720 2899845357 ;;
  let c19 := (d = 148726346) in
  let c20 := (carry = 2073390695) in
  let d := 4294967295 in
  '(d, carry) <- d_add_prod_carry (impl true B32) d 4294967295 4294967295 4294967295 ;;
  let c21 := (d = 4294967295) in
  let c22 := (carry = 4294967295) in
  Ret (c1 /\ c2 /\ c3 /\ c4 /\ c5 /\ c6 /\ c7 /\ c8 /\ c9 /\ c10 /\ c11 /\ c12 /\ c13 /\ c14 /\ c15 /\ c16 /\ c17 /\ c18 /\ c19 /\ c20 /\ c21 /\ c22)).
Proof. vm_compute. repeat split. Qed.

(** src/digit.rs:1833 *)
Example test_add_prod_carry_assign_decimal : holds (
  let d := 37 in
  '(d, carry) <- d_add_prod_carry (impl true D8) d 0 99 0 ;;
  let c1 := (d = 37) in
  let c2 := (carry = 0) in
  let d := 37 in
  '(d, carry) <- d_add_prod_carry (impl true D8) d 0 99 23 ;;
  let c3 := (d = 60) in
  let c4 := (carry = 0) in
  let d := 37 in
  '(d, carry) <- d_add_prod_carry (impl true D8) d 99 0 23 ;;
  let c5 := (d = 60) in
  let c6 := (carry = 0) in
  let d := 99 in
  '(d, carry) <- d_add_prod_carry (impl true D8) d 21 34 75 ;;
  let c7 := (d = 88) in
  let c8 := (carry = 8) in
  let d := 23 in
  '(d, carry) <- d_add_prod_carry (impl true D8) d 99 99 73 ;;
  let c9 := (d = 97) in
  let c10 := (carry = 98) in
  let d := 37 in
  '(d, carry) <- d_add_prod_carry (impl true D32) d 0 99 0 ;;
  let c11 := (d = 37) in
  let c12 := (carry = 0) in
  let d := 37 in
  '(d, carry) <- d_add_prod_carry (impl true D32) d 0 99 23 ;;
  let c13 := (d = 60) in
  let c14 := (carry = 0) in
  let d := 99 in
  '(d, carry) <- d_add_prod_carry (impl true D32) d 21 34 75 ;;
  let c15 := (d = 888) in
  let c16 := (carry = 0) in
  let d := 23 in
  '(d, carry) <- d_add_prod_carry (impl true D32) d 99 99 73 ;;
  let c17 := (d = 9897) in
  let c18 := (carry = 0) in
  let d := 983109582 in
  '(d, carry) <- d_add_prod_carry (impl true D32) d 338928191 233922929 982192889 ;;
  let c19 := (d = 124693910) in
  let c20 := (carry = 79283077) in
  let d := 999999999 in
  '(d, carry) <- d_add_prod_carry (impl true D32) d 999999999 999999999 999999999 ;;
  let c21 := (d = 999999999) in
  let c22 := (carry = 999999999) in
  Ret (c1 /\ c2 /\ c3 /\ c4 /\ c5 /\ c6 /\ c7 /\ c8 /\ c9 /\ c10 /\ c11 /\ c12 /\ c13 /\ c14 /\ c15 /\ c16 /\ c17 /\ c18 /\ c19 /\ c20 /\ c21 /\ c22)).
Proof. vm_compute. repeat split. Qed.

(** src/digit.rs:1872 *)
Example test_sub_prod_carry_assign_binary : holds (
  let d := 55 in
  '(d, carry) <- d_sub_prod_carry (impl true B8) d 0 255 0 ;;
  let c1 := (d = 55) in
  let c2 := (carry = 0) in
  let d := 55 in
  '(d, carry) <- d_sub_prod_carry (impl true B8) d 0 255 35 ;;
  let c3 := (d = 20) in
  let c4 := (carry = 0) in
  let d := 55 in
  '(d, carry) <- d_sub_prod_carry (impl true B8) d 255 0 35 ;;
  let c5 := (d = 20) in
  let c6 := (carry = 0) in
  let d := 255 in
  '(d, carry) <- d_sub_prod_carry (impl true B8) d 33 52 172 ;;
  let c7 := (d = 159) in
  let c8 := (carry = 7) in
  let d := 35 in
  '(d, carry) <- d_sub_prod_carry (impl true B8) d 255 255 115 ;;
  let c9 := (d = 175) in
  let c10 := (carry = 255) in
  let d := 55 in
  '(d, carry) <- d_sub_prod_carry (impl true B32) d 0 255 0 ;;
  let c11 := (d = 55) in
  let c12 := (carry = 0) in
  let d := 55 in
  '(d, carry) <- d_sub_prod_carry (impl true B32) d 0 255 35 ;;
  let c13 := (d = 20) in
  let c14 := (carry = 0) in
  let d := 255 in
  '(d, carry) <- d_sub_prod_carry (impl true B32) d 33 52 172 ;;
  let c15 := (d = 4294965663) in
  let c16 := (carry = 1) in
  let d := 35 in
  '(d, carry) <- d_sub_prod_carry (impl true B32) d 255 255 115 ;;
  let c17 := (d = 4294902191) in
  let c18 := (carry = 1) in
  let d := 1902211789 in
  '(d, carry) <- d_sub_prod_carry (impl true B32) d 4064359761 2191032720 2899845357 ;;
  let c19 := (d = 3655697232) in
  let c20 := (carry = 2073390695) in
  let d := 4294967295 in
  '(d, carry) <- d_sub_prod_carry (impl true B32) d 4294967295 4294967295 4294967295 ;;
  let c21 := (d = 4294967295) in
  let c22 := (carry = 4294967295) in
  Ret (c1 /\ c2 /\ c3 /\ c4 /\ c5 /\ c6 /\ c7 /\ c8 /\ c9 /\ c10 /\ c11 /\ c12 /\ c13 /\ c14 /\ c15 /\ c16 /\ c17 /\ c18 /\ c19 /\ c20 /\ c21 /\ c22)).
Proof. vm_compute. repeat split. Qed.

(** src/digit.rs:1911 *)
Example test_sub_prod_carry_assign_decimal : holds (
  let d := 37 in
  '(d, carry) <- d_sub_prod_carry (impl true D8) d 0 99 0 ;;
  let c1 := (d = 37) in
  let c2 := (carry = 0) in
  let d := 37 in
  '(d, carry) <- d_sub_prod_carry (impl true D8) d 0 99 23 ;;
  let c3 := (d = 14) in
  let c4 := (carry = 0) in
  let d := 37 in
  '(d, carry) <- d_sub_prod_carry (impl true D8) d 99 0 23 ;;
  let c5 := (d = 14) in
  let c6 := (carry = 0) in
  let d := 99 in
  '(d, carry) <- d_sub_prod_carry (impl true D8) d 21 34 75 ;;
  let c7 := (d = 10) in
  let c8 := (carry = 7) in
  let d := 23 in
  '(d, carry) <- d_sub_prod_carry (impl true D8) d 99 99 73 ;;
  let c9 := (d = 49) in
  let c10 := (carry = 99) in
  let d := 37 in
  '(d, carry) <- d_sub_prod_carry (impl true D32) d 0 99 0 ;;
  let c11 := (d = 37) in
  let c12 := (carry = 0) in
  let d := 37 in
  '(d, carry) <- d_sub_prod_carry (impl true D32) d 0 99 23 ;;
  let c13 := (d = 14) in
  let c14 := (carry = 0) in
  let d := 99 in
  '(d, carry) <- d_sub_prod_carry (impl true D32) d 21 34 75 ;;
  let c15 := (d = 999999310) in
  let c16 := (carry = 1) in
  let d := 23 in
  '(d, carry) <- d_sub_prod_carry (impl true D32) d 99 99 73 ;;
  let c17 := (d = 999990149) in
  let c18 := (carry = 1) in
  let d := 983109582 in
  '(d, carry) <- d_sub_prod_carry (impl true D32) d 338928191 233922929 982192889 ;;
  let c19 := (d = 841525254) in
  let c20 := (carry = 79283076) in
  let d := 999999999 in
  '(d, carry) <- d_sub_prod_carry (impl true D32) d 999999999 999999999 999999999 ;;
  let c21 := (d = 999999999) in
  let c22 := (carry = 999999999) in
  Ret (c1 /\ c2 /\ c3 /\ c4 /\ c5 /\ c6 /\ c7 /\ c8 /\ c9 /\ c10 /\ c11 /\ c12 /\ c13 /\ c14 /\ c15 /\ c16 /\ c17 /\ c18 /\ c19 /\ c20 /\ c21 /\ c22)).
Proof. vm_compute. repeat split. Qed.

(** src/digit.rs:1950 *)
Example test_div_rem_base_decimal64 : holds (
  '(q, r) <- div_rem_base true (decimal_radix D64) 0 ;;
  let c1 := (q = 0) in
  let c2 := (r = 0) in
  '(q, r) <- div_rem_base true (decimal_radix D64) 5986132876982192889 ;;
  let c3 := (q = 0) in
  let c4 := (r = 5986132876982192889) in
  '(q, r) <- div_rem_base true (decimal_radix D64) 10000000000000000000 ;;
  let c5 := (q = 1) in
  let c6 := (r = 0) in
  '(q, r) <- div_rem_base true (decimal_radix D64) 20000000000000000001 ;;
  let c7 := (q = 2) in
  let c8 := (r = 1) in
  '(q, r) <- div_rem_base true (decimal_radix D64) 29999999999999999999 ;;
  let c9 := (q = 2) in
  let c10 := (r = 9999999999999999999) in
  '(q, r) <- div_rem_base true (decimal_radix D64) 99999999999999999999999999999999999999 ;;
  let c11 := (q = 9999999999999999999) in
  let c12 := (r = 9999999999999999999) in
  Ret (c1 /\ c2 /\ c3 /\ c4 /\ c5 /\ c6 /\ c7 /\ c8 /\ c9 /\ c10 /\ c11 /\ c12)).
Proof. vm_compute. repeat split. Qed.

(** src/digit.rs:1978 *)
Example test_double_assign_binary : holds (
  let d := 0 in
  '(d, carry) <- d_double_carry (impl true B8) d true ;;
  let c1 := (d = 1) in
  let c2 := (carry = false) in
  let d := 35 in
  '(d, carry) <- d_double_carry (impl true B8) d false ;;
  let c3 := (d = 70) in
  let c4 := (carry = false) in
  let d := 35 in
  '(d, carry) <- d_double_carry (impl true B8) d true ;;
  let c5 := (d = 71) in
  let c6 := (carry = false) in
  let d := 131 in
  '(d, carry) <- d_double_carry (impl true B8) d true ;;
  let c7 := (d = 7) in
  let c8 := (carry = true) in
  let d := 131 in
  '(d, carry) <- d_double_carry (impl true B16) d true ;;
  let c9 := (d = 263) in
  let c10 := (carry = false) in
  let d := 64643 in
  '(d, carry) <- d_double_carry (impl true B16) d false ;;
  let c11 := (d = 63750) in
  let c12 := (carry = true) in
  let d := 64643 in
  '(d, carry) <- d_double_carry (impl true B32) d false ;;
  let c13 := (d = 129286) in
  let c14 := (carry = false) in
  let d := 891616387 in
  '(d, carry) <- d_double_carry (impl true B32) d true ;;
  let c15 := (d = 1783232775) in
  let c16 := (carry = false) in
  let d := 3307535491 in
  '(d, carry) <- d_double_carry (impl true B32) d true ;;
  let c17 := (d = 2320103687) in
  let c18 := (carry = true) in
  let d := 3307535491 in
  '(d, carry) <- d_double_carry (impl true B64) d true ;;
  let c19 := (d = 6615070983) in
  let c20 := (carry = false) in
  let d := 4793910690851388547 in
  '(d, carry) <- d_double_carry (impl true B64) d false ;;
  let c21 := (d = 9587821381702777094) in
  let c22 := (carry = false) in
  let d := 10558518213885623427 in
  '(d, carry) <- d_double_carry (impl true B64) d false ;;
  let c23 := (d = 2670292354061695238) in
  let c24 := (carry = true) in
  Ret (c1 /\ c2 /\ c3 /\ c4 /\ c5 /\ c6 /\ c7 /\ c8 /\ c9 /\ c10 /\ c11 /\ c12 /\ c13 /\ c14 /\ c15 /\ c16 /\ c17 /\ c18 /\ c19 /\ c20 /\ c21 /\ c22 /\ c23 /\ c24)).
Proof. vm_compute. repeat split. Qed.

(** src/digit.rs:2042 *)
Example test_double_assign_decimal : holds (
  let d := 0 in
  '(d, carry) <- d_double_carry (impl true D8) d true ;;
  let c1 := (d = 1) in
  let c2 := (carry = false) in
  let d := 23 in
  '(d, carry) <- d_double_carry (impl true D8) d false ;;
  let c3 := (d = 46) in
  let c4 := (carry = false) in
  let d := 23 in
  '(d, carry) <- d_double_carry (impl true D8) d true ;;
  let c5 := (d = 47) in
  let c6 := (carry = false) in
  let d := 53 in
  '(d, carry) <- d_double_carry (impl true D8) d true ;;
  let c7 := (d = 7) in
  let c8 := (carry = true) in
  let d := 53 in
  '(d, carry) <- d_double_carry (impl true D16) d true ;;
  let c9 := (d = 107) in
  let c10 := (carry = false) in
  let d := 6543 in
  '(d, carry) <- d_double_carry (impl true D16) d false ;;
  let c11 := (d = 3086) in
  let c12 := (carry = true) in
  let d := 6543 in
  '(d, carry) <- d_double_carry (impl true D32) d false ;;
  let c13 := (d = 13086) in
  let c14 := (carry = false) in
  let d := 742887352 in
  '(d, carry) <- d_double_carry (impl true D32) d true ;;
  let c15 := (d = 485774705) in
  let c16 := (carry = true) in
  let d := 742887352 in
  '(d, carry) <- d_double_carry (impl true D64) d true ;;
  let c17 := (d = 1485774705) in
  let c18 := (carry = false) in
  let d := 1504988172742887352 in
  '(d, carry) <- d_double_carry (impl true D64) d false ;;
  let c19 := (d = 3009976345485774704) in
  let c20 := (carry = false) in
  let d := 5504988172742887352 in
  '(d, carry) <- d_double_carry (impl true D64) d false ;;
  let c21 := (d = 1009976345485774704) in
  let c22 := (carry = true) in
  let d := 9504988172742887352 in
  '(d, carry) <- d_double_carry (impl true D64) d false ;;
  let c23 := (d = 9009976345485774704) in
  let c24 := (carry = true) in
  Ret (c1 /\ c2 /\ c3 /\ c4 /\ c5 /\ c6 /\ c7 /\ c8 /\ c9 /\ c10 /\ c11 /\ c12 /\ c13 /\ c14 /\ c15 /\ c16 /\ c17 /\ c18 /\ c19 /\ c20 /\ c21 /\ c22 /\ c23 /\ c24)).
Proof. vm_compute. repeat split. Qed.

(** ** src/ubig/add.rs *)

(** src/ubig/add.rs:129 *)
Example test_inc_assign_binary : holds (
  let nr : digits := [] in
  '(nr, overflow) <- inc_assign (impl true B8) nr ;;
  let c1 := (nr = []) in
  let c2 := (overflow = true) in
  let nr : digits := [1] in
  '(nr, overflow) <- inc_assign (impl true B8) nr ;;
  let c3 := (nr = [2]) in
  let c4 := (overflow = false) in
  let nr : digits := [255] in
  '(nr, overflow) <- inc_assign (impl true B8) nr ;;
  let c5 := (nr = [0]) in
  let c6 := (overflow = true) in
  let nr : digits := [255; 1] in
  '(nr, overflow) <- inc_assign (impl true B8) nr ;;
  let c7 := (nr = [0; 2]) in
  let c8 := (overflow = false) in
  let nr : digits := [255; 1; 3] in
  '(nr, overflow) <- inc_assign (impl true B8) nr ;;
  let c9 := (nr = [0; 2; 3]) in
  let c10 := (overflow = false) in
  let nr : digits := [255; 255; 3] in
  '(nr, overflow) <- inc_assign (impl true B8) nr ;;
  let c11 := (nr = [0; 0; 4]) in
  let c12 := (overflow = false) in
  let nr : digits := [255; 255; 255] in
  '(nr, overflow) <- inc_assign (impl true B8) nr ;;
  let c13 := (nr = [0; 0; 0]) in
  let c14 := (overflow = true) in
  let nr : digits := [255; 255] in
  '(nr, overflow) <- inc_assign (impl true B32) nr ;;
  let c15 := (nr = [256; 255]) in
  let c16 := (overflow = false) in
  let nr : digits := [4294967295; 255] in
  '(nr, overflow) <- inc_assign (impl true B32) nr ;;
  let c17 := (nr = [0; 256]) in
  let c18 := (overflow = false) in
  let nr : digits := [255; 4294967295] in
  '(nr, overflow) <- inc_assign (impl true B32) nr ;;
  let c19 := (nr = [256; 4294967295]) in
  let c20 := (overflow = false) in
  let nr : digits := [4294967295; 4294967295] in
  '(nr, overflow) <- inc_assign (impl true B32) nr ;;
  let c21 := (nr = [0; 0]) in
  let c22 := (overflow = true) in
  Ret (c1 /\ c2 /\ c3 /\ c4 /\ c5 /\ c6 /\ c7 /\ c8 /\ c9 /\ c10 /\ c11 /\ c12 /\ c13 /\ c14 /\ c15 /\ c16 /\ c17 /\ c18 /\ c19 /\ c20 /\ c21 /\ c22)).
Proof. vm_compute. repeat split. Qed.

(** src/ubig/add.rs:188 *)
Example test_inc_assign_decimal : holds (
  let nr : digits := [] in
  '(nr, overflow) <- inc_assign (impl true D8) nr ;;
  let c1 := (nr = []) in
  let c2 := (overflow = true) in
  let nr : digits := [1] in
  '(nr, overflow) <- inc_assign (impl true D8) nr ;;
  let c3 := (nr = [2]) in
  let c4 := (overflow = false) in
  let nr : digits := [99] in
  '(nr, overflow) <- inc_assign (impl true D8) nr ;;
  let c5 := (nr = [0]) in
  let c6 := (overflow = true) in
  let nr : digits := [99; 1] in
  '(nr, overflow) <- inc_assign (impl true D8) nr ;;
  let c7 := (nr = [0; 2]) in
  let c8 := (overflow = false) in
  let nr : digits := [99; 1; 3] in
  '(nr, overflow) <- inc_assign (impl true D8) nr ;;
  let c9 := (nr = [0; 2; 3]) in
  let c10 := (overflow = false) in
  let nr : digits := [99; 99; 3] in
  '(nr, overflow) <- inc_assign (impl true D8) nr ;;
  let c11 := (nr = [0; 0; 4]) in
  let c12 := (overflow = false) in
  let nr : digits := [99; 99; 99] in
  '(nr, overflow) <- inc_assign (impl true D8) nr ;;
  let c13 := (nr = [0; 0; 0]) in
  let c14 := (overflow = true) in
  let nr : digits := [99; 99] in
  '(nr, overflow) <- inc_assign (impl true D32) nr ;;
  let c15 := (nr = [100; 99]) in
  let c16 := (overflow = false) in
  let nr : digits := [999999999; 99] in
  '(nr, overflow) <- inc_assign (impl true D32) nr ;;
  let c17 := (nr = [0; 100]) in
  let c18 := (overflow = false) in
  let nr : digits := [99; 999999999] in
  '(nr, overflow) <- inc_assign (impl true D32) nr ;;
  let c19 := (nr = [100; 999999999]) in
  let c20 := (overflow = false) in
  let nr : digits := [999999999; 999999999] in
  '(nr, overflow) <- inc_assign (impl true D32) nr ;;
  let c21 := (nr = [0; 0]) in
  let c22 := (overflow = true) in
  Ret (c1 /\ c2 /\ c3 /\ c4 /\ c5 /\ c6 /\ c7 /\ c8 /\ c9 /\ c10 /\ c11 /\ c12 /\ c13 /\ c14 /\ c15 /\ c16 /\ c17 /\ c18 /\ c19 /\ c20 /\ c21 /\ c22)).
Proof. vm_compute. repeat split. Qed.

(** src/ubig/add.rs:247 *)
Example test_add_assign_digit_binary : holds (
  let nr : digits := [] in
  '(nr, overflow) <- add_assign_digit (impl true B8) nr 0 ;;
  let c1 := (nr = []) in
  let c2 := (overflow = None) in
  let nr : digits := [] in
  '(nr, overflow) <- add_assign_digit (impl true B8) nr 47 ;;
  let c3 := (nr = []) in
  let c4 := (overflow = Some 47) in
  let nr : digits := [1] in
  '(nr, overflow) <- add_assign_digit (impl true B8) nr 0 ;;
  let c5 := (nr = [1]) in
  let c6 := (overflow = None) in
  let nr : digits := [1] in
  '(nr, overflow) <- add_assign_digit (impl true B8) nr 47 ;;
  let c7 := (nr = [48]) in
  let c8 := (overflow = None) in
  let nr : digits := [128] in
  '(nr, overflow) <- add_assign_digit (impl true B8) nr 133 ;;
  let c9 := (nr = [5]) in
  let c10 := (overflow = Some 1) in
  let nr : digits := [128; 0] in
  '(nr, overflow) <- add_assign_digit (impl true B8) nr 133 ;;
  let c11 := (nr = [5; 1]) in
  let c12 := (overflow = None) in
  let nr : digits := [128; 255; 254] in
  '(nr, overflow) <- add_assign_digit (impl true B8) nr 133 ;;
  let c13 := (nr = [5; 0; 255]) in
  let c14 := (overflow = None) in
  let nr : digits := [128; 255; 255] in
  '(nr, overflow) <- add_assign_digit (impl true B8) nr 133 ;;
  let c15 := (nr = [5; 0; 0]) in
  let c16 := (overflow = Some 1) in
  let nr : digits := [128; 255; 255] in
  '(nr, overflow) <- add_assign_digit (impl true B16) nr 133 ;;
  let c17 := (nr = [261; 255; 255]) in
  let c18 := (overflow = None) in
  let nr : digits := [65408; 65535; 65535] in
  '(nr, overflow) <- add_assign_digit (impl true B16) nr 133 ;;
  let c19 := (nr = [5; 0; 0]) in
  let c20 := (overflow = Some 1) in
  let nr : digits := [128; 255; 255] in
  '(nr, overflow) <- add_assign_digit (impl true B32) nr 133 ;;
  let c21 := (nr = [261; 255; 255]) in
  let c22 := (overflow = None) in
  let nr : digits := [4294967168; 65535; 65535] in
  '(nr, overflow) <- add_assign_digit (impl true B32) nr 133 ;;
  let c23 := (nr = [5; 65536; 65535]) in
  let c24 := (overflow = None) in
  let nr : digits := [4294967168; 4294967295; 4294967295] in
  '(nr, overflow) <- add_assign_digit (impl true B32) nr 133 ;;
  let c25 := (nr = [5; 0; 0]) in
  let c26 := (overflow = Some 1) in
  Ret (c1 /\ c2 /\ c3 /\ c4 /\ c5 /\ c6 /\ c7 /\ c8 /\ c9 /\ c10 /\ c11 /\ c12 /\ c13 /\ c14 /\ c15 /\ c16 /\ c17 /\ c18 /\ c19 /\ c20 /\ c21 /\ c22 /\ c23 /\ c24 /\ c25 /\ c26)).
Proof. vm_compute. repeat split. Qed.

(** src/ubig/add.rs:316 *)
Example test_add_assign_digit_decimal : holds (
  let nr : digits := [] in
  '(nr, overflow) <- add_assign_digit (impl true D8) nr 0 ;;
  let c1 := (nr = []) in
  let c2 := (overflow = None) in
  let nr : digits := [] in
  '(nr, overflow) <- add_assign_digit (impl true D8) nr 47 ;;
  let c3 := (nr = []) in
  let c4 := (overflow = Some 47) in
  let nr : digits := [1] in
  '(nr, overflow) <- add_assign_digit (impl true D8) nr 0 ;;
  let c5 := (nr = [1]) in
  let c6 := (overflow = None) in
  let nr : digits := [1] in
  '(nr, overflow) <- add_assign_digit (impl true D8) nr 47 ;;
  let c7 := (nr = [48]) in
  let c8 := (overflow = None) in
  let nr : digits := [50] in
  '(nr, overflow) <- add_assign_digit (impl true D8) nr 55 ;;
  let c9 := (nr = [5]) in
  let c10 := (overflow = Some 1) in
  let nr : digits := [50; 0] in
  '(nr, overflow) <- add_assign_digit (impl true D8) nr 55 ;;
  let c11 := (nr = [5; 1]) in
  let c12 := (overflow = None) in
  let nr : digits := [50; 99; 98] in
  '(nr, overflow) <- add_assign_digit (impl true D8) nr 55 ;;
  let c13 := (nr = [5; 0; 99]) in
  let c14 := (overflow = None) in
  let nr : digits := [50; 99; 99] in
  '(nr, overflow) <- add_assign_digit (impl true D8) nr 55 ;;
  let c15 := (nr = [5; 0; 0]) in
  let c16 := (overflow = Some 1) in
  let nr : digits := [50; 99; 99] in
  '(nr, overflow) <- add_assign_digit (impl true D16) nr 55 ;;
  let c17 := (nr = [105; 99; 99]) in
  let c18 := (overflow = None) in
  let nr : digits := [9950; 9999; 9999] in
  '(nr, overflow) <- add_assign_digit (impl true D16) nr 55 ;;
  let c19 := (nr = [5; 0; 0]) in
  let c20 := (overflow = Some 1) in
  let nr : digits := [50; 99; 99] in
  '(nr, overflow) <- add_assign_digit (impl true D32) nr 55 ;;
  let c21 := (nr = [105; 99; 99]) in
  let c22 := (overflow = None) in
  let nr : digits := [999999950; 9999; 9999] in
  '(nr, overflow) <- add_assign_digit (impl true D32) nr 55 ;;
  let c23 := (nr = [5; 10000; 9999]) in
  let c24 := (overflow = None) in
  let nr : digits := [999999950; 999999999; 999999999] in
  '(nr, overflow) <- add_assign_digit (impl true D32) nr 55 ;;
  let c25 := (nr = [5; 0; 0]) in
  let c26 := (overflow = Some 1) in
  Ret (c1 /\ c2 /\ c3 /\ c4 /\ c5 /\ c6 /\ c7 /\ c8 /\ c9 /\ c10 /\ c11 /\ c12 /\ c13 /\ c14 /\ c15 /\ c16 /\ c17 /\ c18 /\ c19 /\ c20 /\ c21 /\ c22 /\ c23 /\ c24 /\ c25 /\ c26)).
Proof. vm_compute. repeat split. Qed.

(** src/ubig/add.rs:385 *)
Example test_add_assign_big_binary : holds (
  let nr0 : digits := [1] in
  let nr1 : digits := [] in
  '(nr0, overflow) <- add_assign_big (impl true B8) nr0 nr1 ;;
  let c1 := (nr0 = [1]) in
  let c2 := (overflow = false) in
  let nr0 : digits := [1] in
  let nr1 : digits := [254] in
  '(nr0, overflow) <- add_assign_big (impl true B8) nr0 nr1 ;;
  let c3 := (nr0 = [255]) in
  let c4 := (overflow = false) in
  let nr0 : digits := [1] in
  let nr1 : digits := [255] in
  '(nr0, overflow) <- add_assign_big (impl true B8) nr0 nr1 ;;
  let c5 := (nr0 = [0]) in
  let c6 := (overflow = true) in
  let nr0 : digits := [128] in
  let nr1 : digits := [255] in
  '(nr0, overflow) <- add_assign_big (impl true B8) nr0 nr1 ;;
  let c7 := (nr0 = [127]) in
  let c8 := (overflow = true) in
  let nr0 : digits := [128; 2] in
  let nr1 : digits := [255] in
  '(nr0, overflow) <- add_assign_big (impl true B8) nr0 nr1 ;;
  let c9 := (nr0 = [127; 3]) in
  let c10 := (overflow = false) in
  let nr0 : digits := [128; 255; 254; 255] in
  let nr1 : digits := [255] in
  '(nr0, overflow) <- add_assign_big (impl true B8) nr0 nr1 ;;
  let c11 := (nr0 = [127; 0; 255; 255]) in
  let c12 := (overflow = false) in
  let nr0 : digits := [128; 255; 255; 255] in
  let nr1 : digits := [255] in
  '(nr0, overflow) <- add_assign_big (impl true B8) nr0 nr1 ;;
  let c13 := (nr0 = [127; 0; 0; 0]) in
  let c14 := (overflow = true) in
  Ret (c1 /\ c2 /\ c3 /\ c4 /\ c5 /\ c6 /\ c7 /\ c8 /\ c9 /\ c10 /\ c11 /\ c12 /\ c13 /\ c14)).
Proof. vm_compute. repeat split. Qed.

(** src/ubig/add.rs:431 *)
Example test_add_assign_big_decimal : holds (
  let nr0 : digits := [1] in
  let nr1 : digits := [] in
  '(nr0, overflow) <- add_assign_big (impl true D8) nr0 nr1 ;;
  let c1 := (nr0 = [1]) in
  let c2 := (overflow = false) in
  let nr0 : digits := [1] in
  let nr1 : digits := [98] in
  '(nr0, overflow) <- add_assign_big (impl true D8) nr0 nr1 ;;
  let c3 := (nr0 = [99]) in
  let c4 := (overflow = false) in
  let nr0 : digits := [1] in
  let nr1 : digits := [99] in
  '(nr0, overflow) <- add_assign_big (impl true D8) nr0 nr1 ;;
  let c5 := (nr0 = [0]) in
  let c6 := (overflow = true) in
  let nr0 : digits := [50] in
  let nr1 : digits := [99] in
  '(nr0, overflow) <- add_assign_big (impl true D8) nr0 nr1 ;;
  let c7 := (nr0 = [49]) in
  let c8 := (overflow = true) in
  let nr0 : digits := [50; 2] in
  let nr1 : digits := [99] in
  '(nr0, overflow) <- add_assign_big (impl true D8) nr0 nr1 ;;
  let c9 := (nr0 = [49; 3]) in
  let c10 := (overflow = false) in
  let nr0 : digits := [50; 99; 98; 99] in
  let nr1 : digits := [99] in
  '(nr0, overflow) <- add_assign_big (impl true D8) nr0 nr1 ;;
  let c11 := (nr0 = [49; 0; 99; 99]) in
  let c12 := (overflow = false) in
  let nr0 : digits := [50; 99; 99; 99] in
  let nr1 : digits := [99] in
  '(nr0, overflow) <- add_assign_big (impl true D8) nr0 nr1 ;;
  let c13 := (nr0 = [49; 0; 0; 0]) in
  let c14 := (overflow = true) in
  Ret (c1 /\ c2 /\ c3 /\ c4 /\ c5 /\ c6 /\ c7 /\ c8 /\ c9 /\ c10 /\ c11 /\ c12 /\ c13 /\ c14)).
Proof. vm_compute. repeat split. Qed.

(** src/ubig/add.rs:477 *)
Example test_add_big_into_binary : holds (
  let nr0 : digits := [] in
  let nr1 : digits := [4660] in
  let sum : digits := (repeat 0 2%nat) in
  '(sum, n) <- add_big_into (impl true B16) nr0 nr1 sum ;;
  let c1 := (n = ROk 1%nat) in
  let c2 := (sum = [4660; 0]) in
  let nr0 : digits := [60875] in
  let nr1 : digits := [4660] in
  let sum : digits := (repeat 0 2%nat) in
  '(sum, n) <- add_big_into (impl true B16) nr0 nr1 sum ;;
  let c3 := (n = ROk 1%nat) in
  let c4 := (sum = [65535; 0]) in
  let nr0 : digits := [65534; 65535; 65535] in
  let nr1 : digits := [1] in
  let sum : digits := (repeat 0 4%nat) in
  '(sum, n) <- add_big_into (impl true B16) nr0 nr1 sum ;;
  let c5 := (n = ROk 3%nat) in
  let c6 := (sum = [65535; 65535; 65535; 0]) in
  let nr0 : digits := [65535; 65535; 65535] in
  let nr1 : digits := [1] in
  let sum : digits := (repeat 0 4%nat) in
  '(sum, n) <- add_big_into (impl true B16) nr0 nr1 sum ;;
  let c7 := (n = ROk 4%nat) in
  let c8 := (sum = [0; 0; 0; 1]) in
  let nr0 : digits := [65535; 65535; 65535] in
  let nr1 : digits := [1; 0; 0; 22] in
  let sum : digits := (repeat 0 5%nat) in
  '(sum, n) <- add_big_into (impl true B16) nr0 nr1 sum ;;
  let c9 := (n = ROk 4%nat) in
  let c10 := (sum = [0; 0; 0; 23; 0]) in
  let nr0 : digits := [65535; 65535; 65535] in
  let nr1 : digits := [1; 0; 0; 65535] in
  let sum : digits := (repeat 0 5%nat) in
  '(sum, n) <- add_big_into (impl true B16) nr0 nr1 sum ;;
  let c11 := (n = ROk 5%nat) in
  let c12 := (sum = [0; 0; 0; 0; 1]) in
  Ret (c1 /\ c2 /\ c3 /\ c4 /\ c5 /\ c6 /\ c7 /\ c8 /\ c9 /\ c10 /\ c11 /\ c12)).
Proof. vm_compute. repeat split. Qed.

(** src/ubig/add.rs:523 *)
Example test_add_big_into_binary_overflow : holds (
  let nr0 : digits := [65535; 65535; 65535] in
  let nr1 : digits := [1; 0; 0; 22] in
  let sum : digits := (repeat 0 3%nat) in
  '(sum, n) <- add_big_into (impl true B16) nr0 nr1 sum ;;
  let c1 := (n = RErr NoSpace) in
  let nr0 : digits := [65535; 65535; 65535] in
  let nr1 : digits := [1; 0; 0] in
  let sum : digits := (repeat 0 3%nat) in
  '(sum, n) <- add_big_into (impl true B16) nr0 nr1 sum ;;
  let c2 := (n = RErr NoSpace) in
  Ret (c1 /\ c2)).
Proof. vm_compute. repeat split. Qed.

(** src/ubig/add.rs:539 *)
Example test_add_big_into_decimal : holds (
  let nr0 : digits := [] in
  let nr1 : digits := [1234] in
  let sum : digits := (repeat 0 2%nat) in
  '(sum, n) <- add_big_into (impl true D16) nr0 nr1 sum ;;
  let c1 := (n = ROk 1%nat) in
  let c2 := (sum = [1234; 0]) in
  let nr0 : digits := [8765] in
  let nr1 : digits := [1234] in
  let sum : digits := (repeat 0 2%nat) in
  '(sum, n) <- add_big_into (impl true D16) nr0 nr1 sum ;;
  let c3 := (n = ROk 1%nat) in
  let c4 := (sum = [9999; 0]) in
  let nr0 : digits := [9998; 9999; 9999] in
  let nr1 : digits := [1] in
  let sum : digits := (repeat 0 4%nat) in
  '(sum, n) <- add_big_into (impl true D16) nr0 nr1 sum ;;
  let c5 := (n = ROk 3%nat) in
  let c6 := (sum = [9999; 9999; 9999; 0]) in
  let nr0 : digits := [9999; 9999; 9999] in
  let nr1 : digits := [1] in
  let sum : digits := (repeat 0 4%nat) in
  '(sum, n) <- add_big_into (impl true D16) nr0 nr1 sum ;;
  let c7 := (n = ROk 4%nat) in
  let c8 := (sum = [0; 0; 0; 1]) in
  let nr0 : digits := [9999; 9999; 9999] in
  let nr1 : digits := [1; 0; 0; 22] in
  let sum : digits := (repeat 0 5%nat) in
  '(sum, n) <- add_big_into (impl true D16) nr0 nr1 sum ;;
  let c9 := (n = ROk 4%nat) in
  let c10 := (sum = [0; 0; 0; 23; 0]) in
  let nr0 : digits := [9999; 9999; 9999] in
  let nr1 : digits := [1; 0; 0; 9999] in
  let sum : digits := (repeat 0 5%nat) in
  '(sum, n) <- add_big_into (impl true D16) nr0 nr1 sum ;;
  let c11 := (n = ROk 5%nat) in
  let c12 := (sum = [0; 0; 0; 0; 1]) in
  Ret (c1 /\ c2 /\ c3 /\ c4 /\ c5 /\ c6 /\ c7 /\ c8 /\ c9 /\ c10 /\ c11 /\ c12)).
Proof. vm_compute. repeat split. Qed.

(** src/ubig/add.rs:585 *)
Example test_add_big_into_decimal_overflow : holds (
  let nr0 : digits := [9999; 9999; 9999] in
  let nr1 : digits := [1; 0; 0; 22] in
  let sum : digits := (repeat 0 3%nat) in
  '(sum, n) <- add_big_into (impl true D16) nr0 nr1 sum ;;
  let c1 := (n = RErr NoSpace) in
  let nr0 : digits := [9999; 9999; 9999] in
  let nr1 : digits := [1; 0; 0] in
  let sum : digits := (repeat 0 3%nat) in
  '(sum, n) <- add_big_into (impl true D16) nr0 nr1 sum ;;
  let c2 := (n = RErr NoSpace) in
  Ret (c1 /\ c2)).
Proof. vm_compute. repeat split. Qed.

(** ** src/ubig/cmp.rs *)

(** src/ubig/cmp.rs:39 *)
Example test_cmp : holds (
  let n : digits := [] in
  let m : digits := [] in
  let c1 := (num_cmp n m = Eq) in
  let n : digits := [] in
  let m : digits := [1] in
  let c2 := (num_cmp n m = Lt) in
  let c3 := (num_cmp m n = Gt) in
  let n : digits := [2] in
  let m : digits := [1] in
  let c4 := (num_cmp n m = Gt) in
  let c5 := (num_cmp m n = Lt) in
  let n : digits := [2; 1; 3] in
  let m : digits := [2; 1; 3] in
  let c6 := (num_cmp n m = Eq) in
  let n : digits := [1; 1; 3] in
  let m : digits := [2; 1; 3] in
  let c7 := (num_cmp n m = Lt) in
  let c8 := (num_cmp m n = Gt) in
  let n : digits := [1; 1; 3] in
  let m : digits := [0; 0; 4] in
  let c9 := (num_cmp n m = Lt) in
  let c10 := (num_cmp m n = Gt) in
  let n : digits := [1; 1; 3] in
  let m : digits := [0; 0; 0; 1] in
  let c11 := (num_cmp n m = Lt) in
  let c12 := (num_cmp m n = Gt) in
  Ret (c1 /\ c2 /\ c3 /\ c4 /\ c5 /\ c6 /\ c7 /\ c8 /\ c9 /\ c10 /\ c11 /\ c12)).
Proof. vm_compute. repeat split. Qed.

(** ** src/ubig/div.rs *)

(** src/ubig/div.rs:267 *)
Example test_rem_digit_binary : holds (
  let n : digits := [] in
  v1 <- rem_digit (impl true B8) n 35 ;;
  rem <- unwrap v1 ;;
  let c1 := (rem = 0) in
  let n : digits := [52; 35; 172; 111] in
  v2 <- rem_digit (impl true B8) n 35 ;;
  rem <- unwrap v2 ;;
  let c2 := (rem = 10) in
  let n : digits := [52; 35; 172; 111] in
  v3 <- rem_digit (impl true B16) n 35 ;;
  rem <- unwrap v3 ;;
  let c3 := (rem = 25) in
  let n : digits := [879914965; 591822847; 1174404436] in
  v4 <- rem_digit (impl true B32) n 2772390957 ;;
  rem <- unwrap v4 ;;
  let c4 := (rem = 389222214) in
  let n : digits := [11765415421197772322; 1311768465459544063; 5044028648503528140; 5044028648503528140] in
  v5 <- rem_digit (impl true B64) n 11907328493212270115 ;;
  rem <- unwrap v5 ;;
  let c5 := (rem = 6030542080169228410) in
  Ret (c1 /\ c2 /\ c3 /\ c4 /\ c5)).
Proof. vm_compute. repeat split. Qed.

(** src/ubig/div.rs:296 *)
Example test_rem_digit_decimal : holds (
  let n : digits := [] in
  v1 <- rem_digit (impl true D8) n 23 ;;
  rem <- unwrap v1 ;;
  let c1 := (rem = 0) in
  let n : digits := [34; 23; 87; 94] in
  v2 <- rem_digit (impl true D8) n 23 ;;
  rem <- unwrap v2 ;;
  let c2 := (rem = 2) in
  let n : digits := [34; 23; 87; 94] in
  v3 <- rem_digit (impl true D16) n 23 ;;
  rem <- unwrap v3 ;;
  let c3 := (rem = 4) in
  let n : digits := [786333654; 877956000; 999] in
  v4 <- rem_digit (impl true D32) n 746338876 ;;
  rem <- unwrap v4 ;;
  let c4 := (rem = 589833110) in
  let n : digits := [4887845550996777877; 3569987999789676455; 6767888677923221344; 2898999342484877009] in
  v5 <- rem_digit (impl true D64) n 3575466978777965622 ;;
  rem <- unwrap v5 ;;
  let c5 := (rem = 3225957266729764797) in
  Ret (c1 /\ c2 /\ c3 /\ c4 /\ c5)).
Proof. vm_compute. repeat split. Qed.

(** src/ubig/div.rs:325 *)
Example test_div3_carry_assign_binary' : holds (
  let n : digits := [] in
  '(n, (nd, rem)) <- div3_carry_assign (impl true B8) n 0 ;;
  let c1 := (nd = 0%nat) in
  let c2 := (rem = 0) in
  let c3 := (n = []) in
  let n : digits := [0; 250; 19; 242] in
  '(n, (nd, rem)) <- div3_carry_assign (impl true B8) n 2 ;;
  let c4 := (nd = 4%nat) in
  let c5 := (rem = 0) in
  let c6 := (n = [0; 254; 91; 251]) in
  let n : digits := [30239; 64061; 7226] in
  '(n, (nd, rem)) <- div3_carry_assign (impl true B16) n 0 ;;
  let c7 := (nd = 3%nat) in
  let c8 := (rem = 0) in
  let c9 := (n = [31925; 65044; 2408]) in
  let n : digits := [392296566; 4198367203; 473608728] in
  '(n, (nd, rem)) <- div3_carry_assign (impl true B32) n 1 ;;
  let c10 := (nd = 3%nat) in
  let c11 := (rem = 2) in
  let c12 := (n = [2994077052; 2831111499; 1589525341]) in
  let n : digits := [1684900923318956021; 9738739477731213283; 1] in
  '(n, (nd, rem)) <- div3_carry_assign (impl true B64) n 0 ;;
  let c13 := (nd = 2%nat) in
  let c14 := (rem = 1) in
  let c15 := (n = [12859463023579353084; 9395161183813588299; 0]) in
  Ret (c1 /\ c2 /\ c3 /\ c4 /\ c5 /\ c6 /\ c7 /\ c8 /\ c9 /\ c10 /\ c11 /\ c12 /\ c13 /\ c14 /\ c15)).
Proof. vm_compute. repeat split. Qed.

(** src/ubig/div.rs:359 *)
Example test_div3_carry_assign_decimal' : holds (
  let n : digits := [] in
  '(n, (nd, rem)) <- div3_carry_assign (impl true D8) n 2 ;;
  let c1 := (nd = 0%nat) in
  let c2 := (rem = 2) in
  let c3 := (n = []) in
  let n : digits := [0; 35; 98; 22] in
  '(n, (nd, rem)) <- div3_carry_assign (impl true D8) n 2 ;;
  let c4 := (nd = 4%nat) in
  let c5 := (rem = 1) in
  let c6 := (n = [33; 78; 32; 74]) in
  let n : digits := [0; 0; 1] in
  '(n, (nd, rem)) <- div3_carry_assign (impl true D16) n 1 ;;
  let c7 := (nd = 3%nat) in
  let c8 := (rem = 2) in
  let c9 := (n = [6666; 6666; 3333]) in
  let n : digits := [0; 0; 1] in
  '(n, (nd, rem)) <- div3_carry_assign (impl true D16) n 0 ;;
  let c10 := (nd = 2%nat) in
  let c11 := (rem = 1) in
  let c12 := (n = [3333; 3333; 0]) in
  let n : digits := [891563891; 821976524; 321098000] in
  '(n, (nd, rem)) <- div3_carry_assign (impl true D32) n 0 ;;
  let c13 := (nd = 3%nat) in
  let c14 := (rem = 0) in
  let c15 := (n = [630521297; 940658841; 107032666]) in
  let n : digits := [5891563891999567342; 1821976524213465888] in
  '(n, (nd, rem)) <- div3_carry_assign (impl true D64) n 1 ;;
  let c16 := (nd = 2%nat) in
  let c17 := (rem = 2) in
  let c18 := (n = [5297187963999855780; 3940658841404488629]) in
  Ret (c1 /\ c2 /\ c3 /\ c4 /\ c5 /\ c6 /\ c7 /\ c8 /\ c9 /\ c10 /\ c11 /\ c12 /\ c13 /\ c14 /\ c15 /\ c16 /\ c17 /\ c18)).
Proof. vm_compute. repeat split. Qed.

(** src/ubig/div.rs:399 *)
Example test_div_assign_digit_binary : holds (
  let n : digits := [] in
  '(n, v1) <- div_assign_digit (impl true B8) n 83 ;;
  '(nquot, rem) <- unwrap v1 ;;
  let c1 := (n = []) in
  let c2 := (nquot = 0%nat) in
  let c3 := (rem = 0) in
  let n : digits := [0; 68; 83; 172] in
  '(n, v2) <- div_assign_digit (impl true B8) n 83 ;;
  '(nquot, rem) <- unwrap v2 ;;
  let c4 := (n = [92; 130; 19; 2]) in
  let c5 := (nquot = 4%nat) in
  let c6 := (rem = 44) in
  let n : digits := [0; 68; 83; 172] in
  '(n, v3) <- div_assign_digit (impl true B8) n 230 ;;
  '(nquot, rem) <- unwrap v3 ;;
  let c7 := (n = [53; 206; 191; 0]) in
  let c8 := (nquot = 3%nat) in
  let c9 := (rem = 98) in
  let n : digits := [0; 68; 83; 172] in
  '(n, v4) <- div_assign_digit (impl true B16) n 230 ;;
  '(nquot, rem) <- unwrap v4 ;;
  let c10 := (n = [53568; 58412; 49009; 0]) in
  let c11 := (nquot = 3%nat) in
  let c12 := (rem = 128) in
  let n : digits := [141960744; 1795096132; 964798317; 172] in
  '(n, v5) <- div_assign_digit (impl true B32) n 3867634243 ;;
  '(nquot, rem) <- unwrap v5 ;;
  let c13 := (n = [3883525156; 1089426661; 191; 0]) in
  let c14 := (nquot = 3%nat) in
  let c15 := (rem = 1411156156) in
  Ret (c1 /\ c2 /\ c3 /\ c4 /\ c5 /\ c6 /\ c7 /\ c8 /\ c9 /\ c10 /\ c11 /\ c12 /\ c13 /\ c14 /\ c15)).
Proof. vm_compute. repeat split. Qed.

(** src/ubig/div.rs:433 *)
Example test_div_assign_digit_decimal : holds (
  let n : digits := [] in
  '(n, v1) <- div_assign_digit (impl true D8) n 53 ;;
  '(nquot, rem) <- unwrap v1 ;;
  let c1 := (n = []) in
  let c2 := (nquot = 0%nat) in
  let c3 := (rem = 0) in
  let n : digits := [0; 44; 53; 87] in
  '(n, v2) <- div_assign_digit (impl true D8) n 53 ;;
  '(nquot, rem) <- unwrap v2 ;;
  let c4 := (n = [92; 15; 65; 1]) in
  let c5 := (nquot = 4%nat) in
  let c6 := (rem = 24) in
  let n : digits := [0; 44; 53; 87] in
  '(n, v3) <- div_assign_digit (impl true D8) n 99 ;;
  '(nquot, rem) <- unwrap v3 ;;
  let c7 := (n = [85; 41; 88; 0]) in
  let c8 := (nquot = 3%nat) in
  let c9 := (rem = 85) in
  let n : digits := [0; 44; 53; 87] in
  '(n, v4) <- div_assign_digit (impl true D16) n 99 ;;
  '(nquot, rem) <- unwrap v4 ;;
  let c10 := (n = [8585; 4141; 8788; 0]) in
  let c11 := (nquot = 3%nat) in
  let c12 := (rem = 85) in
  let n : digits := [987654321; 123456789; 999888777; 444555666] in
  '(n, v5) <- div_assign_digit (impl true D32) n 918273645 ;;
  '(nquot, rem) <- unwrap v5 ;;
  let c13 := (n = [669748356; 650930945; 484121121; 0]) in
  let c14 := (nquot = 3%nat) in
  let c15 := (rem = 890776701) in
  Ret (c1 /\ c2 /\ c3 /\ c4 /\ c5 /\ c6 /\ c7 /\ c8 /\ c9 /\ c10 /\ c11 /\ c12 /\ c13 /\ c14 /\ c15)).
Proof. vm_compute. repeat split. Qed.

(** src/ubig/div.rs:467 *)
Example test_div_assign_digit_zero : holds (
  let n : digits := [16140763015798990376; 8318115936221462084; 964798317; 172] in
  '(n, res) <- div_assign_digit (impl true B64) n 0 ;;
  let c1 := (res = RErr DivisionByZero) in
  let n : digits := [0; 44; 53; 87] in
  '(n, res) <- div_assign_digit (impl true D8) n 0 ;;
  let c2 := (res = RErr DivisionByZero) in
  Ret (c1 /\ c2)).
Proof. vm_compute. repeat split. Qed.

(** src/ubig/div.rs:479 *)
Example test_div_assign_digit_pair_binary : holds (
  let n : digits := [] in
  '(n, v1) <- div_assign_digit_pair (impl true B8) n 4 5 ;;
  '(nquot, rem_low, rem_high) <- unwrap v1 ;;
  let c1 := (n = []) in
  let c2 := (nquot = 0%nat) in
  let c3 := (rem_low = 0) in
  let c4 := (rem_high = 0) in
  let n : digits := [136] in
  '(n, v2) <- div_assign_digit_pair (impl true B8) n 4 5 ;;
  '(nquot, rem_low, rem_high) <- unwrap v2 ;;
  let c5 := (n = [0]) in
  let c6 := (nquot = 0%nat) in
  let c7 := (rem_low = 136) in
  let c8 := (rem_high = 0) in
  let n : digits := [136; 4] in
  '(n, v3) <- div_assign_digit_pair (impl true B8) n 4 5 ;;
  '(nquot, rem_low, rem_high) <- unwrap v3 ;;
  let c9 := (n = [0; 0]) in
  let c10 := (nquot = 0%nat) in
  let c11 := (rem_low = 136) in
  let c12 := (rem_high = 4) in
  let n : digits := [1; 2; 3] in
  '(n, v4) <- div_assign_digit_pair (impl true B8) n 4 5 ;;
  '(nquot, rem_low, rem_high) <- unwrap v4 ;;
  let c13 := (n = [153; 0; 0]) in
  let c14 := (nquot = 1%nat) in
  let c15 := (rem_low = 157) in
  let c16 := (rem_high = 2) in
  let n : digits := [20808; 421; 64786; 33190; 6531; 65530; 35409; 32657] in
  '(n, v5) <- div_assign_digit_pair (impl true B16) n 34657 4269 ;;
  '(nquot, rem_low, rem_high) <- unwrap v5 ;;
  let c17 := (n = [56390; 61452; 46731; 52492; 35988; 42531; 7; 0]) in
  let c18 := (nquot = 7%nat) in
  let c19 := (rem_low = 61634) in
  let c20 := (rem_high = 2382) in
  let n : digits := [27611464; 2175204626; 4294580611; 2140244561] in
  '(n, v6) <- div_assign_digit_pair (impl true B32) n 2271285421 5 ;;
  '(nquot, rem_low, rem_high) <- unwrap v6 ;;
  let c21 := (n = [3101931975; 1027419158; 387106595; 0]) in
  let c22 := (nquot = 3%nat) in
  let c23 := (rem_low = 2126337485) in
  let c24 := (rem_high = 4) in
  Ret (c1 /\ c2 /\ c3 /\ c4 /\ c5 /\ c6 /\ c7 /\ c8 /\ c9 /\ c10 /\ c11 /\ c12 /\ c13 /\ c14 /\ c15 /\ c16 /\ c17 /\ c18 /\ c19 /\ c20 /\ c21 /\ c22 /\ c23 /\ c24)).
Proof. vm_compute. repeat split. Qed.

(** src/ubig/div.rs:525 *)
Example test_div_assign_digit_pair_decimal : holds (
  let n : digits := [] in
  '(n, v1) <- div_assign_digit_pair (impl true D8) n 4 5 ;;
  '(nquot, rem_low, rem_high) <- unwrap v1 ;;
  let c1 := (n = []) in
  let c2 := (nquot = 0%nat) in
  let c3 := (rem_low = 0) in
  let c4 := (rem_high = 0) in
  let n : digits := [88] in
  '(n, v2) <- div_assign_digit_pair (impl true D8) n 4 5 ;;
  '(nquot, rem_low, rem_high) <- unwrap v2 ;;
  let c5 := (n = [0]) in
  let c6 := (nquot = 0%nat) in
  let c7 := (rem_low = 88) in
  let c8 := (rem_high = 0) in
  let n : digits := [88; 4] in
  '(n, v3) <- div_assign_digit_pair (impl true D8) n 4 5 ;;
  '(nquot, rem_low, rem_high) <- unwrap v3 ;;
  let c9 := (n = [0; 0]) in
  let c10 := (nquot = 0%nat) in
  let c11 := (rem_low = 88) in
  let c12 := (rem_high = 4) in
  let n : digits := [1; 2; 3] in
  '(n, v4) <- div_assign_digit_pair (impl true D8) n 4 5 ;;
  '(nquot, rem_low, rem_high) <- unwrap v4 ;;
  let c13 := (n = [59; 0; 0]) in
  let c14 := (nquot = 1%nat) in
  let c15 := (rem_low = 65) in
  let c16 := (rem_high = 4) in
  let n : digits := [8291; 9818; 1782; 8181; 79; 3181; 9716; 2191] in
  '(n, v5) <- div_assign_digit_pair (impl true D16) n 4534 1982 ;;
  '(nquot, rem_low, rem_high) <- unwrap v5 ;;
  let c17 := (n = [7899; 6751; 5211; 3817; 8633; 1056; 1; 0]) in
  let c18 := (nquot = 7%nat) in
  let c19 := (rem_low = 4225) in
  let c20 := (rem_high = 1385) in
  let n : digits := [738181009; 198118981; 345123731; 673291756] in
  '(n, v6) <- div_assign_digit_pair (impl true D32) n 21 287278981 ;;
  '(nquot, rem_low, rem_high) <- unwrap v6 ;;
  let c21 := (n = [102985940; 343686106; 2; 0]) in
  let c22 := (nquot = 3%nat) in
  let c23 := (rem_low = 575476269) in
  let c24 := (rem_high = 80183613) in
  let n : digits := [17; 29; 98] in
  '(n, v7) <- div_assign_digit_pair (impl true D8) n 93 93 ;;
  '(nquot, rem_low, rem_high) <- unwrap v7 ;;
  let c25 := (n = [4; 1; 0]) in
  let c26 := (nquot = 2%nat) in
  let c27 := (rem_low = 45) in
  let c28 := (rem_high = 60) in
  Ret (c1 /\ c2 /\ c3 /\ c4 /\ c5 /\ c6 /\ c7 /\ c8 /\ c9 /\ c10 /\ c11 /\ c12 /\ c13 /\ c14 /\ c15 /\ c16 /\ c17 /\ c18 /\ c19 /\ c20 /\ c21 /\ c22 /\ c23 /\ c24 /\ c25 /\ c26 /\ c27 /\ c28)).
Proof. vm_compute. repeat split. Qed.

(** src/ubig/div.rs:578 *)
Example test_div_assign_digit_pair_zero : holds (
  let n : digits := [1; 2; 3] in
  '(n, res) <- div_assign_digit_pair (impl true B8) n 0 0 ;;
  let c1 := (res = RErr DivisionByZero) in
  let n : digits := [8291; 9818; 1782; 8181; 79; 3181; 9716; 2191] in
  '(n, res) <- div_assign_digit_pair (impl true D16) n 0 0 ;;
  let c2 := (res = RErr DivisionByZero) in
  Ret (c1 /\ c2)).
Proof. vm_compute. repeat split. Qed.

(** src/ubig/div.rs:590 *)
Example test_div_big_den_gt_num : holds (
  let num : digits := [] in
  let den : digits := [83; 18; 145] in
  let quot : digits := (repeat 0 0%nat) in
  '(num, quot, v1) <- div_big (impl true B8) num den quot ;;
  '(nquot, nrem) <- unwrap v1 ;;
  let c1 := (nquot = 0%nat) in
  let c2 := (nrem = 0%nat) in
  let c3 := (quot = []) in
  let c4 := (num = []) in
  let num : digits := [7436709619801474365; 7426998774730642687] in
  let den : digits := [17716942815846690293; 1311768466913966210; 1668444159] in
  let quot : digits := (repeat 0 3%nat) in
  '(num, quot, v2) <- div_big (impl true B64) num den quot ;;
  '(nquot, nrem) <- unwrap v2 ;;
  let c5 := (nquot = 0%nat) in
  let c6 := (nrem = 2%nat) in
  let c7 := (quot = [0; 0; 0]) in
  v3 <- prefix num nrem ;;
  let c8 := (v3 = [7436709619801474365; 7426998774730642687]) in
  let num : digits := [] in
  let den : digits := [53; 12; 91] in
  let quot : digits := (repeat 0 0%nat) in
  '(num, quot, v4) <- div_big (impl true D8) num den quot ;;
  '(nquot, nrem) <- unwrap v4 ;;
  let c9 := (nquot = 0%nat) in
  let c10 := (nrem = 0%nat) in
  let c11 := (quot = []) in
  let c12 := (num = []) in
  let num : digits := [2827928982748837756; 9987857888374321333] in
  let den : digits := [3464444454444454777; 9399999474765588888; 867984998999572288] in
  let quot : digits := (repeat 0 3%nat) in
  '(num, quot, v5) <- div_big (impl true D64) num den quot ;;
  '(nquot, nrem) <- unwrap v5 ;;
  let c13 := (nquot = 0%nat) in
  let c14 := (nrem = 2%nat) in
  let c15 := (quot = [0; 0; 0]) in
  v6 <- prefix num nrem ;;
  let c16 := (v6 = [2827928982748837756; 9987857888374321333]) in
  Ret (c1 /\ c2 /\ c3 /\ c4 /\ c5 /\ c6 /\ c7 /\ c8 /\ c9 /\ c10 /\ c11 /\ c12 /\ c13 /\ c14 /\ c15 /\ c16)).
Proof. vm_compute. repeat split. Qed.

(** src/ubig/div.rs:640 *)
Example test_div_big_zero : holds (
  let num : digits := [1; 2; 3] in
  let den : digits := [] in
  let quot : digits := (repeat 0 4%nat) in
  '(num, quot, res) <- div_big (impl true B8) num den quot ;;
  let c1 := (res = RErr DivisionByZero) in
  let num : digits := [1; 2; 3] in
  let den : digits := [] in
  let quot : digits := (repeat 0 4%nat) in
  '(num, quot, res) <- div_big (impl true D64) num den quot ;;
  let c2 := (res = RErr DivisionByZero) in
  Ret (c1 /\ c2)).
Proof. vm_compute. repeat split. Qed.

(** src/ubig/div.rs:656 *)
Example test_div_big_no_space : holds (
  let num : digits := [1; 2; 3; 4; 5] in
  let den : digits := [1; 2; 3] in
  let quot : digits := (repeat 0 2%nat) in
  '(num, quot, res) <- div_big (impl true B8) num den quot ;;
  let c1 := (res = RErr NoSpace) in
  let num : digits := [1; 2; 3; 4; 5] in
  let den : digits := [1; 2; 3; 4] in
  let quot : digits := (repeat 0 1%nat) in
  '(num, quot, res) <- div_big (impl true D64) num den quot ;;
  let c2 := (res = RErr NoSpace) in
  Ret (c1 /\ c2)).
Proof. vm_compute. repeat split. Qed.

(** src/ubig/div.rs:672 *)
Example test_div_big_two_digits : holds (
  let num : digits := [26420; 26386; 10749; 65331; 25980] in
  let den : digits := [32243; 291] in
  let quot : digits := (repeat 0 4%nat) in
  '(num, quot, v1) <- div_big (impl true B16) num den quot ;;
  '(nquot, nrem) <- unwrap v1 ;;
  let c1 := (nquot = 4%nat) in
  let c2 := (nrem = 2%nat) in
  let c3 := (quot = [8269; 45860; 8590; 89]) in
  v2 <- prefix num nrem ;;
  let c4 := (v2 = [9501; 123]) in
  let num : digits := [4453; 3885; 3324; 8998; 6754] in
  let den : digits := [3756; 123] in
  let quot : digits := (repeat 0 4%nat) in
  '(num, quot, v3) <- div_big (impl true D16) num den quot ;;
  '(nquot, nrem) <- unwrap v3 ;;
  let c5 := (nquot = 4%nat) in
  let c6 := (nrem = 2%nat) in
  let c7 := (quot = [6267; 9489; 7506; 54]) in
  v4 <- prefix num nrem ;;
  let c8 := (v4 = [5601; 6]) in
  Ret (c1 /\ c2 /\ c3 /\ c4 /\ c5 /\ c6 /\ c7 /\ c8)).
Proof. vm_compute. repeat split. Qed.

(** ** src/ubig/div/bz.rs *)

(** src/ubig/div/bz.rs:151 *)
Example testbz : holds (
  let num : digits := (repeat 0 5%nat) in
  num <- set num 4%nat 20 ;;
  let den : digits := [0; 0; 1] in
  let quot : digits := (repeat 0 3%nat) in
  let work : digits := (repeat 0 7%nat) in
  '(num, quot, work, (nquot, nrem)) <- div_big_bz (impl true B8) num den quot work ;;
  let c1 := (nquot = 3%nat) in
  let c2 := (nrem = 0%nat) in
  v1 <- prefix quot nquot ;;
  let c3 := (v1 = [0; 0; 20]) in
  v2 <- prefix num nrem ;;
  let c4 := (v2 = []) in
  let num : digits := [0; 0; 90] in
  let den : digits := [0; 10; 1] in
  let quot : digits := (repeat 0 1%nat) in
  let work : digits := (repeat 0 7%nat) in
  '(num, quot, work, (nquot, nrem)) <- div_big_bz (impl true D8) num den quot work ;;
  let c5 := (nquot = 1%nat) in
  let c6 := (nrem = 2%nat) in
  v3 <- prefix quot nquot ;;
  let c7 := (v3 = [81]) in
  v4 <- prefix num nrem ;;
  let c8 := (v4 = [0; 90]) in
  Ret (c1 /\ c2 /\ c3 /\ c4 /\ c5 /\ c6 /\ c7 /\ c8)).
Proof. vm_compute. repeat split. Qed.

(** ** src/ubig/div/long.rs *)

(** src/ubig/div/long.rs:140 *)
Example test_div_big_long_binary : holds (
  let num : digits := [67; 152; 18; 254; 242; 67] in
  let den : digits := [83; 18; 145] in
  let quot : digits := (repeat 0 4%nat) in
  let work : digits := (repeat 0 4%nat) in
  '(num, quot, work, (nquot, nrem)) <- div_big_long (impl true B8) num den quot work ;;
  let c1 := (nquot = 3%nat) in
  let c2 := (nrem = 3%nat) in
  let c3 := (quot = [1; 232; 119; 0]) in
  v1 <- prefix num nrem ;;
  let c4 := (v1 = [240; 77; 81]) in
  let num : digits := [1731493887; 1729232905; 704464893; 4281597747; 1702676866] in
  let den : digits := [2046778867; 305419896; 1668444159] in
  let quot : digits := (repeat 0 3%nat) in
  let work : digits := (repeat 0 4%nat) in
  '(num, quot, work, (nquot, nrem)) <- div_big_long (impl true B32) num den quot work ;;
  let c5 := (nquot = 3%nat) in
  let c6 := (nrem = 3%nat) in
  let c7 := (quot = [3362587602; 88123033; 1]) in
  v2 <- prefix num nrem ;;
  let c8 := (v2 = [2099811753; 775519339; 85991414]) in
  let num : digits := [7436709619801474365; 7426998774730642687; 7426998774730642687; 7426998774730642687; 7426998774730642687; 7426998774730642687; 7426998774730642687; 7426998774730642687; 7426998774730642687; 7426998774730642687] in
  let den : digits := [17716942815846690293; 1311768466913966210; 1668444159] in
  let quot : digits := (repeat 0 8%nat) in
  let work : digits := (repeat 0 4%nat) in
  '(num, quot, work, (nquot, nrem)) <- div_big_long (impl true B64) num den quot work ;;
  let c9 := (nquot = 8%nat) in
  let c10 := (nrem = 3%nat) in
  let c11 := (quot = [2880254166490874858; 4277942008652874995; 1663998660641081677; 6765542184904822184; 356339746554236080; 9676148762056239945; 14164975984615613574; 4451451811]) in
  v3 <- prefix num nrem ;;
  let c12 := (v3 = [17383479648247080011; 11486189908758794218; 1605964416]) in
  Ret (c1 /\ c2 /\ c3 /\ c4 /\ c5 /\ c6 /\ c7 /\ c8 /\ c9 /\ c10 /\ c11 /\ c12)).
Proof. vm_compute. repeat split. Qed.

(** src/ubig/div/long.rs:211 *)
Example test_div_big_long_decimal : holds (
  let num : digits := [43; 98; 12; 98; 92; 43] in
  let den : digits := [53; 12; 91] in
  let quot : digits := (repeat 0 4%nat) in
  let work : digits := (repeat 0 4%nat) in
  '(num, quot, work, (nquot, nrem)) <- div_big_long (impl true D8) num den quot work ;;
  let c1 := (nquot = 3%nat) in
  let c2 := (nrem = 3%nat) in
  let c3 := (quot = [81; 20; 48; 0]) in
  v1 <- prefix num nrem ;;
  let c4 := (v1 = [50; 23; 37]) in
  let num : digits := [736877958; 473222398; 123987987; 857833398; 12345] in
  let den : digits := [847928000; 340987987; 345756986] in
  let quot : digits := (repeat 0 3%nat) in
  let work : digits := (repeat 0 4%nat) in
  '(num, quot, work, (nquot, nrem)) <- div_big_long (impl true D32) num den quot work ;;
  let c5 := (nquot = 2%nat) in
  let c6 := (nrem = 3%nat) in
  let c7 := (quot = [748731383; 35706; 0]) in
  v2 <- prefix num nrem ;;
  let c8 := (v2 = [612453958; 628288073; 241893843]) in
  let num : digits := [2827928982748837756; 9987857888374321333; 9567099055999999999; 9567099055999999999; 9567099055999999999; 9567099055999999999; 9567099055999999999; 9567099055999999999; 9567099055999999999; 9567099055999999999; 9567099055999999999; 9567099055999999999; 9567099055999999999] in
  let den : digits := [3464444454444454777; 9399999474765588888; 867984998999572288] in
  let quot : digits := (repeat 0 11%nat) in
  let work : digits := (repeat 0 4%nat) in
  '(num, quot, work, (nquot, nrem)) <- div_big_long (impl true D64) num den quot work ;;
  let c9 := (nquot = 11%nat) in
  let c10 := (nrem = 3%nat) in
  let c11 := (quot = [2739132595692916609; 186009061497178731; 3515246891635834223; 1016137553008377404; 9633276126066576086; 4265899626824713455; 2736435672850267122; 3717274131184765525; 6660916798959678502; 221940091440616178; 11]) in
  v3 <- prefix num nrem ;;
  let c12 := (v3 = [2701266084816146563; 3684527600083895574; 347460090911990341]) in
  Ret (c1 /\ c2 /\ c3 /\ c4 /\ c5 /\ c6 /\ c7 /\ c8 /\ c9 /\ c10 /\ c11 /\ c12)).
Proof. vm_compute. repeat split. Qed.

(** ** src/ubig/mul.rs *)

(** src/ubig/mul.rs:252 *)
Example test_double_carry_assign_binary : holds (
  let nr : digits := [] in
  '(nr, carry) <- double_carry_assign (impl true B8) nr true ;;
  let c1 := (nr = []) in
  let c2 := (carry = true) in
  let nr : digits := [120; 242; 118] in
  '(nr, carry) <- double_carry_assign (impl true B8) nr true ;;
  let c3 := (nr = [241; 228; 237]) in
  let c4 := (carry = false) in
  let nr : digits := [120; 242; 134] in
  '(nr, carry) <- double_carry_assign (impl true B8) nr true ;;
  let c5 := (nr = [241; 228; 13]) in
  let c6 := (carry = true) in
  let nr : digits := [120; 242; 134] in
  '(nr, carry) <- double_carry_assign (impl true B16) nr true ;;
  let c7 := (nr = [241; 484; 268]) in
  let c8 := (carry = false) in
  let nr : digits := [4728; 33010; 50054] in
  '(nr, carry) <- double_carry_assign (impl true B16) nr false ;;
  let c9 := (nr = [9456; 484; 34573]) in
  let c10 := (carry = true) in
  let nr : digits := [4728; 33010; 50054] in
  '(nr, carry) <- double_carry_assign (impl true B32) nr false ;;
  let c11 := (nr = [9456; 66020; 100108]) in
  let c12 := (carry = false) in
  let nr : digits := [4294906488; 3280306418; 1984807814] in
  '(nr, carry) <- double_carry_assign (impl true B32) nr true ;;
  let c13 := (nr = [4294845681; 2265645541; 3969615629]) in
  let c14 := (carry = false) in
  let nr : digits := [4294906488; 3280306418; 1984807814] in
  '(nr, carry) <- double_carry_assign (impl true B64) nr true ;;
  let c15 := (nr = [8589812977; 6560612836; 3969615628]) in
  let c16 := (carry = false) in
  let nr : digits := [8355821675656188536; 9264581684404519154; 9335386284862849926] in
  '(nr, carry) <- double_carry_assign (impl true B64) nr false ;;
  let c17 := (nr = [16711643351312377072; 82419295099486692; 224028496016148237]) in
  let c18 := (carry = true) in
  Ret (c1 /\ c2 /\ c3 /\ c4 /\ c5 /\ c6 /\ c7 /\ c8 /\ c9 /\ c10 /\ c11 /\ c12 /\ c13 /\ c14 /\ c15 /\ c16 /\ c17 /\ c18)).
Proof. vm_compute. repeat split. Qed.

(** src/ubig/mul.rs:301 *)
Example test_double_carry_assign_decimal : holds (
  let nr : digits := [] in
  '(nr, carry) <- double_carry_assign (impl true D8) nr true ;;
  let c1 := (nr = []) in
  let c2 := (carry = true) in
  let nr : digits := [78; 92; 36] in
  '(nr, carry) <- double_carry_assign (impl true D8) nr true ;;
  let c3 := (nr = [57; 85; 73]) in
  let c4 := (carry = false) in
  let nr : digits := [78; 92; 76] in
  '(nr, carry) <- double_carry_assign (impl true D8) nr true ;;
  let c5 := (nr = [57; 85; 53]) in
  let c6 := (carry = true) in
  let nr : digits := [78; 92; 76] in
  '(nr, carry) <- double_carry_assign (impl true D16) nr true ;;
  let c7 := (nr = [157; 184; 152]) in
  let c8 := (carry = false) in
  let nr : digits := [8765; 4321; 5000] in
  '(nr, carry) <- double_carry_assign (impl true D16) nr false ;;
  let c9 := (nr = [7530; 8643; 0]) in
  let c10 := (carry = true) in
  let nr : digits := [8765; 4321; 5000] in
  '(nr, carry) <- double_carry_assign (impl true D32) nr false ;;
  let c11 := (nr = [17530; 8642; 10000]) in
  let c12 := (carry = false) in
  let nr : digits := [999999999; 999999999; 999999999] in
  '(nr, carry) <- double_carry_assign (impl true D32) nr false ;;
  let c13 := (nr = [999999998; 999999999; 999999999]) in
  let c14 := (carry = true) in
  let nr : digits := [999999999; 999999999; 999999999] in
  '(nr, carry) <- double_carry_assign (impl true D64) nr false ;;
  let c15 := (nr = [1999999998; 1999999998; 1999999998]) in
  let c16 := (carry = false) in
  let nr : digits := [5789987625187287987; 3981928988564766999] in
  '(nr, carry) <- double_carry_assign (impl true D64) nr false ;;
  let c17 := (nr = [1579975250374575974; 7963857977129533999]) in
  let c18 := (carry = false) in
  let nr : digits := [3981928988564766999; 5789987625187287987] in
  '(nr, carry) <- double_carry_assign (impl true D64) nr false ;;
  let c19 := (nr = [7963857977129533998; 1579975250374575974]) in
  let c20 := (carry = true) in
  Ret (c1 /\ c2 /\ c3 /\ c4 /\ c5 /\ c6 /\ c7 /\ c8 /\ c9 /\ c10 /\ c11 /\ c12 /\ c13 /\ c14 /\ c15 /\ c16 /\ c17 /\ c18 /\ c19 /\ c20)).
Proof. vm_compute. repeat split. Qed.

(** src/ubig/mul.rs:355 *)
Example test_mul_add_assign_digit_binary : holds (
  let nr : digits := [] in
  '(nr, carry) <- mul_add_assign_digit (impl true B8) nr 87 50 ;;
  let c1 := (nr = []) in
  let c2 := (carry = 50) in
  let nr : digits := [255; 97; 167] in
  '(nr, carry) <- mul_add_assign_digit (impl true B8) nr 87 50 ;;
  let c3 := (nr = [219; 77; 226]) in
  let c4 := (carry = 56) in
  let nr : digits := [243; 167; 80] in
  '(nr, carry) <- mul_add_assign_digit (impl true B8) nr 3 50 ;;
  let c5 := (nr = [11; 248; 241]) in
  let c6 := (carry = 0) in
  let nr : digits := [] in
  '(nr, carry) <- mul_add_assign_digit (impl true B16) nr 42367 12952 ;;
  let c7 := (nr = []) in
  let c8 := (carry = 12952) in
  let nr : digits := [65507; 24986; 43007] in
  '(nr, carry) <- mul_add_assign_digit (impl true B16) nr 42367 12952 ;;
  let c9 := (nr = [29493; 21202; 61850]) in
  let c10 := (carry = 27802) in
  let nr : digits := [65507; 24986; 80] in
  '(nr, carry) <- mul_add_assign_digit (impl true B16) nr 255 12952 ;;
  let c11 := (nr = [5557; 14693; 20497]) in
  let c12 := (carry = 0) in
  let nr : digits := [] in
  '(nr, carry) <- mul_add_assign_digit (impl true B32) nr 2776596401 848859043 ;;
  let c13 := (nr = []) in
  let c14 := (carry = 848859043) in
  let nr : digits := [4293072634; 1637521919; 2818519580] in
  '(nr, carry) <- mul_add_assign_digit (impl true B32) nr 2776603378 848859043 ;;
  let c15 := (nr = [991734775; 2864112486; 2053079679]) in
  let c16 := (carry = 1822111892) in
  let nr : digits := [4293072634; 1637521919; 2013213212] in
  '(nr, carry) <- mul_add_assign_digit (impl true B32) nr 2 848859043 ;;
  let c17 := (nr = [845069719; 3275043840; 4026426424]) in
  let c18 := (carry = 0) in
  Ret (c1 /\ c2 /\ c3 /\ c4 /\ c5 /\ c6 /\ c7 /\ c8 /\ c9 /\ c10 /\ c11 /\ c12 /\ c13 /\ c14 /\ c15 /\ c16 /\ c17 /\ c18)).
Proof. vm_compute. repeat split. Qed.

(** src/ubig/mul.rs:404 *)
Example test_mul_add_assign_digit_decimal : holds (
  let nr : digits := [] in
  '(nr, carry) <- mul_add_assign_digit (impl true D8) nr 57 32 ;;
  let c1 := (nr = []) in
  let c2 := (carry = 32) in
  let nr : digits := [99; 61; 97] in
  '(nr, carry) <- mul_add_assign_digit (impl true D8) nr 57 32 ;;
  let c3 := (nr = [75; 33; 64]) in
  let c4 := (carry = 55) in
  let nr : digits := [93; 87; 21] in
  '(nr, carry) <- mul_add_assign_digit (impl true D8) nr 3 32 ;;
  let c5 := (nr = [11; 64; 65]) in
  let c6 := (carry = 0) in
  let nr : digits := [] in
  '(nr, carry) <- mul_add_assign_digit (impl true D16) nr 8739 3298 ;;
  let c7 := (nr = []) in
  let c8 := (carry = 3298) in
  let nr : digits := [9935; 6193; 4324] in
  '(nr, carry) <- mul_add_assign_digit (impl true D16) nr 8739 3298 ;;
  let c9 := (nr = [5263; 9309; 2848]) in
  let c10 := (carry = 3779) in
  let nr : digits := [9935; 6193; 45] in
  '(nr, carry) <- mul_add_assign_digit (impl true D16) nr 175 3298 ;;
  let c11 := (nr = [1923; 3949; 7983]) in
  let c12 := (carry = 0) in
  let nr : digits := [] in
  '(nr, carry) <- mul_add_assign_digit (impl true D32) nr 123761987 321563982 ;;
  let c13 := (nr = []) in
  let c14 := (carry = 321563982) in
  let nr : digits := [873817123; 999987999; 281784299] in
  '(nr, carry) <- mul_add_assign_digit (impl true D32) nr 123761987 321563982 ;;
  let c15 := (nr = [738667383; 840539356; 873402614]) in
  let c16 := (carry = 34874184) in
  let nr : digits := [873817123; 999987999; 4299] in
  '(nr, carry) <- mul_add_assign_digit (impl true D32) nr 2987 321563982 ;;
  let c17 := (nr = [413310383; 964155623; 12844099]) in
  let c18 := (carry = 0) in
  Ret (c1 /\ c2 /\ c3 /\ c4 /\ c5 /\ c6 /\ c7 /\ c8 /\ c9 /\ c10 /\ c11 /\ c12 /\ c13 /\ c14 /\ c15 /\ c16 /\ c17 /\ c18)).
Proof. vm_compute. repeat split. Qed.

(** src/ubig/mul.rs:453 *)
Example test_mul_digit_into_binary : holds (
  let nr : digits := [] in
  let product : digits := (repeat 0 1%nat) in
  product <- mul_digit_into (impl true B8) nr 87 product ;;
  let c1 := (product = [0]) in
  let nr : digits := [255; 97; 167] in
  let product : digits := (repeat 0 4%nat) in
  product <- mul_digit_into (impl true B8) nr 87 product ;;
  let c2 := (product = [169; 77; 226; 56]) in
  let nr : digits := [243; 167; 80] in
  let product : digits := (repeat 0 4%nat) in
  product <- mul_digit_into (impl true B8) nr 3 product ;;
  let c3 := (product = [217; 247; 241; 0]) in
  let nr : digits := [] in
  let product : digits := (repeat 0 1%nat) in
  product <- mul_digit_into (impl true B16) nr 42367 product ;;
  let c4 := (product = [0]) in
  let nr : digits := [65507; 24986; 43007] in
  let product : digits := (repeat 0 4%nat) in
  product <- mul_digit_into (impl true B16) nr 42367 product ;;
  let c5 := (product = [16541; 21202; 61850; 27802]) in
  let nr : digits := [65507; 24986; 80] in
  let product : digits := (repeat 0 4%nat) in
  product <- mul_digit_into (impl true B16) nr 255 product ;;
  let c6 := (product = [58141; 14692; 20497; 0]) in
  let nr : digits := [] in
  let product : digits := (repeat 0 1%nat) in
  product <- mul_digit_into (impl true B32) nr 2776596401 product ;;
  let c7 := (product = [0]) in
  let nr : digits := [4293072634; 1637521919; 2818519580] in
  let product : digits := (repeat 0 4%nat) in
  product <- mul_digit_into (impl true B32) nr 2776603378 product ;;
  let c8 := (product = [142875732; 2864112486; 2053079679; 1822111892]) in
  let nr : digits := [4293072634; 1637521919; 2013213212] in
  let product : digits := (repeat 0 4%nat) in
  product <- mul_digit_into (impl true B32) nr 2 product ;;
  let c9 := (product = [4291177972; 3275043839; 4026426424; 0]) in
  let nr : digits := [18438606564936017705; 7033103092670126803] in
  let product : digits := (repeat 0 3%nat) in
  product <- mul_digit_into (impl true B64) nr 4415002237311359730 product ;;
  let c10 := (product = [7467175666883702466; 16557708824464436602; 1683287075773682207]) in
  Ret (c1 /\ c2 /\ c3 /\ c4 /\ c5 /\ c6 /\ c7 /\ c8 /\ c9 /\ c10)).
Proof. vm_compute. repeat split. Qed.

(** src/ubig/mul.rs:521 *)
Example test_mul_digit_into_decimal : holds (
  let nr : digits := [] in
  let product : digits := (repeat 0 1%nat) in
  product <- mul_digit_into (impl true D8) nr 57 product ;;
  let c1 := (product = [0]) in
  let nr : digits := [99; 61; 97] in
  let product : digits := (repeat 0 4%nat) in
  product <- mul_digit_into (impl true D8) nr 57 product ;;
  let c2 := (product = [43; 33; 64; 55]) in
  let nr : digits := [93; 87; 21] in
  let product : digits := (repeat 0 4%nat) in
  product <- mul_digit_into (impl true D8) nr 3 product ;;
  let c3 := (product = [79; 63; 65; 0]) in
  let nr : digits := [] in
  let product : digits := (repeat 0 1%nat) in
  product <- mul_digit_into (impl true D16) nr 8739 product ;;
  let c4 := (product = [0]) in
  let nr : digits := [9935; 6193; 4324] in
  let product : digits := (repeat 0 4%nat) in
  product <- mul_digit_into (impl true D16) nr 8739 product ;;
  let c5 := (product = [1965; 9309; 2848; 3779]) in
  let nr : digits := [9935; 6193; 45] in
  let product : digits := (repeat 0 4%nat) in
  product <- mul_digit_into (impl true D16) nr 175 product ;;
  let c6 := (product = [8625; 3948; 7983; 0]) in
  let nr : digits := [] in
  let product : digits := (repeat 0 1%nat) in
  product <- mul_digit_into (impl true D32) nr 123761987 product ;;
  let c7 := (product = [0]) in
  let nr : digits := [873817123; 999987999; 281784299] in
  let product : digits := (repeat 0 4%nat) in
  product <- mul_digit_into (impl true D32) nr 123761987 product ;;
  let c8 := (product = [417103401; 840539356; 873402614; 34874184]) in
  let nr : digits := [873817123; 999987999; 4299] in
  let product : digits := (repeat 0 4%nat) in
  product <- mul_digit_into (impl true D32) nr 2987 product ;;
  let c9 := (product = [91746401; 964155623; 12844099; 0]) in
  let nr : digits := [5873817123123777879; 7999987999345142555] in
  let product : digits := (repeat 0 3%nat) in
  product <- mul_digit_into (impl true D64) nr 6123761987748339967 product ;;
  let c10 := (product = [3334168447886189993; 432382588376065863; 4899002241283267563]) in
  Ret (c1 /\ c2 /\ c3 /\ c4 /\ c5 /\ c6 /\ c7 /\ c8 /\ c9 /\ c10)).
Proof. vm_compute. repeat split. Qed.

(** src/ubig/mul.rs:589 *)
Example test_mul_pair_add_assign_digit_decimal : holds (
  let nr : digits := [] in
  '(nr, carry) <- mul_pair_add_assign_digit (impl true D8) nr 33 27 93 ;;
  let c1 := (nr = []) in
  let c2 := (carry = (93, 0)) in
  let nr : digits := [67] in
  '(nr, carry) <- mul_pair_add_assign_digit (impl true D8) nr 33 27 93 ;;
  let c3 := (nr = [4]) in
  let c4 := (carry = (32, 18)) in
  let nr : digits := [99] in
  '(nr, carry) <- mul_pair_add_assign_digit (impl true D8) nr 99 99 99 ;;
  let c5 := (nr = [0]) in
  let c6 := (carry = (0, 99)) in
  let nr : digits := [99; 99] in
  '(nr, carry) <- mul_pair_add_assign_digit (impl true D8) nr 99 99 99 ;;
  let c7 := (nr = [0; 1]) in
  let c8 := (carry = (98, 99)) in
  let nr : digits := [18; 0; 90; 71; 12; 28; 27; 7] in
  '(nr, carry) <- mul_pair_add_assign_digit (impl true D8) nr 23 67 92 ;;
  let c9 := (nr = [6; 11; 82; 83; 9; 99; 11; 95]) in
  let c10 := (carry = (88, 4)) in
  let nr : digits := (repeat 99 8%nat) in
  '(nr, carry) <- mul_pair_add_assign_digit (impl true D8) nr 99 99 99 ;;
  let c11 := (nr = [0; 1; 99; 99; 99; 99; 99; 99]) in
  let c12 := (carry = (98, 99)) in
  Ret (c1 /\ c2 /\ c3 /\ c4 /\ c5 /\ c6 /\ c7 /\ c8 /\ c9 /\ c10 /\ c11 /\ c12)).
Proof. vm_compute. repeat split. Qed.

(** ** src/ubig/mul/karatsuba.rs *)

(** src/ubig/mul/karatsuba.rs:159 *)
Example test_mul_big_into_karatsuba_binary : holds (
  let nr0 : digits := [0; 0; 0; 0] in
  let nr1 : digits := [1; 2; 3; 4] in
  let result : digits := (repeat 0 8%nat) in
  let work : digits := (repeat 0 16%nat) in
  '(result, work, n) <- mul_big_karatsuba_into (impl true B8) (mul_fuel (impl true B8) 100) nr0 nr1 result work ;;
  let c1 := (n = 0%nat) in
  let c2 := (result = (repeat 0 8%nat)) in
  let nr0 : digits := [8; 9; 16; 17] in
  let nr1 : digits := [1; 2; 3; 4] in
  let result : digits := (repeat 0 8%nat) in
  let work : digits := (repeat 0 16%nat) in
  '(result, work, n) <- mul_big_karatsuba_into (impl true B8) (mul_fuel (impl true B8) 100) nr0 nr1 result work ;;
  let c3 := (n = 7%nat) in
  let c4 := (result = [8; 25; 58; 108; 118; 115; 68; 0]) in
  let nr0 : digits := [8; 9; 16; 17; 248; 130] in
  let nr1 : digits := [248; 130; 51; 244] in
  let result : digits := (repeat 0 10%nat) in
  let work : digits := (repeat 0 16%nat) in
  '(result, work, n) <- mul_big_karatsuba_into (impl true B8) (mul_fuel (impl true B8) 100) nr0 nr1 result work ;;
  let c5 := (n = 10%nat) in
  let c6 := (result = [192; 207; 182; 24; 200; 135; 175; 202; 238; 124]) in
  let nr0 : digits := [248; 130; 51; 244] in
  let nr1 : digits := [8; 9; 16; 17; 248; 130] in
  let result : digits := (repeat 0 10%nat) in
  let work : digits := (repeat 0 16%nat) in
  '(result, work, n) <- mul_big_karatsuba_into (impl true B8) (mul_fuel (impl true B8) 100) nr0 nr1 result work ;;
  let c7 := (n = 10%nat) in
  let c8 := (result = [192; 207; 182; 24; 200; 135; 175; 202; 238; 124]) in
  let nr0 : digits := [8; 9; 16; 17; 248; 130] in
  let nr1 : digits := [248; 130; 51; 244] in
  let result : digits := (repeat 0 10%nat) in
  let work : digits := (repeat 0 16%nat) in
  '(result, work, n) <- mul_big_karatsuba_into (impl true B64) (mul_fuel (impl true B64) 100) nr0 nr1 result work ;;
  let c9 := (n = 9%nat) in
  let c10 := (result = [1984; 3272; 5546; 8707; 66726; 69251; 33696; 67142; 31720; 0]) in
  Ret (c1 /\ c2 /\ c3 /\ c4 /\ c5 /\ c6 /\ c7 /\ c8 /\ c9 /\ c10)).
Proof. vm_compute. repeat split. Qed.

(** src/ubig/mul/karatsuba.rs:245 *)
Example test_mul_big_into_karatsuba_decimal : holds (
  let nr0 : digits := [0; 0; 0; 0] in
  let nr1 : digits := [1; 2; 3; 4] in
  let result : digits := (repeat 0 8%nat) in
  let work : digits := (repeat 0 16%nat) in
  '(result, work, n) <- mul_big_karatsuba_into (impl true D8) (mul_fuel (impl true D8) 100) nr0 nr1 result work ;;
  let c1 := (n = 0%nat) in
  let c2 := (result = (repeat 0 8%nat)) in
  let nr0 : digits := [8; 9; 10; 11] in
  let nr1 : digits := [1; 2; 3; 4] in
  let result : digits := (repeat 0 8%nat) in
  let work : digits := (repeat 0 16%nat) in
  '(result, work, n) <- mul_big_karatsuba_into (impl true D8) (mul_fuel (impl true D8) 100) nr0 nr1 result work ;;
  let c3 := (n = 7%nat) in
  let c4 := (result = [8; 25; 52; 90; 88; 73; 44; 0]) in
  let nr0 : digits := [8; 9; 10; 11; 98; 52] in
  let nr1 : digits := [98; 52; 33; 94] in
  let result : digits := (repeat 0 10%nat) in
  let work : digits := (repeat 0 16%nat) in
  '(result, work, n) <- mul_big_karatsuba_into (impl true D8) (mul_fuel (impl true D8) 100) nr0 nr1 result work ;;
  let c5 := (n = 10%nat) in
  let c6 := (result = [84; 5; 25; 64; 78; 8; 88; 98; 97; 49]) in
  let nr0 : digits := [98; 52; 33; 94] in
  let nr1 : digits := [8; 9; 10; 11; 98; 52] in
  let result : digits := (repeat 0 10%nat) in
  let work : digits := (repeat 0 16%nat) in
  '(result, work, n) <- mul_big_karatsuba_into (impl true D8) (mul_fuel (impl true D8) 100) nr0 nr1 result work ;;
  let c7 := (n = 10%nat) in
  let c8 := (result = [84; 5; 25; 64; 78; 8; 88; 98; 97; 49]) in
  Ret (c1 /\ c2 /\ c3 /\ c4 /\ c5 /\ c6 /\ c7 /\ c8)).
Proof. vm_compute. repeat split. Qed.

(** src/ubig/mul/karatsuba.rs:312 *)
Example test_square_karatsuba_into_binary : holds (
  let nr0 : digits := [47; 244; 137; 18] in
  let square : digits := (repeat 0 8%nat) in
  let work : digits := (repeat 0 8%nat) in
  '(square, work, n) <- square_karatsuba_into (impl true B8) (square_fuel (impl true B8) 100) nr0 square work ;;
  let c1 := (n = 8%nat) in
  let c2 := (square = [161; 160; 55; 223; 173; 176; 87; 1]) in
  let nr0 : digits := [17722; 0; 0; 22191] in
  let square : digits := (repeat 0 8%nat) in
  let work : digits := (repeat 0 8%nat) in
  '(square, work, n) <- square_karatsuba_into (impl true B16) (square_fuel (impl true B16) 100) nr0 square work ;;
  let c3 := (n = 8%nat) in
  let c4 := (square = [20772; 4792; 0; 40268; 12001; 0; 2977; 7514]) in
  let nr0 : digits := [1922228020; 2208125690; 645136090] in
  let square : digits := (repeat 0 6%nat) in
  let work : digits := (repeat 0 8%nat) in
  '(square, work, n) <- square_karatsuba_into (impl true B32) (square_fuel (impl true B32) 100) nr0 square work ;;
  let c5 := (n = 6%nat) in
  let c6 := (square = [2850792080; 250111133; 3240072079; 2202745785; 3575335851; 96904247]) in
  let nr0 : digits := (repeat 18446744073709551615 7%nat) in
  let square : digits := (repeat 0 14%nat) in
  let work : digits := (repeat 0 16%nat) in
  '(square, work, n) <- square_karatsuba_into (impl true B64) (square_fuel (impl true B64) 100) nr0 square work ;;
  let c7 := (n = 14%nat) in
  let c8 := (square = [1; 0; 0; 0; 0; 0; 0; 18446744073709551614; 18446744073709551615; 18446744073709551615; 18446744073709551615; 18446744073709551615; 18446744073709551615; 18446744073709551615]) in
  Ret (c1 /\ c2 /\ c3 /\ c4 /\ c5 /\ c6 /\ c7 /\ c8)).
Proof. vm_compute. repeat split. Qed.

(** src/ubig/mul/karatsuba.rs:384 *)
Example test_square_karatsuba_into_decimal : holds (
  let nr0 : digits := [27; 86; 93; 2] in
  let square : digits := (repeat 0 8%nat) in
  let work : digits := (repeat 0 8%nat) in
  '(square, work, n) <- square_karatsuba_into (impl true D8) (square_fuel (impl true D8) 100) nr0 square work ;;
  let c1 := (n = 7%nat) in
  let c2 := (square = [29; 51; 64; 28; 55; 63; 8; 0]) in
  let nr0 : digits := [5673; 9872; 1234; 9999; 123] in
  let square : digits := (repeat 0 10%nat) in
  let work : digits := (repeat 0 14%nat) in
  '(square, work, n) <- square_karatsuba_into (impl true D16) (square_fuel (impl true D16) 100) nr0 square work ;;
  let c3 := (n = 10%nat) in
  let c4 := (square = [2929; 930; 8549; 3896; 2352; 6079; 6277; 9782; 5375; 1]) in
  let nr0 : digits := [872201010; 9872664; 23987345] in
  let square : digits := (repeat 0 6%nat) in
  let work : digits := (repeat 0 8%nat) in
  '(square, work, n) <- square_karatsuba_into (impl true D32) (square_fuel (impl true D32) 100) nr0 square work ;;
  let c5 := (n = 6%nat) in
  let c6 := (square = [845020100; 785115881; 584115691; 36815202; 720622663; 575392]) in
  let nr0 : digits := (repeat 9876543210123456789 7%nat) in
  let square : digits := (repeat 0 14%nat) in
  let work : digits := (repeat 0 16%nat) in
  '(square, work, n) <- square_karatsuba_into (impl true D64) (square_fuel (impl true D64) 100) nr0 square work ;;
  let c7 := (n = 14%nat) in
  let c8 := (square = [2267946958750190521; 4290504495643956714; 6313062032537722908; 8335619569431489102; 358177106325255296; 2380734643219021491; 4403292180112787685; 1889955799506172837; 9867398262612406645; 7844840725718640450; 5822283188824874256; 3799725651931108062; 1777168115037341868; 9754610578143575674]) in
  Ret (c1 /\ c2 /\ c3 /\ c4 /\ c5 /\ c6 /\ c7 /\ c8)).
Proof. vm_compute. repeat split. Qed.

(** ** src/ubig/mul/long.rs *)

(** src/ubig/mul/long.rs:76 *)
Example test_mul_big_long_into_binary : holds (
  let nr0 : digits := [] in
  let nr1 : digits := [127; 54; 35] in
  let result : digits := (repeat 0 3%nat) in
  '(result, n) <- mul_big_long_into (impl true B8) nr0 nr1 result ;;
  let c1 := (n = 0%nat) in
  let c2 := (result = (repeat 0 3%nat)) in
  let nr0 : digits := [128] in
  let nr1 : digits := [127; 54; 35] in
  let result : digits := (repeat 0 4%nat) in
  '(result, n) <- mul_big_long_into (impl true B8) nr0 nr1 result ;;
  let c3 := (n = 4%nat) in
  let c4 := (result = [128; 63; 155; 17]) in
  let nr0 : digits := [128; 101; 33; 254; 156] in
  let nr1 : digits := [127; 54; 35] in
  let result : digits := (repeat 0 8%nat) in
  '(result, n) <- mul_big_long_into (impl true B8) nr0 nr1 result ;;
  let c5 := (n = 8%nat) in
  let c6 := (result = [128; 90; 122; 254; 13; 42; 152; 21]) in
  let nr0 : digits := [127; 54; 35] in
  let nr1 : digits := [128; 101; 33; 254; 156] in
  let result : digits := (repeat 0 8%nat) in
  '(result, n) <- mul_big_long_into (impl true B8) nr0 nr1 result ;;
  let c7 := (n = 8%nat) in
  let c8 := (result = [128; 90; 122; 254; 13; 42; 152; 21]) in
  let nr0 : digits := [32562; 13949; 9120] in
  let nr1 : digits := [32776; 25923; 8703; 254] in
  let result : digits := (repeat 0 7%nat) in
  '(result, n) <- mul_big_long_into (impl true B16) nr0 nr1 result ;;
  let c9 := (n = 7%nat) in
  let c10 := (result = [63888; 30618; 8981; 16962; 16952; 23985; 35]) in
  let nr0 : digits := [32562; 13949; 9120] in
  let nr1 : digits := [32776; 25923; 8703; 254] in
  let result : digits := (repeat 0 7%nat) in
  '(result, n) <- mul_big_long_into (impl true B32) nr0 nr1 result ;;
  let c11 := (n = 6%nat) in
  let c12 := (result = [1067252112; 1301297150; 943904133; 366086655; 82914406; 2316480; 0]) in
  Ret (c1 /\ c2 /\ c3 /\ c4 /\ c5 /\ c6 /\ c7 /\ c8 /\ c9 /\ c10 /\ c11 /\ c12)).
Proof. vm_compute. repeat split. Qed.

(** src/ubig/mul/long.rs:156 *)
Example test_mul_big_long_into_decimal : holds (
  let nr0 : digits := [] in
  let nr1 : digits := [49; 36; 23] in
  let result : digits := (repeat 0 3%nat) in
  '(result, n) <- mul_big_long_into (impl true D8) nr0 nr1 result ;;
  let c1 := (n = 0%nat) in
  let c2 := (result = (repeat 0 3%nat)) in
  let nr0 : digits := [50] in
  let nr1 : digits := [49; 36; 23] in
  let result : digits := (repeat 0 4%nat) in
  '(result, n) <- mul_big_long_into (impl true D8) nr0 nr1 result ;;
  let c3 := (n = 4%nat) in
  let c4 := (result = [50; 24; 68; 11]) in
  let nr0 : digits := [50; 65; 21; 98; 95] in
  let nr1 : digits := [49; 36; 23] in
  let result : digits := (repeat 0 8%nat) in
  '(result, n) <- mul_big_long_into (impl true D8) nr0 nr1 result ;;
  let c5 := (n = 8%nat) in
  let c6 := (result = [50; 9; 69; 98; 36; 61; 42; 22]) in
  let nr0 : digits := [49; 36; 23] in
  let nr1 : digits := [50; 65; 21; 98; 95] in
  let result : digits := (repeat 0 8%nat) in
  '(result, n) <- mul_big_long_into (impl true D8) nr0 nr1 result ;;
  let c7 := (n = 8%nat) in
  let c8 := (result = [50; 9; 69; 98; 36; 61; 42; 22]) in
  let nr0 : digits := [7932; 3677; 2380] in
  let nr1 : digits := [8008; 6543; 2155; 98] in
  let result : digits := (repeat 0 7%nat) in
  '(result, n) <- mul_big_long_into (impl true D16) nr0 nr1 result ;;
  let c9 := (n = 7%nat) in
  let c10 := (result = [9456; 843; 9246; 9632; 1673; 3789; 23]) in
  let nr0 : digits := [7932; 3677; 2380] in
  let nr1 : digits := [8008; 6543; 2155; 98] in
  let result : digits := (repeat 0 7%nat) in
  '(result, n) <- mul_big_long_into (impl true D32) nr0 nr1 result ;;
  let c11 := (n = 6%nat) in
  let c12 := (result = [63519456; 81344492; 60211111; 24273611; 5489246; 233240; 0]) in
  Ret (c1 /\ c2 /\ c3 /\ c4 /\ c5 /\ c6 /\ c7 /\ c8 /\ c9 /\ c10 /\ c11 /\ c12)).
Proof. vm_compute. repeat split. Qed.

(** src/ubig/mul/long.rs:236 *)
Example test_square_long_into_binary : holds (
  let nr0 : digits := [] in
  let square : digits := [] in
  '(square, n) <- square_long_into (impl true B8) nr0 square ;;
  let c1 := (n = 0%nat) in
  let c2 := (square = []) in
  let nr0 : digits := [9] in
  let square : digits := (repeat 0 2%nat) in
  '(square, n) <- square_long_into (impl true B8) nr0 square ;;
  let c3 := (n = 1%nat) in
  let c4 := (square = [81; 0]) in
  let nr0 : digits := [47] in
  let square : digits := (repeat 0 2%nat) in
  '(square, n) <- square_long_into (impl true B8) nr0 square ;;
  let c5 := (n = 2%nat) in
  let c6 := (square = [161; 8]) in
  let nr0 : digits := [47; 244; 137; 18] in
  let square : digits := (repeat 0 8%nat) in
  '(square, n) <- square_long_into (impl true B8) nr0 square ;;
  let c7 := (n = 8%nat) in
  let c8 := (square = [161; 160; 55; 223; 173; 176; 87; 1]) in
  let nr0 : digits := [1922228020; 2208125690; 645136090] in
  let square : digits := (repeat 0 6%nat) in
  '(square, n) <- square_long_into (impl true B32) nr0 square ;;
  let c9 := (n = 6%nat) in
  let c10 := (square = [2850792080; 250111133; 3240072079; 2202745785; 3575335851; 96904247]) in
  let nr0 : digits := (repeat 18446744073709551615 7%nat) in
  let square : digits := (repeat 0 14%nat) in
  '(square, n) <- square_long_into (impl true B64) nr0 square ;;
  let c11 := (n = 14%nat) in
  let c12 := (square = [1; 0; 0; 0; 0; 0; 0; 18446744073709551614; 18446744073709551615; 18446744073709551615; 18446744073709551615; 18446744073709551615; 18446744073709551615; 18446744073709551615]) in
  Ret (c1 /\ c2 /\ c3 /\ c4 /\ c5 /\ c6 /\ c7 /\ c8 /\ c9 /\ c10 /\ c11 /\ c12)).
Proof. vm_compute. repeat split. Qed.

(** src/ubig/mul/long.rs:307 *)
Example test_square_long_into_decimal : holds (
  let nr0 : digits := [] in
  let square : digits := [] in
  '(square, n) <- square_long_into (impl true D8) nr0 square ;;
  let c1 := (n = 0%nat) in
  let c2 := (square = []) in
  let nr0 : digits := [9] in
  let square : digits := (repeat 0 2%nat) in
  '(square, n) <- square_long_into (impl true D8) nr0 square ;;
  let c3 := (n = 1%nat) in
  let c4 := (square = [81; 0]) in
  let nr0 : digits := [27] in
  let square : digits := (repeat 0 2%nat) in
  '(square, n) <- square_long_into (impl true D8) nr0 square ;;
  let c5 := (n = 2%nat) in
  let c6 := (square = [29; 7]) in
  let nr0 : digits := [27; 86; 93; 2] in
  let square : digits := (repeat 0 8%nat) in
  '(square, n) <- square_long_into (impl true D8) nr0 square ;;
  let c7 := (n = 7%nat) in
  let c8 := (square = [29; 51; 64; 28; 55; 63; 8; 0]) in
  let nr0 : digits := [872201010; 9872664; 23987345] in
  let square : digits := (repeat 0 6%nat) in
  '(square, n) <- square_long_into (impl true D32) nr0 square ;;
  let c9 := (n = 6%nat) in
  let c10 := (square = [845020100; 785115881; 584115691; 36815202; 720622663; 575392]) in
  let nr0 : digits := (repeat 9876543210123456789 7%nat) in
  let square : digits := (repeat 0 14%nat) in
  '(square, n) <- square_long_into (impl true D64) nr0 square ;;
  let c11 := (n = 14%nat) in
  let c12 := (square = [2267946958750190521; 4290504495643956714; 6313062032537722908; 8335619569431489102; 358177106325255296; 2380734643219021491; 4403292180112787685; 1889955799506172837; 9867398262612406645; 7844840725718640450; 5822283188824874256; 3799725651931108062; 1777168115037341868; 9754610578143575674]) in
  Ret (c1 /\ c2 /\ c3 /\ c4 /\ c5 /\ c6 /\ c7 /\ c8 /\ c9 /\ c10 /\ c11 /\ c12)).
Proof. vm_compute. repeat split. Qed.

(** ** src/ubig/mul/toom3.rs *)

(** src/ubig/mul/toom3.rs:446 *)
Example test_big_into_toom3 : holds (
  let n : digits := [9012; 5678; 1234; 7890; 3456; 12] in
  let m : digits := [1098; 5432; 9876; 4321; 8765; 9] in
  let prod : digits := (repeat 0 12%nat) in
  let work : digits := (repeat 0 28%nat) in
  '(prod, work, nr_digits) <- mul_big_toom3_into (impl true D16) (mul_fuel (impl true D16) 100) n m prod work ;;
  let c1 := (nr_digits = 11%nat) in
  let c2 := (prod = [5176; 8617; 5858; 5208; 6009; 4937; 1632; 6761; 3124; 9326; 121; 0]) in
  let n : digits := [22; 99; 31; 227; 115; 152; 166; 22; 51; 114; 187] in
  let m : digits := [114; 131; 143; 247; 114; 167; 161; 153; 74; 207; 50; 93] in
  let prod : digits := (repeat 0 23%nat) in
  let work : digits := (repeat 0 60%nat) in
  '(prod, work, nr_digits) <- mul_big_toom3_into (impl true B8) (mul_fuel (impl true B8) 100) n m prod work ;;
  let c3 := (nr_digits = 23%nat) in
  let c4 := (prod = [204; 97; 248; 198; 194; 209; 133; 99; 148; 231; 13; 156; 244; 203; 234; 23; 159; 193; 43; 165; 176; 61; 68]) in
  let n : digits := (repeat 255 5%nat) in
  let m : digits := (repeat 255 5%nat) in
  let prod : digits := (repeat 0 10%nat) in
  let work : digits := (repeat 0 28%nat) in
  '(prod, work, nr_digits) <- mul_big_toom3_into (impl true B8) (mul_fuel (impl true B8) 100) n m prod work ;;
  let c5 := (nr_digits = 10%nat) in
  let c6 := (prod = [1; 0; 0; 0; 0; 254; 255; 255; 255; 255]) in
  let n : digits := [0; 0; 0; 0; 0; 0; 0; 0; 1] in
  let m : digits := [0; 0; 0; 0; 1] in
  let prod : digits := (repeat 0 14%nat) in
  let work : digits := (repeat 0 50%nat) in
  '(prod, work, nr_digits) <- mul_big_toom3_into (impl true D8) (mul_fuel (impl true D8) 100) n m prod work ;;
  let c7 := (nr_digits = 13%nat) in
  let c8 := (prod = [0; 0; 0; 0; 0; 0; 0; 0; 0; 0; 0; 0; 1; 0]) in
  Ret (c1 /\ c2 /\ c3 /\ c4 /\ c5 /\ c6 /\ c7 /\ c8)).
Proof. vm_compute. repeat split. Qed.

(** src/ubig/mul/toom3.rs:482 *)
Example test_square_toom3_into_binary : holds (
  let nr0 : digits := [47; 244; 137; 18; 3] in
  let square : digits := (repeat 0 10%nat) in
  let work : digits := (repeat 0 30%nat) in
  '(square, work, n) <- square_toom3_into (impl true B8) (square_fuel (impl true B8) 100) nr0 square work ;;
  let c1 := (n = 9%nat) in
  let c2 := (square = [161; 160; 55; 223; 199; 105; 147; 112; 9; 0]) in
  let nr0 : digits := [17722; 0; 0; 0; 22191] in
  let square : digits := (repeat 0 10%nat) in
  let work : digits := (repeat 0 30%nat) in
  '(square, work, n) <- square_toom3_into (impl true B16) (square_fuel (impl true B16) 100) nr0 square work ;;
  let c3 := (n = 10%nat) in
  let c4 := (square = [20772; 4792; 0; 0; 40268; 12001; 0; 0; 2977; 7514]) in
  let nr0 : digits := [1922228020; 2208125690; 645136090; 1929204686; 898110175; 4294967295; 640669219; 845513090; 4252447452] in
  let square : digits := (repeat 0 18%nat) in
  let work : digits := (repeat 0 58%nat) in
  '(square, work, n) <- square_toom3_into (impl true B32) (square_fuel (impl true B32) 100) nr0 square work ;;
  let c5 := (n = 18%nat) in
  let c6 := (square = [2850792080; 250111133; 3240072079; 2704157545; 2914037430; 3707590297; 269838995; 4042084337; 4264888740; 3073631480; 3483864436; 1809473334; 317072661; 2073193071; 3631700970; 4117973806; 2389589359; 4210348551]) in
  let nr0 : digits := (repeat 18446744073709551615 17%nat) in
  let square : digits := (repeat 0 34%nat) in
  let work : digits := (repeat 0 100%nat) in
  '(square, work, n) <- square_toom3_into (impl true B64) (square_fuel (impl true B64) 100) nr0 square work ;;
  let c7 := (n = 34%nat) in
  let c8 := (square = [1; 0; 0; 0; 0; 0; 0; 0; 0; 0; 0; 0; 0; 0; 0; 0; 0; 18446744073709551614; 18446744073709551615; 18446744073709551615; 18446744073709551615; 18446744073709551615; 18446744073709551615; 18446744073709551615; 18446744073709551615; 18446744073709551615; 18446744073709551615; 18446744073709551615; 18446744073709551615; 18446744073709551615; 18446744073709551615; 18446744073709551615; 18446744073709551615; 18446744073709551615]) in
  Ret (c1 /\ c2 /\ c3 /\ c4 /\ c5 /\ c6 /\ c7 /\ c8)).
Proof. vm_compute. repeat split. Qed.

(** src/ubig/mul/toom3.rs:600 *)
Example test_square_toom3_into_decimal : holds (
  let nr0 : digits := [27; 86; 0; 93; 2] in
  let square : digits := (repeat 0 10%nat) in
  let work : digits := (repeat 0 30%nat) in
  '(square, work, n) <- square_toom3_into (impl true D8) (square_fuel (impl true D8) 100) nr0 square work ;;
  let c1 := (n = 9%nat) in
  let c2 := (square = [29; 51; 42; 96; 54; 5; 54; 58; 8; 0]) in
  let nr0 : digits := [5673; 9872; 1234; 9999; 123] in
  let square : digits := (repeat 0 10%nat) in
  let work : digits := (repeat 0 30%nat) in
  '(square, work, n) <- square_toom3_into (impl true D16) (square_fuel (impl true D16) 100) nr0 square work ;;
  let c3 := (n = 10%nat) in
  let c4 := (square = [2929; 930; 8549; 3896; 2352; 6079; 6277; 9782; 5375; 1]) in
  let nr0 : digits := [872201010; 9872664; 23987345; 234198372; 929821119; 909928872; 373444756] in
  let square : digits := (repeat 0 14%nat) in
  let work : digits := (repeat 0 58%nat) in
  '(square, work, n) <- square_toom3_into (impl true D32) (square_fuel (impl true D32) 100) nr0 square work ;;
  let c5 := (n = 14%nat) in
  let c6 := (square = [845020100; 785115881; 584115691; 234326642; 23625172; 271489707; 762922611; 164247573; 142583099; 29860931; 783458785; 685234659; 463515868; 139460986]) in
  let nr0 : digits := (repeat 9876543210123456789 7%nat) in
  let square : digits := (repeat 0 14%nat) in
  let work : digits := (repeat 0 100%nat) in
  '(square, work, n) <- square_toom3_into (impl true D64) (square_fuel (impl true D64) 100) nr0 square work ;;
  let c7 := (n = 14%nat) in
  let c8 := (square = [2267946958750190521; 4290504495643956714; 6313062032537722908; 8335619569431489102; 358177106325255296; 2380734643219021491; 4403292180112787685; 1889955799506172837; 9867398262612406645; 7844840725718640450; 5822283188824874256; 3799725651931108062; 1777168115037341868; 9754610578143575674]) in
  Ret (c1 /\ c2 /\ c3 /\ c4 /\ c5 /\ c6 /\ c7 /\ c8)).
Proof. vm_compute. repeat split. Qed.

(** ** src/ubig/rsub.rs *)

(** src/ubig/rsub.rs:52 *)
Example test_rsub_assign_big_binary : holds (
  let nr0 : digits := [] in
  let nr1 : digits := [] in
  '(nr0, res) <- rsub_assign_big (impl true B8) nr0 nr1 ;;
  let c1 := (nr0 = []) in
  let c2 := (res = ROk 0%nat) in
  let nr0 : digits := [52; 18] in
  let nr1 : digits := [54; 22] in
  '(nr0, res) <- rsub_assign_big (impl true B8) nr0 nr1 ;;
  let c3 := (nr0 = [2; 4]) in
  let c4 := (res = ROk 2%nat) in
  let nr0 : digits := [54; 22] in
  let nr1 : digits := [52; 18] in
  '(nr0, res) <- rsub_assign_big (impl true B8) nr0 nr1 ;;
  let c5 := (nr0 = [254; 251]) in
  let c6 := (res = RErr Underflow) in
  let nr0 : digits := [54; 22] in
  let nr1 : digits := [52; 23] in
  '(nr0, res) <- rsub_assign_big (impl true B8) nr0 nr1 ;;
  let c7 := (nr0 = [254; 0]) in
  let c8 := (res = ROk 1%nat) in
  let nr0 : digits := [54; 22] in
  let nr1 : digits := [52; 22] in
  '(nr0, res) <- rsub_assign_big (impl true B8) nr0 nr1 ;;
  let c9 := (nr0 = [254; 255]) in
  let c10 := (res = RErr Underflow) in
  let nr0 : digits := [2180932012; 4082295203; 1922105516] in
  let nr1 : digits := [1878942229; 2787505116; 3591566383] in
  '(nr0, res) <- rsub_assign_big (impl true B32) nr0 nr1 ;;
  let c11 := (nr0 = [3992977513; 3000177208; 1669460866]) in
  let c12 := (res = ROk 3%nat) in
  Ret (c1 /\ c2 /\ c3 /\ c4 /\ c5 /\ c6 /\ c7 /\ c8 /\ c9 /\ c10 /\ c11 /\ c12)).
Proof. vm_compute. repeat split. Qed.

(** src/ubig/rsub.rs:92 *)
Example test_rsub_assign_big_decimal : holds (
  let nr0 : digits := [] in
  let nr1 : digits := [] in
  '(nr0, res) <- rsub_assign_big (impl true D8) nr0 nr1 ;;
  let c1 := (nr0 = []) in
  let c2 := (res = ROk 0%nat) in
  let nr0 : digits := [34; 12] in
  let nr1 : digits := [36; 16] in
  '(nr0, res) <- rsub_assign_big (impl true D8) nr0 nr1 ;;
  let c3 := (nr0 = [2; 4]) in
  let c4 := (res = ROk 2%nat) in
  let nr0 : digits := [36; 16] in
  let nr1 : digits := [34; 12] in
  '(nr0, res) <- rsub_assign_big (impl true D8) nr0 nr1 ;;
  let c5 := (nr0 = [98; 95]) in
  let c6 := (res = RErr Underflow) in
  let nr0 : digits := [36; 16] in
  let nr1 : digits := [34; 17] in
  '(nr0, res) <- rsub_assign_big (impl true D8) nr0 nr1 ;;
  let c7 := (nr0 = [98; 0]) in
  let c8 := (res = ROk 1%nat) in
  let nr0 : digits := [36; 16] in
  let nr1 : digits := [34; 16] in
  '(nr0, res) <- rsub_assign_big (impl true D8) nr0 nr1 ;;
  let c9 := (nr0 = [98; 99]) in
  let c10 := (res = RErr Underflow) in
  let nr0 : digits := [287091918; 827909001; 275599012] in
  let nr1 : digits := [874762199; 564887009; 387764666] in
  '(nr0, res) <- rsub_assign_big (impl true D32) nr0 nr1 ;;
  let c11 := (nr0 = [587670281; 736978008; 112165653]) in
  let c12 := (res = ROk 3%nat) in
  Ret (c1 /\ c2 /\ c3 /\ c4 /\ c5 /\ c6 /\ c7 /\ c8 /\ c9 /\ c10 /\ c11 /\ c12)).
Proof. vm_compute. repeat split. Qed.

(** ** src/ubig/shl.rs *)

(** src/ubig/shl.rs:40 *)
Example test_shl_carry_assign_within_digit_binary : holds (
  let n : digits := [] in
  '(n, carry) <- shl_carry_assign_within_digit (impl true B32) n 15 32767 ;;
  let c1 := (n = []) in
  let c2 := (carry = 32767) in
  let n : digits := [108155922; 385539838; 1640057556] in
  '(n, carry) <- shl_carry_assign_within_digit (impl true B32) n 15 32767 ;;
  let c3 := (n = [705265663; 1870594873; 2775190397]) in
  let c4 := (carry = 12512) in
  let n : digits := [108155922; 385539838; 1640057556] in
  '(n, carry) <- shl_carry_assign_within_digit (impl true B32) n 0 0 ;;
  let c5 := (n = [108155922; 385539838; 1640057556]) in
  let c6 := (carry = 0) in
  let n : digits := [21522; 1650; 57086; 5882; 19156; 25025] in
  '(n, carry) <- shl_carry_assign_within_digit (impl true B16) n 15 32767 ;;
  let c7 := (n = [32767; 10761; 825; 28543; 2941; 42346]) in
  let c8 := (carry = 12512) in
  let n : digits := [9221193762499416594; 6562546066] in
  '(n, carry) <- shl_carry_assign_within_digit (impl true B64) n 15 32767 ;;
  let c9 := (n = [2409282218427514879; 215041509507068]) in
  let c10 := (carry = 0) in
  let n : digits := [9221193762499416594; 6562546066] in
  '(n, carry) <- shl_carry_assign_within_digit (impl true B64) n 52 588981043199 ;;
  let c11 := (n = [2386908391487406079; 1812698318211362101]) in
  let c12 := (carry = 1602184) in
  Ret (c1 /\ c2 /\ c3 /\ c4 /\ c5 /\ c6 /\ c7 /\ c8 /\ c9 /\ c10 /\ c11 /\ c12)).
Proof. vm_compute. repeat split. Qed.

(** src/ubig/shl.rs:88 *)
Example test_shl_carry_assign_within_digit_decimal : holds (
  let n : digits := [] in
  '(n, carry) <- shl_carry_assign_within_digit (impl true D32) n 15 9999 ;;
  let c1 := (n = []) in
  let c2 := (carry = 9999) in
  let n : digits := [9567; 1253; 14] in
  '(n, carry) <- shl_carry_assign_within_digit (impl true D16) n 0 0 ;;
  let c3 := (n = [9567; 1253; 14]) in
  let c4 := (carry = 0) in
  let n : digits := [826211332; 187721198; 987365181] in
  '(n, carry) <- shl_carry_assign_within_digit (impl true D32) n 15 9999 ;;
  let c5 := (n = [292936975; 248243137; 982257159]) in
  let c6 := (carry = 32353) in
  let n : digits := [1332; 2621; 1988; 7721; 8118; 3651; 987] in
  '(n, carry) <- shl_carry_assign_within_digit (impl true D16) n 11 2000 ;;
  let c7 := (n = [9936; 8080; 1960; 3015; 7245; 8910; 2123]) in
  let c8 := (carry = 202) in
  let n : digits := [9876543210987654321; 1234567890123456789] in
  '(n, carry) <- shl_carry_assign_within_digit (impl true D64) n 34 111222333 ;;
  let c9 := (n = [4891212673903566397; 1087873261864462211]) in
  let c10 := (carry = 2120971485) in
  Ret (c1 /\ c2 /\ c3 /\ c4 /\ c5 /\ c6 /\ c7 /\ c8 /\ c9 /\ c10)).
Proof. vm_compute. repeat split. Qed.

(** ** src/ubig/shr.rs *)

(** src/ubig/shr.rs:44 *)
Example test_shr_carry_assign_within_digit_binary : holds (
  let n : digits := [] in
  '(n, (nd, carry)) <- shr_carry_assign_within_digit (impl true B32) n 15 32767 ;;
  let c1 := (nd = 0%nat) in
  let c2 := (carry = 32767) in
  let c3 := (n = []) in
  let n : digits := [108155922; 385539838; 1640057556] in
  '(n, (nd, carry)) <- shr_carry_assign_within_digit (impl true B32) n 15 32767 ;;
  let c4 := (nd = 3%nat) in
  let c5 := (carry = 21522) in
  let c6 := (n = [3187412196; 2510826997; 4294886274]) in
  let n : digits := [21522; 1650; 57086; 5882; 19156; 25025] in
  '(n, (nd, carry)) <- shr_carry_assign_within_digit (impl true B16) n 15 741 ;;
  let c7 := (nd = 6%nat) in
  let c8 := (carry = 21522) in
  let c9 := (n = [3300; 48636; 11765; 38312; 50050; 1482]) in
  let n : digits := [9399735355359293173; 72057594037927935] in
  '(n, (nd, carry)) <- shr_carry_assign_within_digit (impl true B64) n 56 0 ;;
  let c10 := (nd = 1%nat) in
  let c11 := (carry = 32248130428661493) in
  let c12 := (n = [18446744073709551490; 0]) in
  Ret (c1 /\ c2 /\ c3 /\ c4 /\ c5 /\ c6 /\ c7 /\ c8 /\ c9 /\ c10 /\ c11 /\ c12)).
Proof. vm_compute. repeat split. Qed.

(** src/ubig/shr.rs:86 *)
Example test_shl_carry_assign_within_digit_decimal' : holds (
  let n : digits := [] in
  '(n, (nd, carry)) <- shr_carry_assign_within_digit (impl true D32) n 15 9999 ;;
  let c1 := (n = []) in
  let c2 := (nd = 0%nat) in
  let c3 := (carry = 9999) in
  let n : digits := [826211332; 187721198; 987365181] in
  '(n, (nd, carry)) <- shr_carry_assign_within_digit (impl true D32) n 15 9999 ;;
  let c4 := (n = [61975897; 665929801; 305175395]) in
  let c5 := (nd = 3%nat) in
  let c6 := (carry = 18436) in
  let n : digits := [826211332; 187721198; 5181] in
  '(n, (nd, carry)) <- shr_carry_assign_within_digit (impl true D32) n 15 0 ;;
  let c7 := (nd = 2%nat) in
  let c8 := (carry = 18436) in
  let c9 := (n = [61975897; 158117301; 0]) in
  let n : digits := [1332; 2621; 1988; 7721; 8118; 3651; 987] in
  '(n, (nd, carry)) <- shr_carry_assign_within_digit (impl true D16) n 11 2000 ;;
  let c10 := (n = [4361; 9161; 8169; 4876; 1190; 1071; 9766]) in
  let c11 := (nd = 7%nat) in
  let c12 := (carry = 4) in
  let n : digits := [7826211332987999393; 1187721198756888897] in
  '(n, (nd, carry)) <- shr_carry_assign_within_digit (impl true D64) n 42 4398046511103 ;;
  let c13 := (nd = 2%nat) in
  let c14 := (carry = 4015589610657) in
  let c15 := (n = [7799308747784795334; 9999999999997996319]) in
  Ret (c1 /\ c2 /\ c3 /\ c4 /\ c5 /\ c6 /\ c7 /\ c8 /\ c9 /\ c10 /\ c11 /\ c12 /\ c13 /\ c14 /\ c15)).
Proof. vm_compute. repeat split. Qed.

(** ** src/ubig/sub.rs *)

(** src/ubig/sub.rs:191 *)
Example test_dec_assign_binary : holds (
  let nr : digits := [] in
  '(nr, res) <- dec_assign (impl true B8) nr ;;
  let c1 := (nr = []) in
  let c2 := (res = RErr Underflow) in
  let nr : digits := [1] in
  '(nr, res) <- dec_assign (impl true B8) nr ;;
  let c3 := (nr = [0]) in
  let c4 := (res = ROk 0%nat) in
  let nr : digits := [0] in
  '(nr, res) <- dec_assign (impl true B8) nr ;;
  let c5 := (nr = [255]) in
  let c6 := (res = RErr Underflow) in
  let nr : digits := [0; 1] in
  '(nr, res) <- dec_assign (impl true B8) nr ;;
  let c7 := (nr = [255; 0]) in
  let c8 := (res = ROk 1%nat) in
  let nr : digits := [0; 1; 3] in
  '(nr, res) <- dec_assign (impl true B8) nr ;;
  let c9 := (nr = [255; 0; 3]) in
  let c10 := (res = ROk 3%nat) in
  let nr : digits := [0; 0; 3] in
  '(nr, res) <- dec_assign (impl true B8) nr ;;
  let c11 := (nr = [255; 255; 2]) in
  let c12 := (res = ROk 3%nat) in
  let nr : digits := [0; 0; 0] in
  '(nr, res) <- dec_assign (impl true B8) nr ;;
  let c13 := (nr = [255; 255; 255]) in
  let c14 := (res = RErr Underflow) in
  let nr : digits := [255; 255] in
  '(nr, res) <- dec_assign (impl true B32) nr ;;
  let c15 := (nr = [254; 255]) in
  let c16 := (res = ROk 2%nat) in
  let nr : digits := [0; 255] in
  '(nr, res) <- dec_assign (impl true B32) nr ;;
  let c17 := (nr = [4294967295; 254]) in
  let c18 := (res = ROk 2%nat) in
  let nr : digits := [255; 4294967295] in
  '(nr, res) <- dec_assign (impl true B32) nr ;;
  let c19 := (nr = [254; 4294967295]) in
  let c20 := (res = ROk 2%nat) in
  let nr : digits := [0; 0] in
  '(nr, res) <- dec_assign (impl true B32) nr ;;
  let c21 := (nr = [4294967295; 4294967295]) in
  let c22 := (res = RErr Underflow) in
  Ret (c1 /\ c2 /\ c3 /\ c4 /\ c5 /\ c6 /\ c7 /\ c8 /\ c9 /\ c10 /\ c11 /\ c12 /\ c13 /\ c14 /\ c15 /\ c16 /\ c17 /\ c18 /\ c19 /\ c20 /\ c21 /\ c22)).
Proof. vm_compute. repeat split. Qed.

(** src/ubig/sub.rs:250 *)
Example test_dec_assign_decimal : holds (
  let nr : digits := [] in
  '(nr, res) <- dec_assign (impl true D8) nr ;;
  let c1 := (nr = []) in
  let c2 := (res = RErr Underflow) in
  let nr : digits := [1] in
  '(nr, res) <- dec_assign (impl true D8) nr ;;
  let c3 := (nr = [0]) in
  let c4 := (res = ROk 0%nat) in
  let nr : digits := [0] in
  '(nr, res) <- dec_assign (impl true D8) nr ;;
  let c5 := (nr = [99]) in
  let c6 := (res = RErr Underflow) in
  let nr : digits := [0; 1] in
  '(nr, res) <- dec_assign (impl true D8) nr ;;
  let c7 := (nr = [99; 0]) in
  let c8 := (res = ROk 1%nat) in
  let nr : digits := [0; 1; 3] in
  '(nr, res) <- dec_assign (impl true D8) nr ;;
  let c9 := (nr = [99; 0; 3]) in
  let c10 := (res = ROk 3%nat) in
  let nr : digits := [0; 0; 3] in
  '(nr, res) <- dec_assign (impl true D8) nr ;;
  let c11 := (nr = [99; 99; 2]) in
  let c12 := (res = ROk 3%nat) in
  let nr : digits := [0; 0; 0] in
  '(nr, res) <- dec_assign (impl true D8) nr ;;
  let c13 := (nr = [99; 99; 99]) in
  let c14 := (res = RErr Underflow) in
  let nr : digits := [99; 99] in
  '(nr, res) <- dec_assign (impl true D32) nr ;;
  let c15 := (nr = [98; 99]) in
  let c16 := (res = ROk 2%nat) in
  let nr : digits := [0; 99] in
  '(nr, res) <- dec_assign (impl true D32) nr ;;
  let c17 := (nr = [999999999; 98]) in
  let c18 := (res = ROk 2%nat) in
  let nr : digits := [99; 999999999] in
  '(nr, res) <- dec_assign (impl true D32) nr ;;
  let c19 := (nr = [98; 999999999]) in
  let c20 := (res = ROk 2%nat) in
  let nr : digits := [0; 0] in
  '(nr, res) <- dec_assign (impl true D32) nr ;;
  let c21 := (nr = [999999999; 999999999]) in
  let c22 := (res = RErr Underflow) in
  Ret (c1 /\ c2 /\ c3 /\ c4 /\ c5 /\ c6 /\ c7 /\ c8 /\ c9 /\ c10 /\ c11 /\ c12 /\ c13 /\ c14 /\ c15 /\ c16 /\ c17 /\ c18 /\ c19 /\ c20 /\ c21 /\ c22)).
Proof. vm_compute. repeat split. Qed.

(** src/ubig/sub.rs:309 *)
Example test_sub_assign_digit_binary : holds (
  let nr : digits := [] in
  '(nr, res) <- sub_assign_digit (impl true B8) nr 0 ;;
  let c1 := (nr = []) in
  let c2 := (res = ROk 0%nat) in
  let nr : digits := [] in
  '(nr, res) <- sub_assign_digit (impl true B8) nr 47 ;;
  let c3 := (nr = []) in
  let c4 := (res = RErr Underflow) in
  let nr : digits := [1] in
  '(nr, res) <- sub_assign_digit (impl true B8) nr 0 ;;
  let c5 := (nr = [1]) in
  let c6 := (res = ROk 1%nat) in
  let nr : digits := [48] in
  '(nr, res) <- sub_assign_digit (impl true B8) nr 47 ;;
  let c7 := (nr = [1]) in
  let c8 := (res = ROk 1%nat) in
  let nr : digits := [1] in
  '(nr, res) <- sub_assign_digit (impl true B8) nr 133 ;;
  let c9 := (nr = [124]) in
  let c10 := (res = RErr Underflow) in
  let nr : digits := [128; 1] in
  '(nr, res) <- sub_assign_digit (impl true B8) nr 133 ;;
  let c11 := (nr = [251; 0]) in
  let c12 := (res = ROk 1%nat) in
  let nr : digits := [128; 0; 254] in
  '(nr, res) <- sub_assign_digit (impl true B8) nr 133 ;;
  let c13 := (nr = [251; 255; 253]) in
  let c14 := (res = ROk 3%nat) in
  let nr : digits := [128; 0; 0] in
  '(nr, res) <- sub_assign_digit (impl true B8) nr 133 ;;
  let c15 := (nr = [251; 255; 255]) in
  let c16 := (res = RErr Underflow) in
  let nr : digits := [261; 255; 255] in
  '(nr, res) <- sub_assign_digit (impl true B16) nr 133 ;;
  let c17 := (nr = [128; 255; 255]) in
  let c18 := (res = ROk 3%nat) in
  let nr : digits := [5; 0; 0] in
  '(nr, res) <- sub_assign_digit (impl true B16) nr 133 ;;
  let c19 := (nr = [65408; 65535; 65535]) in
  let c20 := (res = RErr Underflow) in
  let nr : digits := [261; 255; 255] in
  '(nr, res) <- sub_assign_digit (impl true B32) nr 133 ;;
  let c21 := (nr = [128; 255; 255]) in
  let c22 := (res = ROk 3%nat) in
  let nr : digits := [5; 65535; 65535] in
  '(nr, res) <- sub_assign_digit (impl true B32) nr 133 ;;
  let c23 := (nr = [4294967168; 65534; 65535]) in
  let c24 := (res = ROk 3%nat) in
  let nr : digits := [5; 0; 0] in
  '(nr, res) <- sub_assign_digit (impl true B32) nr 133 ;;
  let c25 := (nr = [4294967168; 4294967295; 4294967295]) in
  let c26 := (res = RErr Underflow) in
  Ret (c1 /\ c2 /\ c3 /\ c4 /\ c5 /\ c6 /\ c7 /\ c8 /\ c9 /\ c10 /\ c11 /\ c12 /\ c13 /\ c14 /\ c15 /\ c16 /\ c17 /\ c18 /\ c19 /\ c20 /\ c21 /\ c22 /\ c23 /\ c24 /\ c25 /\ c26)).
Proof. vm_compute. repeat split. Qed.

(** src/ubig/sub.rs:378 *)
Example test_sub_assign_digit_decimal : holds (
  let nr : digits := [] in
  '(nr, res) <- sub_assign_digit (impl true D8) nr 0 ;;
  let c1 := (nr = []) in
  let c2 := (res = ROk 0%nat) in
  let nr : digits := [] in
  '(nr, res) <- sub_assign_digit (impl true D8) nr 47 ;;
  let c3 := (nr = []) in
  let c4 := (res = RErr Underflow) in
  let nr : digits := [1] in
  '(nr, res) <- sub_assign_digit (impl true D8) nr 0 ;;
  let c5 := (nr = [1]) in
  let c6 := (res = ROk 1%nat) in
  let nr : digits := [48] in
  '(nr, res) <- sub_assign_digit (impl true D8) nr 47 ;;
  let c7 := (nr = [1]) in
  let c8 := (res = ROk 1%nat) in
  let nr : digits := [5] in
  '(nr, res) <- sub_assign_digit (impl true D8) nr 55 ;;
  let c9 := (nr = [50]) in
  let c10 := (res = RErr Underflow) in
  let nr : digits := [5; 1] in
  '(nr, res) <- sub_assign_digit (impl true D8) nr 55 ;;
  let c11 := (nr = [50; 0]) in
  let c12 := (res = ROk 1%nat) in
  let nr : digits := [5; 0; 99] in
  '(nr, res) <- sub_assign_digit (impl true D8) nr 55 ;;
  let c13 := (nr = [50; 99; 98]) in
  let c14 := (res = ROk 3%nat) in
  let nr : digits := [5; 0; 0] in
  '(nr, res) <- sub_assign_digit (impl true D8) nr 55 ;;
  let c15 := (nr = [50; 99; 99]) in
  let c16 := (res = RErr Underflow) in
  let nr : digits := [105; 99; 99] in
  '(nr, res) <- sub_assign_digit (impl true D16) nr 55 ;;
  let c17 := (nr = [50; 99; 99]) in
  let c18 := (res = ROk 3%nat) in
  let nr : digits := [5; 0; 0] in
  '(nr, res) <- sub_assign_digit (impl true D16) nr 55 ;;
  let c19 := (nr = [9950; 9999; 9999]) in
  let c20 := (res = RErr Underflow) in
  let nr : digits := [105; 99; 99] in
  '(nr, res) <- sub_assign_digit (impl true D32) nr 55 ;;
  let c21 := (nr = [50; 99; 99]) in
  let c22 := (res = ROk 3%nat) in
  let nr : digits := [5; 10000; 9999] in
  '(nr, res) <- sub_assign_digit (impl true D32) nr 55 ;;
  let c23 := (nr = [999999950; 9999; 9999]) in
  let c24 := (res = ROk 3%nat) in
  let nr : digits := [5; 0; 0] in
  '(nr, res) <- sub_assign_digit (impl true D32) nr 55 ;;
  let c25 := (nr = [999999950; 999999999; 999999999]) in
  let c26 := (res = RErr Underflow) in
  Ret (c1 /\ c2 /\ c3 /\ c4 /\ c5 /\ c6 /\ c7 /\ c8 /\ c9 /\ c10 /\ c11 /\ c12 /\ c13 /\ c14 /\ c15 /\ c16 /\ c17 /\ c18 /\ c19 /\ c20 /\ c21 /\ c22 /\ c23 /\ c24 /\ c25 /\ c26)).
Proof. vm_compute. repeat split. Qed.

(** src/ubig/sub.rs:447 *)
Example test_sub_assign_big_binary : holds (
  let nr0 : digits := [1] in
  let nr1 : digits := [] in
  '(nr0, res) <- sub_assign_big (impl true B8) nr0 nr1 ;;
  let c1 := (nr0 = [1]) in
  let c2 := (res = ROk 1%nat) in
  let nr0 : digits := [255] in
  let nr1 : digits := [254] in
  '(nr0, res) <- sub_assign_big (impl true B8) nr0 nr1 ;;
  let c3 := (nr0 = [1]) in
  let c4 := (res = ROk 1%nat) in
  let nr0 : digits := [0] in
  let nr1 : digits := [255] in
  '(nr0, res) <- sub_assign_big (impl true B8) nr0 nr1 ;;
  let c5 := (nr0 = [1]) in
  let c6 := (res = RErr Underflow) in
  let nr0 : digits := [127] in
  let nr1 : digits := [255] in
  '(nr0, res) <- sub_assign_big (impl true B8) nr0 nr1 ;;
  let c7 := (nr0 = [128]) in
  let c8 := (res = RErr Underflow) in
  let nr0 : digits := [127; 2] in
  let nr1 : digits := [255] in
  '(nr0, res) <- sub_assign_big (impl true B8) nr0 nr1 ;;
  let c9 := (nr0 = [128; 1]) in
  let c10 := (res = ROk 2%nat) in
  let nr0 : digits := [127; 0; 255; 255] in
  let nr1 : digits := [255] in
  '(nr0, res) <- sub_assign_big (impl true B8) nr0 nr1 ;;
  let c11 := (nr0 = [128; 255; 254; 255]) in
  let c12 := (res = ROk 4%nat) in
  let nr0 : digits := [127; 0; 0; 0] in
  let nr1 : digits := [255] in
  '(nr0, res) <- sub_assign_big (impl true B8) nr0 nr1 ;;
  let c13 := (nr0 = [128; 255; 255; 255]) in
  let c14 := (res = RErr Underflow) in
  Ret (c1 /\ c2 /\ c3 /\ c4 /\ c5 /\ c6 /\ c7 /\ c8 /\ c9 /\ c10 /\ c11 /\ c12 /\ c13 /\ c14)).
Proof. vm_compute. repeat split. Qed.

(** src/ubig/sub.rs:493 *)
Example test_sub_assign_big_decimal : holds (
  let nr0 : digits := [1] in
  let nr1 : digits := [] in
  '(nr0, res) <- sub_assign_big (impl true D8) nr0 nr1 ;;
  let c1 := (nr0 = [1]) in
  let c2 := (res = ROk 1%nat) in
  let nr0 : digits := [99] in
  let nr1 : digits := [98] in
  '(nr0, res) <- sub_assign_big (impl true D8) nr0 nr1 ;;
  let c3 := (nr0 = [1]) in
  let c4 := (res = ROk 1%nat) in
  let nr0 : digits := [0] in
  let nr1 : digits := [99] in
  '(nr0, res) <- sub_assign_big (impl true D8) nr0 nr1 ;;
  let c5 := (nr0 = [1]) in
  let c6 := (res = RErr Underflow) in
  let nr0 : digits := [49] in
  let nr1 : digits := [99] in
  '(nr0, res) <- sub_assign_big (impl true D8) nr0 nr1 ;;
  let c7 := (nr0 = [50]) in
  let c8 := (res = RErr Underflow) in
  let nr0 : digits := [49; 2] in
  let nr1 : digits := [99] in
  '(nr0, res) <- sub_assign_big (impl true D8) nr0 nr1 ;;
  let c9 := (nr0 = [50; 1]) in
  let c10 := (res = ROk 2%nat) in
  let nr0 : digits := [49; 0; 99; 99] in
  let nr1 : digits := [99] in
  '(nr0, res) <- sub_assign_big (impl true D8) nr0 nr1 ;;
  let c11 := (nr0 = [50; 99; 98; 99]) in
  let c12 := (res = ROk 4%nat) in
  let nr0 : digits := [49; 0; 0; 0] in
  let nr1 : digits := [99] in
  '(nr0, res) <- sub_assign_big (impl true D8) nr0 nr1 ;;
  let c13 := (nr0 = [50; 99; 99; 99]) in
  let c14 := (res = RErr Underflow) in
  Ret (c1 /\ c2 /\ c3 /\ c4 /\ c5 /\ c6 /\ c7 /\ c8 /\ c9 /\ c10 /\ c11 /\ c12 /\ c13 /\ c14)).
Proof. vm_compute. repeat split. Qed.

(** src/ubig/sub.rs:539 *)
Example test_sub_big_into_binary : holds (
  let nr0 : digits := [] in
  let nr1 : digits := [] in
  let diff : digits := [] in
  '(diff, n) <- sub_big_into (impl true B8) nr0 nr1 diff ;;
  let c1 := (n = ROk 0%nat) in
  let c2 := (diff = []) in
  let nr0 : digits := [1; 2] in
  let nr1 : digits := [] in
  let diff : digits := (repeat 0 2%nat) in
  '(diff, n) <- sub_big_into (impl true B8) nr0 nr1 diff ;;
  let c3 := (n = ROk 2%nat) in
  let c4 := (diff = [1; 2]) in
  let nr0 : digits := [1; 2] in
  let nr1 : digits := [1] in
  let diff : digits := (repeat 0 2%nat) in
  '(diff, n) <- sub_big_into (impl true B8) nr0 nr1 diff ;;
  let c5 := (n = ROk 2%nat) in
  let c6 := (diff = [0; 2]) in
  let nr0 : digits := [1; 2] in
  let nr1 : digits := [2] in
  let diff : digits := (repeat 0 2%nat) in
  '(diff, n) <- sub_big_into (impl true B8) nr0 nr1 diff ;;
  let c7 := (n = ROk 2%nat) in
  let c8 := (diff = [255; 1]) in
  let nr0 : digits := [1; 1] in
  let nr1 : digits := [2] in
  let diff : digits := (repeat 0 2%nat) in
  '(diff, n) <- sub_big_into (impl true B8) nr0 nr1 diff ;;
  let c9 := (n = ROk 1%nat) in
  let c10 := (diff = [255; 0]) in
  let nr0 : digits := [622374740; 4129756693; 2774628482] in
  let nr1 : digits := [942115097; 4294967295; 1985290904] in
  let diff : digits := (repeat 0 3%nat) in
  '(diff, n) <- sub_big_into (impl true B32) nr0 nr1 diff ;;
  let c11 := (n = ROk 3%nat) in
  let c12 := (diff = [3975226939; 4129756693; 789337577]) in
  Ret (c1 /\ c2 /\ c3 /\ c4 /\ c5 /\ c6 /\ c7 /\ c8 /\ c9 /\ c10 /\ c11 /\ c12)).
Proof. vm_compute. repeat split. Qed.

(** src/ubig/sub.rs:585 *)
Example test_sub_big_into_decimal : holds (
  let nr0 : digits := [] in
  let nr1 : digits := [] in
  let diff : digits := [] in
  '(diff, n) <- sub_big_into (impl true D8) nr0 nr1 diff ;;
  let c1 := (n = ROk 0%nat) in
  let c2 := (diff = []) in
  let nr0 : digits := [1; 2] in
  let nr1 : digits := [] in
  let diff : digits := (repeat 0 2%nat) in
  '(diff, n) <- sub_big_into (impl true D8) nr0 nr1 diff ;;
  let c3 := (n = ROk 2%nat) in
  let c4 := (diff = [1; 2]) in
  let nr0 : digits := [1; 2] in
  let nr1 : digits := [1] in
  let diff : digits := (repeat 0 2%nat) in
  '(diff, n) <- sub_big_into (impl true D8) nr0 nr1 diff ;;
  let c5 := (n = ROk 2%nat) in
  let c6 := (diff = [0; 2]) in
  let nr0 : digits := [1; 2] in
  let nr1 : digits := [2] in
  let diff : digits := (repeat 0 2%nat) in
  '(diff, n) <- sub_big_into (impl true D8) nr0 nr1 diff ;;
  let c7 := (n = ROk 2%nat) in
  let c8 := (diff = [99; 1]) in
  let nr0 : digits := [1; 1] in
  let nr1 : digits := [2] in
  let diff : digits := (repeat 0 2%nat) in
  '(diff, n) <- sub_big_into (impl true D8) nr0 nr1 diff ;;
  let c9 := (n = ROk 1%nat) in
  let c10 := (diff = [99; 0]) in
  let nr0 : digits := [837984655; 982376123; 761233341] in
  let nr1 : digits := [899987987; 213872166; 688231987] in
  let diff : digits := (repeat 0 3%nat) in
  '(diff, n) <- sub_big_into (impl true D32) nr0 nr1 diff ;;
  let c11 := (n = ROk 3%nat) in
  let c12 := (diff = [937996668; 768503956; 73001354]) in
  Ret (c1 /\ c2 /\ c3 /\ c4 /\ c5 /\ c6 /\ c7 /\ c8 /\ c9 /\ c10 /\ c11 /\ c12)).
Proof. vm_compute. repeat split. Qed.

(** src/ubig/sub.rs:631 *)
Example test_sub_big_into_nospace : holds (
  let nr0 : digits := [837984655; 982376123; 761233341] in
  let nr1 : digits := [899987987; 213872166; 688231987] in
  let diff : digits := (repeat 0 2%nat) in
  '(diff, n) <- sub_big_into (impl true D32) nr0 nr1 diff ;;
  let c1 := (n = RErr NoSpace) in
  let nr0 : digits := [1159245652; 4129756693; 2774628482] in
  let nr1 : digits := [942115097; 4129756693; 2774628482] in
  let diff : digits := (repeat 0 2%nat) in
  '(diff, n) <- sub_big_into (impl true B32) nr0 nr1 diff ;;
  let c2 := (n = RErr NoSpace) in
  Ret (c1 /\ c2)).
Proof. vm_compute. repeat split. Qed.

(** src/ubig/sub.rs:647 *)
Example test_sub_big_into_underflow : holds (
  let nr0 : digits := [837984655; 982376123] in
  let nr1 : digits := [899987987; 213872166; 688231987] in
  let diff : digits := (repeat 0 3%nat) in
  '(diff, n) <- sub_big_into (impl true D32) nr0 nr1 diff ;;
  let c1 := (n = RErr Underflow) in
  let nr0 : digits := [890810196; 4129756693; 2774628482] in
  let nr1 : digits := [942115097; 4129756693; 2774628482] in
  let diff : digits := (repeat 0 3%nat) in
  '(diff, n) <- sub_big_into (impl true B32) nr0 nr1 diff ;;
  let c2 := (n = RErr Underflow) in
  Ret (c1 /\ c2)).
Proof. vm_compute. repeat split. Qed.

(** src/ubig/sub.rs:663 *)
Example test_sub_assign_big_abs_sign_binary : holds (
  let nr0 : digits := [] in
  let nr1 : digits := [] in
  '(nr0, (sign, len)) <- sub_assign_big_abs_sign (impl true B8) nr0 0%nat nr1 ;;
  let c1 := (sign = false) in
  let c2 := (len = 0%nat) in
  let c3 := (nr0 = []) in
  let nr0 : digits := [1] in
  let nr1 : digits := [] in
  '(nr0, (sign, len)) <- sub_assign_big_abs_sign (impl true B8) nr0 1%nat nr1 ;;
  let c4 := (sign = false) in
  let c5 := (len = 1%nat) in
  let c6 := (nr0 = [1]) in
  let nr0 : digits := [0] in
  let nr1 : digits := [1] in
  '(nr0, (sign, len)) <- sub_assign_big_abs_sign (impl true B8) nr0 0%nat nr1 ;;
  let c7 := (sign = true) in
  let c8 := (len = 1%nat) in
  let c9 := (nr0 = [1]) in
  let nr0 : digits := [64; 67] in
  let nr1 : digits := [65; 67] in
  '(nr0, (sign, len)) <- sub_assign_big_abs_sign (impl true B16) nr0 2%nat nr1 ;;
  let c10 := (sign = true) in
  let c11 := (len = 1%nat) in
  let c12 := (nr0 = [1; 0]) in
  let nr0 : digits := [7431652621683392325; 18394167719827042893; 11302459808112330] in
  let nr1 : digits := [8181213658050518835; 8058390736075681298] in
  '(nr0, (sign, len)) <- sub_assign_big_abs_sign (impl true B64) nr0 3%nat nr1 ;;
  let c13 := (sign = false) in
  let c14 := (len = 3%nat) in
  let c15 := (nr0 = [17697183037342425106; 10335776983751361594; 11302459808112330]) in
  let nr0 : digits := [8181213658050518835; 8058390736075681298; 0] in
  let nr1 : digits := [7431652621683392325; 18394167719827042893; 11302459808112330] in
  '(nr0, (sign, len)) <- sub_assign_big_abs_sign (impl true B64) nr0 2%nat nr1 ;;
  let c16 := (sign = true) in
  let c17 := (len = 3%nat) in
  let c18 := (nr0 = [17697183037342425106; 10335776983751361594; 11302459808112330]) in
  Ret (c1 /\ c2 /\ c3 /\ c4 /\ c5 /\ c6 /\ c7 /\ c8 /\ c9 /\ c10 /\ c11 /\ c12 /\ c13 /\ c14 /\ c15 /\ c16 /\ c17 /\ c18)).
Proof. vm_compute. repeat split. Qed.

(** src/ubig/sub.rs:721 *)
Example test_sub_assign_big_abs_sign_decimal : holds (
  let nr0 : digits := [] in
  let nr1 : digits := [] in
  '(nr0, (sign, len)) <- sub_assign_big_abs_sign (impl true D8) nr0 0%nat nr1 ;;
  let c1 := (sign = false) in
  let c2 := (len = 0%nat) in
  let c3 := (nr0 = []) in
  let nr0 : digits := [1] in
  let nr1 : digits := [] in
  '(nr0, (sign, len)) <- sub_assign_big_abs_sign (impl true D8) nr0 1%nat nr1 ;;
  let c4 := (sign = false) in
  let c5 := (len = 1%nat) in
  let c6 := (nr0 = [1]) in
  let nr0 : digits := [0] in
  let nr1 : digits := [1] in
  '(nr0, (sign, len)) <- sub_assign_big_abs_sign (impl true D8) nr0 0%nat nr1 ;;
  let c7 := (sign = true) in
  let c8 := (len = 1%nat) in
  let c9 := (nr0 = [1]) in
  let nr0 : digits := [4000; 4321] in
  let nr1 : digits := [4001; 4321] in
  '(nr0, (sign, len)) <- sub_assign_big_abs_sign (impl true D16) nr0 2%nat nr1 ;;
  let c10 := (sign = true) in
  let c11 := (len = 1%nat) in
  let c12 := (nr0 = [1; 0]) in
  let nr0 : digits := [5748918999164244199; 9332982876466454782; 123] in
  let nr1 : digits := [5983299918982872456; 9564555736893987342] in
  '(nr0, (sign, len)) <- sub_assign_big_abs_sign (impl true D64) nr0 3%nat nr1 ;;
  let c13 := (sign = false) in
  let c14 := (len = 3%nat) in
  let c15 := (nr0 = [9765619080181371743; 9768427139572467439; 122]) in
  let nr0 : digits := [5983299918982872456; 9564555736893987342; 0] in
  let nr1 : digits := [5748918999164244199; 9332982876466454782; 123] in
  '(nr0, (sign, len)) <- sub_assign_big_abs_sign (impl true D64) nr0 3%nat nr1 ;;
  let c16 := (sign = true) in
  let c17 := (len = 3%nat) in
  let c18 := (nr0 = [9765619080181371743; 9768427139572467439; 122]) in
  Ret (c1 /\ c2 /\ c3 /\ c4 /\ c5 /\ c6 /\ c7 /\ c8 /\ c9 /\ c10 /\ c11 /\ c12 /\ c13 /\ c14 /\ c15 /\ c16 /\ c17 /\ c18)).
Proof. vm_compute. repeat split. Qed.

(** src/ubig/sub.rs:787 *)
Example test_sub_big_into_abs_sign_binary : holds (
  let nr0 : digits := [] in
  let nr1 : digits := [] in
  let abs_diff : digits := (repeat 0 1%nat) in
  '(abs_diff, (sign, len)) <- sub_big_into_abs_sign (impl true B8) nr0 nr1 abs_diff ;;
  let c1 := (sign = false) in
  let c2 := (len = 0%nat) in
  let c3 := (abs_diff = [0]) in
  let nr0 : digits := [1] in
  let nr1 : digits := [] in
  let abs_diff : digits := (repeat 0 1%nat) in
  '(abs_diff, (sign, len)) <- sub_big_into_abs_sign (impl true B8) nr0 nr1 abs_diff ;;
  let c4 := (sign = false) in
  let c5 := (len = 1%nat) in
  let c6 := (abs_diff = [1]) in
  let nr0 : digits := [] in
  let nr1 : digits := [1] in
  let abs_diff : digits := (repeat 0 1%nat) in
  '(abs_diff, (sign, len)) <- sub_big_into_abs_sign (impl true B8) nr0 nr1 abs_diff ;;
  let c7 := (sign = true) in
  let c8 := (len = 1%nat) in
  let c9 := (abs_diff = [1]) in
  let nr0 : digits := [64; 67] in
  let nr1 : digits := [65; 67] in
  let abs_diff : digits := (repeat 0 2%nat) in
  '(abs_diff, (sign, len)) <- sub_big_into_abs_sign (impl true B16) nr0 nr1 abs_diff ;;
  let c10 := (sign = true) in
  let c11 := (len = 1%nat) in
  let c12 := (abs_diff = [1; 0]) in
  let nr0 : digits := [7431652621683392325; 18394167719827042893; 11302459808112330] in
  let nr1 : digits := [8181213658050518835; 8058390736075681298] in
  let abs_diff : digits := (repeat 0 3%nat) in
  '(abs_diff, (sign, len)) <- sub_big_into_abs_sign (impl true B64) nr0 nr1 abs_diff ;;
  let c13 := (sign = false) in
  let c14 := (len = 3%nat) in
  let c15 := (abs_diff = [17697183037342425106; 10335776983751361594; 11302459808112330]) in
  let nr0 : digits := [8181213658050518835; 8058390736075681298] in
  let nr1 : digits := [7431652621683392325; 18394167719827042893; 11302459808112330] in
  let abs_diff : digits := (repeat 0 3%nat) in
  '(abs_diff, (sign, len)) <- sub_big_into_abs_sign (impl true B64) nr0 nr1 abs_diff ;;
  let c16 := (sign = true) in
  let c17 := (len = 3%nat) in
  let c18 := (abs_diff = [17697183037342425106; 10335776983751361594; 11302459808112330]) in
  Ret (c1 /\ c2 /\ c3 /\ c4 /\ c5 /\ c6 /\ c7 /\ c8 /\ c9 /\ c10 /\ c11 /\ c12 /\ c13 /\ c14 /\ c15 /\ c16 /\ c17 /\ c18)).
Proof. vm_compute. repeat split. Qed.

(** src/ubig/sub.rs:839 *)
Example test_sub_big_into_abs_sign_decimal : holds (
  let nr0 : digits := [] in
  let nr1 : digits := [] in
  let abs_diff : digits := (repeat 0 1%nat) in
  '(abs_diff, (sign, len)) <- sub_big_into_abs_sign (impl true D8) nr0 nr1 abs_diff ;;
  let c1 := (sign = false) in
  let c2 := (len = 0%nat) in
  let c3 := (abs_diff = [0]) in
  let nr0 : digits := [1] in
  let nr1 : digits := [] in
  let abs_diff : digits := (repeat 0 1%nat) in
  '(abs_diff, (sign, len)) <- sub_big_into_abs_sign (impl true D8) nr0 nr1 abs_diff ;;
  let c4 := (sign = false) in
  let c5 := (len = 1%nat) in
  let c6 := (abs_diff = [1]) in
  let nr0 : digits := [] in
  let nr1 : digits := [1] in
  let abs_diff : digits := (repeat 0 1%nat) in
  '(abs_diff, (sign, len)) <- sub_big_into_abs_sign (impl true D8) nr0 nr1 abs_diff ;;
  let c7 := (sign = true) in
  let c8 := (len = 1%nat) in
  let c9 := (abs_diff = [1]) in
  let nr0 : digits := [4000; 4321] in
  let nr1 : digits := [4001; 4321] in
  let abs_diff : digits := (repeat 0 2%nat) in
  '(abs_diff, (sign, len)) <- sub_big_into_abs_sign (impl true D16) nr0 nr1 abs_diff ;;
  let c10 := (sign = true) in
  let c11 := (len = 1%nat) in
  let c12 := (abs_diff = [1; 0]) in
  let nr0 : digits := [5748918999164244199; 9332982876466454782; 123] in
  let nr1 : digits := [5983299918982872456; 9564555736893987342] in
  let abs_diff : digits := (repeat 0 3%nat) in
  '(abs_diff, (sign, len)) <- sub_big_into_abs_sign (impl true D64) nr0 nr1 abs_diff ;;
  let c13 := (sign = false) in
  let c14 := (len = 3%nat) in
  let c15 := (abs_diff = [9765619080181371743; 9768427139572467439; 122]) in
  let nr0 : digits := [5983299918982872456; 9564555736893987342] in
  let nr1 : digits := [5748918999164244199; 9332982876466454782; 123] in
  let abs_diff : digits := (repeat 0 3%nat) in
  '(abs_diff, (sign, len)) <- sub_big_into_abs_sign (impl true D64) nr0 nr1 abs_diff ;;
  let c16 := (sign = true) in
  let c17 := (len = 3%nat) in
  let c18 := (abs_diff = [9765619080181371743; 9768427139572467439; 122]) in
  Ret (c1 /\ c2 /\ c3 /\ c4 /\ c5 /\ c6 /\ c7 /\ c8 /\ c9 /\ c10 /\ c11 /\ c12 /\ c13 /\ c14 /\ c15 /\ c16 /\ c17 /\ c18)).
Proof. vm_compute. repeat split. Qed.

(** ** src/ubig/support.rs *)

(** src/ubig/support.rs:37 *)
Example test_drop_leading_zeros : holds (
  let nr : digits := [127; 0; 0; 35] in
  v1 <- drop_leading_zeros nr 4%nat ;;
  let c1 := (v1 = 4%nat) in
  v2 <- drop_leading_zeros nr 3%nat ;;
  let c2 := (v2 = 1%nat) in
  v3 <- drop_leading_zeros nr 2%nat ;;
  let c3 := (v3 = 1%nat) in
  v4 <- drop_leading_zeros nr 1%nat ;;
  let c4 := (v4 = 1%nat) in
  v5 <- drop_leading_zeros nr 0%nat ;;
  let c5 := (v5 = 0%nat) in
  let nr : digits := [23; 0; 987654321123456789; 0; 1] in
  v6 <- drop_leading_zeros nr 5%nat ;;
  let c6 := (v6 = 5%nat) in
  v7 <- drop_leading_zeros nr 4%nat ;;
  let c7 := (v7 = 3%nat) in
  v8 <- drop_leading_zeros nr 3%nat ;;
  let c8 := (v8 = 3%nat) in
  v9 <- drop_leading_zeros nr 2%nat ;;
  let c9 := (v9 = 1%nat) in
  v10 <- drop_leading_zeros nr 1%nat ;;
  let c10 := (v10 = 1%nat) in
  v11 <- drop_leading_zeros nr 0%nat ;;
  let c11 := (v11 = 0%nat) in
  Ret (c1 /\ c2 /\ c3 /\ c4 /\ c5 /\ c6 /\ c7 /\ c8 /\ c9 /\ c10 /\ c11)).
Proof. vm_compute. repeat split. Qed.
