(** * RepoTests: the integration tests of the crate, run on the model.

    Written by tools/gen_tests.py from /repo/tests.  These are tests of the fidelity of
    the model, not proofs of properties.  [dbg] is true, as in a test build. *)
From Coq Require Import ZArith NArith List Bool Ascii String.
From Verif Require Import Base Digit Slice Mul Div UBig Text Forms.
Import ListNotations.
Open Scope Z_scope.
Open Scope m_scope.

Fixpoint bytes_of (s : string) : bytes :=
  match s with
  | EmptyString => []
  | String c s => Z.of_N (N_of_ascii c) :: bytes_of s
  end.
Definition alternate : fmt := mkFmt None 32 AUnknown false true false.
Definition parsed (t : dty) (s : bytes) : M digits := r <- from_str true t s ;; unwrap r.
Definition expect (b : bool) : M unit := guard b PAssert.
Fixpoint same_bytes (a b : bytes) : bool :=
  match a, b with
  | [], [] => true
  | x :: a, y :: b => (x =? y) && same_bytes a b
  | _, _ => false
  end.
Definition is_lt (c : comparison) : bool := match c with Lt => true | _ => false end.
Definition is_gt (c : comparison) : bool := match c with Gt => true | _ => false end.
Definition passes (e : M unit) : Prop := match e with Ret _ => True | _ => False end.
Definition panics (e : M unit) : Prop := match e with Panic _ => True | _ => False end.
Open Scope string_scope.
Open Scope Z_scope.

(** ** tests/add.rs *)

(** tests/add.rs:19 *)
Example test_add_assign_digit_binary : passes (
  let n := ubig_zero in
  n <- add_assign_T true B32 n 50 ;;
  v1 <- Ret (fmt_hex B32 false alternate n) ;; expect (same_bytes v1 (bytes_of "0x32")) ;;;
  v2 <- parsed B32 (bytes_of "0x12345678") ;;
  let n := v2 in
  n <- add_assign_T true B32 n 4294967295 ;;
  v3 <- Ret (fmt_hex B32 false alternate n) ;; expect (same_bytes v3 (bytes_of "0x112345677")) ;;;
  v4 <- parsed B32 (bytes_of "0xffffffffffffffff") ;;
  let n := v4 in
  n <- add_assign_T true B32 n 1 ;;
  v5 <- Ret (fmt_hex B32 false alternate n) ;; expect (same_bytes v5 (bytes_of "0x10000000000000000")) ;;;
  Ret tt).
Proof. vm_compute. exact I. Qed.

(** tests/add.rs:35 *)
Example test_add_assign_digit_decimal : passes (
  let n := ubig_zero in
  n <- add_assign_T true D32 n 101 ;;
  v1 <- Ret (fmt_display_dec D32 plain n) ;; expect (same_bytes v1 (bytes_of "101")) ;;;
  let n := ubig_zero in
  n <- add_assign_T true D32 n 2000000000 ;;
  v2 <- Ret (fmt_display_dec D32 plain n) ;; expect (same_bytes v2 (bytes_of "2000000000")) ;;;
  v3 <- parsed D32 (bytes_of "123456789") ;;
  let n := v3 in
  n <- add_assign_T true D32 n 4294967295 ;;
  v4 <- Ret (fmt_display_dec D32 plain n) ;; expect (same_bytes v4 (bytes_of "4418424084")) ;;;
  v5 <- parsed D32 (bytes_of "999999999999999999") ;;
  let n := v5 in
  n <- add_assign_T true D32 n 1 ;;
  v6 <- Ret (fmt_display_dec D32 plain n) ;; expect (same_bytes v6 (bytes_of "1000000000000000000")) ;;;
  Ret tt).
Proof. vm_compute. exact I. Qed.

(** tests/add.rs:55 *)
Example test_add_digit_binary : passes (
  v1 <- add_v_T true B32 ubig_zero 50 ;;
  let n := v1 in
  v2 <- Ret (fmt_hex B32 false alternate n) ;; expect (same_bytes v2 (bytes_of "0x32")) ;;;
  v3 <- parsed B32 (bytes_of "0x12345678") ;;
  v4 <- add_v_T true B32 v3 4294967295 ;;
  let n := v4 in
  v5 <- Ret (fmt_hex B32 false alternate n) ;; expect (same_bytes v5 (bytes_of "0x112345677")) ;;;
  v6 <- parsed B32 (bytes_of "0xffffffffffffffff") ;;
  v7 <- add_v_T true B32 v6 1 ;;
  let n := v7 in
  v8 <- Ret (fmt_hex B32 false alternate n) ;; expect (same_bytes v8 (bytes_of "0x10000000000000000")) ;;;
  Ret tt).
Proof. vm_compute. exact I. Qed.

(** tests/add.rs:68 *)
Example test_add_digit_decimal : passes (
  v1 <- add_v_T true D32 ubig_zero 101 ;;
  let n := v1 in
  v2 <- Ret (fmt_display_dec D32 plain n) ;; expect (same_bytes v2 (bytes_of "101")) ;;;
  v3 <- add_v_T true D32 ubig_zero 2000000000 ;;
  let n := v3 in
  v4 <- Ret (fmt_display_dec D32 plain n) ;; expect (same_bytes v4 (bytes_of "2000000000")) ;;;
  v5 <- parsed D32 (bytes_of "123456789") ;;
  v6 <- add_v_T true D32 v5 4294967295 ;;
  let n := v6 in
  v7 <- Ret (fmt_display_dec D32 plain n) ;; expect (same_bytes v7 (bytes_of "4418424084")) ;;;
  v8 <- parsed D32 (bytes_of "999999999999999999") ;;
  v9 <- add_v_T true D32 v8 1 ;;
  let n := v9 in
  v10 <- Ret (fmt_display_dec D32 plain n) ;; expect (same_bytes v10 (bytes_of "1000000000000000000")) ;;;
  Ret tt).
Proof. vm_compute. exact I. Qed.

(** tests/add.rs:84 *)
Example test_add_assign_big_binary : passes (
  let n := ubig_zero in
  n <- add_assign (impl true B32) n ubig_zero ;;
  v1 <- Ret (fmt_hex B32 false alternate n) ;; expect (same_bytes v1 (bytes_of "0x0")) ;;;
  v2 <- parsed B32 (bytes_of "0x12345678") ;;
  let n := v2 in
  v3 <- parsed B32 (bytes_of "0x87654321") ;;
  n <- add_assign (impl true B32) n v3 ;;
  v4 <- Ret (fmt_hex B32 false alternate n) ;; expect (same_bytes v4 (bytes_of "0x99999999")) ;;;
  v5 <- parsed B32 (bytes_of "0x1234567890abcdef") ;;
  let n := v5 in
  v6 <- parsed B32 (bytes_of "0x87654321") ;;
  n <- add_assign (impl true B32) n v6 ;;
  v7 <- Ret (fmt_hex B32 false alternate n) ;; expect (same_bytes v7 (bytes_of "0x1234567918111110")) ;;;
  v8 <- parsed B32 (bytes_of "0x87654321") ;;
  let n := v8 in
  v9 <- parsed B32 (bytes_of "0x1234567890abcdef") ;;
  n <- add_assign (impl true B32) n v9 ;;
  v10 <- Ret (fmt_hex B32 false alternate n) ;; expect (same_bytes v10 (bytes_of "0x1234567918111110")) ;;;
  v11 <- parsed B32 (bytes_of "0xffffffffffffffff") ;;
  let n := v11 in
  v12 <- parsed B32 (bytes_of "0xa") ;;
  n <- add_assign (impl true B32) n v12 ;;
  v13 <- Ret (fmt_hex B32 false alternate n) ;; expect (same_bytes v13 (bytes_of "0x10000000000000009")) ;;;
  Ret tt).
Proof. vm_compute. exact I. Qed.

(** tests/add.rs:108 *)
Example test_add_assign_big_decimal : passes (
  let n := ubig_zero in
  n <- add_assign (impl true D32) n ubig_zero ;;
  v1 <- Ret (fmt_display_dec D32 plain n) ;; expect (same_bytes v1 (bytes_of "0")) ;;;
  v2 <- parsed D32 (bytes_of "12345678") ;;
  let n := v2 in
  v3 <- parsed D32 (bytes_of "87654321") ;;
  n <- add_assign (impl true D32) n v3 ;;
  v4 <- Ret (fmt_display_dec D32 plain n) ;; expect (same_bytes v4 (bytes_of "99999999")) ;;;
  v5 <- parsed D32 (bytes_of "1234567890123456") ;;
  let n := v5 in
  v6 <- parsed D32 (bytes_of "87654321") ;;
  n <- add_assign (impl true D32) n v6 ;;
  v7 <- Ret (fmt_display_dec D32 plain n) ;; expect (same_bytes v7 (bytes_of "1234567977777777")) ;;;
  v8 <- parsed D32 (bytes_of "87654321") ;;
  let n := v8 in
  v9 <- parsed D32 (bytes_of "1234567890123456") ;;
  n <- add_assign (impl true D32) n v9 ;;
  v10 <- Ret (fmt_display_dec D32 plain n) ;; expect (same_bytes v10 (bytes_of "1234567977777777")) ;;;
  v11 <- parsed D32 (bytes_of "999999999999999999") ;;
  let n := v11 in
  v12 <- parsed D32 (bytes_of "10") ;;
  n <- add_assign (impl true D32) n v12 ;;
  v13 <- Ret (fmt_display_dec D32 plain n) ;; expect (same_bytes v13 (bytes_of "1000000000000000009")) ;;;
  Ret tt).
Proof. vm_compute. exact I. Qed.

(** tests/add.rs:132 *)
Example test_add_big_binary : passes (
  v1 <- add_vv (impl true B32) ubig_zero ubig_zero ;;
  let n := v1 in
  v2 <- Ret (fmt_hex B32 false alternate n) ;; expect (same_bytes v2 (bytes_of "0x0")) ;;;
  v3 <- parsed B32 (bytes_of "0x12345678") ;;
  v4 <- parsed B32 (bytes_of "0x87654321") ;;
  v5 <- add_vv (impl true B32) v3 v4 ;;
  let n := v5 in
  v6 <- Ret (fmt_hex B32 false alternate n) ;; expect (same_bytes v6 (bytes_of "0x99999999")) ;;;
  v7 <- parsed B32 (bytes_of "0x1234567890abcdef") ;;
  v8 <- parsed B32 (bytes_of "0x87654321") ;;
  v9 <- add_vv (impl true B32) v7 v8 ;;
  let n := v9 in
  v10 <- Ret (fmt_hex B32 false alternate n) ;; expect (same_bytes v10 (bytes_of "0x1234567918111110")) ;;;
  v11 <- parsed B32 (bytes_of "0x87654321") ;;
  v12 <- parsed B32 (bytes_of "0x1234567890abcdef") ;;
  v13 <- add_vv (impl true B32) v11 v12 ;;
  let n := v13 in
  v14 <- Ret (fmt_hex B32 false alternate n) ;; expect (same_bytes v14 (bytes_of "0x1234567918111110")) ;;;
  v15 <- parsed B32 (bytes_of "0xffffffffffffffff") ;;
  v16 <- parsed B32 (bytes_of "0xa") ;;
  v17 <- add_vv (impl true B32) v15 v16 ;;
  let n := v17 in
  v18 <- Ret (fmt_hex B32 false alternate n) ;; expect (same_bytes v18 (bytes_of "0x10000000000000009")) ;;;
  Ret tt).
Proof. vm_compute. exact I. Qed.

(** tests/add.rs:151 *)
Example test_add_big_decimal : passes (
  v1 <- add_vv (impl true D32) ubig_zero ubig_zero ;;
  let n := v1 in
  v2 <- Ret (fmt_display_dec D32 plain n) ;; expect (same_bytes v2 (bytes_of "0")) ;;;
  v3 <- parsed D32 (bytes_of "12345678") ;;
  v4 <- parsed D32 (bytes_of "87654321") ;;
  v5 <- add_vv (impl true D32) v3 v4 ;;
  let n := v5 in
  v6 <- Ret (fmt_display_dec D32 plain n) ;; expect (same_bytes v6 (bytes_of "99999999")) ;;;
  v7 <- parsed D32 (bytes_of "1234567890123456") ;;
  v8 <- parsed D32 (bytes_of "87654321") ;;
  v9 <- add_vv (impl true D32) v7 v8 ;;
  let n := v9 in
  v10 <- Ret (fmt_display_dec D32 plain n) ;; expect (same_bytes v10 (bytes_of "1234567977777777")) ;;;
  v11 <- parsed D32 (bytes_of "87654321") ;;
  v12 <- parsed D32 (bytes_of "1234567890123456") ;;
  v13 <- add_vv (impl true D32) v11 v12 ;;
  let n := v13 in
  v14 <- Ret (fmt_display_dec D32 plain n) ;; expect (same_bytes v14 (bytes_of "1234567977777777")) ;;;
  v15 <- parsed D32 (bytes_of "999999999999999999") ;;
  v16 <- parsed D32 (bytes_of "10") ;;
  v17 <- add_vv (impl true D32) v15 v16 ;;
  let n := v17 in
  v18 <- Ret (fmt_display_dec D32 plain n) ;; expect (same_bytes v18 (bytes_of "1000000000000000009")) ;;;
  Ret tt).
Proof. vm_compute. exact I. Qed.

(** ** tests/cmp.rs *)

(** tests/cmp.rs:18 *)
Example test_eq : passes (
  v1 <- parsed B8 (bytes_of "0x0") ;;
  v2 <- parsed B8 (bytes_of "0x00") ;;
  expect (ubig_eqb v1 v2) ;;;
  v3 <- parsed B8 (bytes_of "0x1") ;;
  v4 <- parsed B8 (bytes_of "0x01") ;;
  expect (ubig_eqb v3 v4) ;;;
  v5 <- parsed B8 (bytes_of "0x0") ;;
  v6 <- parsed B8 (bytes_of "0x01") ;;
  expect (negb (ubig_eqb v5 v6)) ;;;
  v7 <- parsed B8 (bytes_of "0x123456789abcdef") ;;
  v8 <- parsed B8 (bytes_of "0x00000123456789abcdef") ;;
  expect (ubig_eqb v7 v8) ;;;
  v9 <- parsed B8 (bytes_of "0x123456789abcdef") ;;
  v10 <- parsed B8 (bytes_of "0x123456789abcdef0") ;;
  expect (negb (ubig_eqb v9 v10)) ;;;
  v11 <- parsed B32 (bytes_of "0x0") ;;
  v12 <- parsed B32 (bytes_of "0x00") ;;
  expect (ubig_eqb v11 v12) ;;;
  v13 <- parsed B32 (bytes_of "0x1") ;;
  v14 <- parsed B32 (bytes_of "0x01") ;;
  expect (ubig_eqb v13 v14) ;;;
  v15 <- parsed B32 (bytes_of "0x0") ;;
  v16 <- parsed B32 (bytes_of "0x01") ;;
  expect (negb (ubig_eqb v15 v16)) ;;;
  v17 <- parsed B32 (bytes_of "0x123456789abcdef") ;;
  v18 <- parsed B32 (bytes_of "0x00000123456789abcdef") ;;
  expect (ubig_eqb v17 v18) ;;;
  v19 <- parsed B32 (bytes_of "0x123456789abcdef") ;;
  v20 <- parsed B32 (bytes_of "0x123456789abcdef0") ;;
  expect (negb (ubig_eqb v19 v20)) ;;;
  v21 <- parsed D8 (bytes_of "0") ;;
  v22 <- parsed D8 (bytes_of "00") ;;
  expect (ubig_eqb v21 v22) ;;;
  v23 <- parsed D8 (bytes_of "1") ;;
  v24 <- parsed D8 (bytes_of "01") ;;
  expect (ubig_eqb v23 v24) ;;;
  v25 <- parsed D8 (bytes_of "0") ;;
  v26 <- parsed D8 (bytes_of "01") ;;
  expect (negb (ubig_eqb v25 v26)) ;;;
  v27 <- parsed D8 (bytes_of "1234567890987654321") ;;
  v28 <- parsed D8 (bytes_of "000001234567890987654321") ;;
  expect (ubig_eqb v27 v28) ;;;
  v29 <- parsed D8 (bytes_of "1234567890987654321") ;;
  v30 <- parsed D8 (bytes_of "12345678909876543210") ;;
  expect (negb (ubig_eqb v29 v30)) ;;;
  v31 <- parsed D32 (bytes_of "0") ;;
  v32 <- parsed D32 (bytes_of "00") ;;
  expect (ubig_eqb v31 v32) ;;;
  v33 <- parsed D32 (bytes_of "1") ;;
  v34 <- parsed D32 (bytes_of "01") ;;
  expect (ubig_eqb v33 v34) ;;;
  v35 <- parsed D32 (bytes_of "0") ;;
  v36 <- parsed D32 (bytes_of "01") ;;
  expect (negb (ubig_eqb v35 v36)) ;;;
  v37 <- parsed D32 (bytes_of "1234567890987654321") ;;
  v38 <- parsed D32 (bytes_of "000001234567890987654321") ;;
  expect (ubig_eqb v37 v38) ;;;
  v39 <- parsed D32 (bytes_of "1234567890987654321") ;;
  v40 <- parsed D32 (bytes_of "12345678909876543210") ;;
  expect (negb (ubig_eqb v39 v40)) ;;;
  Ret tt).
Proof. vm_compute. exact I. Qed.

(** tests/cmp.rs:46 *)
Example test_cmp : passes (
  v1 <- parsed B8 (bytes_of "0x0") ;;
  v2 <- parsed B8 (bytes_of "0x1") ;;
  expect (is_lt (ubig_cmp v1 v2)) ;;;
  v3 <- parsed B8 (bytes_of "0x0") ;;
  v4 <- parsed B8 (bytes_of "0x1") ;;
  expect (negb (is_gt (ubig_cmp v3 v4))) ;;;
  v5 <- parsed B8 (bytes_of "0x1") ;;
  v6 <- parsed B8 (bytes_of "0x0") ;;
  expect (is_gt (ubig_cmp v5 v6)) ;;;
  v7 <- parsed B8 (bytes_of "0x1") ;;
  v8 <- parsed B8 (bytes_of "0x2") ;;
  expect (is_lt (ubig_cmp v7 v8)) ;;;
  v9 <- parsed B8 (bytes_of "0x1") ;;
  v10 <- parsed B8 (bytes_of "0x2") ;;
  expect (negb (is_gt (ubig_cmp v9 v10))) ;;;
  v11 <- parsed B8 (bytes_of "0x2") ;;
  v12 <- parsed B8 (bytes_of "0x1") ;;
  expect (is_gt (ubig_cmp v11 v12)) ;;;
  v13 <- parsed B8 (bytes_of "0x00ff") ;;
  v14 <- parsed B8 (bytes_of "0x0100") ;;
  expect (is_lt (ubig_cmp v13 v14)) ;;;
  v15 <- parsed B8 (bytes_of "0x1001") ;;
  v16 <- parsed B8 (bytes_of "0x0100") ;;
  expect (is_gt (ubig_cmp v15 v16)) ;;;
  v17 <- parsed B32 (bytes_of "0x0") ;;
  v18 <- parsed B32 (bytes_of "0x1") ;;
  expect (is_lt (ubig_cmp v17 v18)) ;;;
  v19 <- parsed B32 (bytes_of "0x0") ;;
  v20 <- parsed B32 (bytes_of "0x1") ;;
  expect (negb (is_gt (ubig_cmp v19 v20))) ;;;
  v21 <- parsed B32 (bytes_of "0x1") ;;
  v22 <- parsed B32 (bytes_of "0x0") ;;
  expect (is_gt (ubig_cmp v21 v22)) ;;;
  v23 <- parsed B32 (bytes_of "0x1") ;;
  v24 <- parsed B32 (bytes_of "0x2") ;;
  expect (is_lt (ubig_cmp v23 v24)) ;;;
  v25 <- parsed B32 (bytes_of "0x1") ;;
  v26 <- parsed B32 (bytes_of "0x2") ;;
  expect (negb (is_gt (ubig_cmp v25 v26))) ;;;
  v27 <- parsed B32 (bytes_of "0x2") ;;
  v28 <- parsed B32 (bytes_of "0x1") ;;
  expect (is_gt (ubig_cmp v27 v28)) ;;;
  v29 <- parsed B32 (bytes_of "0x00000000ffffffff") ;;
  v30 <- parsed B32 (bytes_of "0x0000000100000000") ;;
  expect (is_lt (ubig_cmp v29 v30)) ;;;
  v31 <- parsed B32 (bytes_of "0x0000000100000001") ;;
  v32 <- parsed B32 (bytes_of "0x0000000100000000") ;;
  expect (is_gt (ubig_cmp v31 v32)) ;;;
  v33 <- parsed D8 (bytes_of "0") ;;
  v34 <- parsed D8 (bytes_of "1") ;;
  expect (is_lt (ubig_cmp v33 v34)) ;;;
  v35 <- parsed D8 (bytes_of "0") ;;
  v36 <- parsed D8 (bytes_of "1") ;;
  expect (negb (is_gt (ubig_cmp v35 v36))) ;;;
  v37 <- parsed D8 (bytes_of "1") ;;
  v38 <- parsed D8 (bytes_of "0") ;;
  expect (is_gt (ubig_cmp v37 v38)) ;;;
  v39 <- parsed D8 (bytes_of "1") ;;
  v40 <- parsed D8 (bytes_of "2") ;;
  expect (is_lt (ubig_cmp v39 v40)) ;;;
  v41 <- parsed D8 (bytes_of "1") ;;
  v42 <- parsed D8 (bytes_of "2") ;;
  expect (negb (is_gt (ubig_cmp v41 v42))) ;;;
  v43 <- parsed D8 (bytes_of "2") ;;
  v44 <- parsed D8 (bytes_of "1") ;;
  expect (is_gt (ubig_cmp v43 v44)) ;;;
  v45 <- parsed D8 (bytes_of "0099") ;;
  v46 <- parsed D8 (bytes_of "0100") ;;
  expect (is_lt (ubig_cmp v45 v46)) ;;;
  v47 <- parsed D8 (bytes_of "1001") ;;
  v48 <- parsed D8 (bytes_of "0100") ;;
  expect (is_gt (ubig_cmp v47 v48)) ;;;
  v49 <- parsed D32 (bytes_of "0") ;;
  v50 <- parsed D32 (bytes_of "0x1") ;;
  expect (is_lt (ubig_cmp v49 v50)) ;;;
  v51 <- parsed D32 (bytes_of "0") ;;
  v52 <- parsed D32 (bytes_of "0x1") ;;
  expect (negb (is_gt (ubig_cmp v51 v52))) ;;;
  v53 <- parsed D32 (bytes_of "1") ;;
  v54 <- parsed D32 (bytes_of "0x0") ;;
  expect (is_gt (ubig_cmp v53 v54)) ;;;
  v55 <- parsed D32 (bytes_of "1") ;;
  v56 <- parsed D32 (bytes_of "0x2") ;;
  expect (is_lt (ubig_cmp v55 v56)) ;;;
  v57 <- parsed D32 (bytes_of "1") ;;
  v58 <- parsed D32 (bytes_of "0x2") ;;
  expect (negb (is_gt (ubig_cmp v57 v58))) ;;;
  v59 <- parsed D32 (bytes_of "2") ;;
  v60 <- parsed D32 (bytes_of "0x1") ;;
  expect (is_gt (ubig_cmp v59 v60)) ;;;
  v61 <- parsed D32 (bytes_of "000000000999999999") ;;
  v62 <- parsed D32 (bytes_of "000000001000000000") ;;
  expect (is_lt (ubig_cmp v61 v62)) ;;;
  v63 <- parsed D32 (bytes_of "000000001000000001") ;;
  v64 <- parsed D32 (bytes_of "000000001000000000") ;;
  expect (is_gt (ubig_cmp v63 v64)) ;;;
  Ret tt).
Proof. vm_compute. exact I. Qed.

(** ** tests/div.rs *)

(** tests/div.rs:19 *)
Example test_div_assign_digit_binary : passes (
  v1 <- parsed B8 (bytes_of "0xe7691881761813f81a7") ;;
  let n := v1 in
  n <- div_assign_T true B8 n 135 ;;
  v2 <- Ret (fmt_hex B8 false alternate n) ;; expect (same_bytes v2 (bytes_of "0x1b6d2aba029e5998aa")) ;;;
  v3 <- parsed B8 (bytes_of "0xe7691881761813f81a7") ;;
  let n := v3 in
  n <- div_assign_T true B8 n 1 ;;
  v4 <- Ret (fmt_hex B8 false alternate n) ;; expect (same_bytes v4 (bytes_of "0xe7691881761813f81a7")) ;;;
  v5 <- parsed B32 (bytes_of "0x829ef171ac352f24a9dbb827c") ;;
  let n := v5 in
  n <- div_assign_T true B32 n 2274033217 ;;
  v6 <- Ret (fmt_hex B32 false alternate n) ;; expect (same_bytes v6 (bytes_of "0xf6b424a056a70a431")) ;;;
  v7 <- parsed B32 (bytes_of "0x829ef171") ;;
  let n := v7 in
  n <- div_assign_T true B32 n 2274033217 ;;
  v8 <- Ret (fmt_hex B32 false alternate n) ;; expect (same_bytes v8 (bytes_of "0x0")) ;;;
  Ret tt).
Proof. vm_compute. exact I. Qed.

(** tests/div.rs:39 *)
Example test_div_assign_digit_decimal : passes (
  v1 <- parsed D8 (bytes_of "9002219982873646582917") ;;
  let n := v1 in
  n <- div_assign_T true D8 n 87 ;;
  v2 <- Ret (fmt_display_dec D8 plain n) ;; expect (same_bytes v2 (bytes_of "103473792906593638884")) ;;;
  v3 <- parsed D8 (bytes_of "9002219982873646582917") ;;
  let n := v3 in
  n <- div_assign_T true D8 n 1 ;;
  v4 <- Ret (fmt_display_dec D8 plain n) ;; expect (same_bytes v4 (bytes_of "9002219982873646582917")) ;;;
  v5 <- parsed D8 (bytes_of "9002219982873646582917") ;;
  let n := v5 in
  n <- div_assign_T true D8 n 123 ;;
  v6 <- Ret (fmt_display_dec D8 plain n) ;; expect (same_bytes v6 (bytes_of "73188780348566232381")) ;;;
  v7 <- parsed D32 (bytes_of "93081309173747392873837475872") ;;
  let n := v7 in
  n <- div_assign_T true D32 n 91829892 ;;
  v8 <- Ret (fmt_display_dec D32 plain n) ;; expect (same_bytes v8 (bytes_of "1013627557938839706724")) ;;;
  v9 <- parsed D32 (bytes_of "93081309173747392873837475872") ;;
  let n := v9 in
  n <- div_assign_T true D32 n 2891829892 ;;
  v10 <- Ret (fmt_display_dec D32 plain n) ;; expect (same_bytes v10 (bytes_of "32187684839709580287")) ;;;
  v11 <- parsed D32 (bytes_of "982198881") ;;
  let n := v11 in
  n <- div_assign_T true D32 n 982198882 ;;
  v12 <- Ret (fmt_display_dec D32 plain n) ;; expect (same_bytes v12 (bytes_of "0")) ;;;
  Ret tt).
Proof. vm_compute. exact I. Qed.

(** tests/div.rs:67 *)
Example test_div_assign_by_digit_zero_binary : panics (
  v1 <- parsed B8 (bytes_of "0xe7691881761813f81a7") ;;
  let n := v1 in
  n <- div_assign_T true B8 n 0 ;;
  Ret tt).
Proof. vm_compute. exact I. Qed.

(** tests/div.rs:75 *)
Example test_div_assign_by_digit_zero_decimal : panics (
  v1 <- parsed D8 (bytes_of "39103919881210219921") ;;
  let n := v1 in
  n <- div_assign_T true D8 n 0 ;;
  Ret tt).
Proof. vm_compute. exact I. Qed.

(** tests/div.rs:83 *)
Example test_div_assign_big_binary : passes (
  v1 <- parsed B8 (bytes_of "0xe7691881761813f81a798af534") ;;
  let n := v1 in
  v2 <- parsed B8 (bytes_of "0x827df251fd1919f") ;;
  let m := v2 in
  n <- div_assign (impl true B8) n m ;;
  v3 <- Ret (fmt_hex B8 false alternate n) ;; expect (same_bytes v3 (bytes_of "0x1c5fb8fa79d9")) ;;;
  v4 <- parsed B16 (bytes_of "0xe7691881761813f81a7") ;;
  let n := v4 in
  let m := ubig_one in
  n <- div_assign (impl true B16) n m ;;
  v5 <- Ret (fmt_hex B16 false alternate n) ;; expect (same_bytes v5 (bytes_of "0xe7691881761813f81a7")) ;;;
  v6 <- parsed B32 (bytes_of "0x829e82f453f2613f2092ff171ac352f24a9dbb827c") ;;
  let n := v6 in
  v7 <- parsed B32 (bytes_of "0x4df8982fd526aaac45") ;;
  let m := v7 in
  n <- div_assign (impl true B32) n m ;;
  v8 <- Ret (fmt_hex B32 false alternate n) ;; expect (same_bytes v8 (bytes_of "0x1acdba0651bcf9c842d70578f")) ;;;
  v9 <- parsed B32 (bytes_of "0x829e82f453f2613f2092ff171ac352f24a9dbb827c") ;;
  let n := v9 in
  v10 <- parsed B32 (bytes_of "0x829e82f453f2613f2092ff171ac352f24a9dbb827d") ;;
  let m := v10 in
  n <- div_assign (impl true B32) n m ;;
  v11 <- Ret (fmt_hex B32 false alternate n) ;; expect (same_bytes v11 (bytes_of "0x0")) ;;;
  v12 <- parsed B64 (bytes_of "0xe7691881761813f81a798af53482fd526aaac45829e82f453f2613f2092ff171ac352f24a9dbb827c") ;;
  let n := v12 in
  v13 <- parsed B64 (bytes_of "0x829e82f453f2613f2092ff171ac352f24a9dbb827d") ;;
  let m := v13 in
  n <- div_assign (impl true B64) n m ;;
  v14 <- Ret (fmt_hex B64 false alternate n) ;; expect (same_bytes v14 (bytes_of "0x1c58a60ae96e6206a9c9394ea075e5988ff78dd9")) ;;;
  v15 <- parsed B64 (bytes_of "0xe7691881761813f81a798af53482fd526aaac45829e82f453f2613f2092ff171ac352f24a9dbb827c") ;;
  let n := v15 in
  v16 <- parsed B64 (bytes_of "0xffffffffffffffffffffffffffffff") ;;
  let m := v16 in
  n <- div_assign (impl true B64) n m ;;
  v17 <- Ret (fmt_hex B64 false alternate n) ;; expect (same_bytes v17 (bytes_of "0xe7691881761813f81a798af53482fe39d3c345ce41fc275fb8b")) ;;;
  Ret tt).
Proof. vm_compute. exact I. Qed.

(** tests/div.rs:117 *)
Example test_div_assign_big_decimal : passes (
  v1 <- parsed D8 (bytes_of "9002219982873646582917") ;;
  let n := v1 in
  v2 <- parsed D8 (bytes_of "937486293") ;;
  let m := v2 in
  n <- div_assign (impl true D8) n m ;;
  v3 <- Ret (fmt_display_dec D8 plain n) ;; expect (same_bytes v3 (bytes_of "9602508378086")) ;;;
  v4 <- parsed D8 (bytes_of "9002219982873646582917") ;;
  let n := v4 in
  let m := ubig_one in
  n <- div_assign (impl true D8) n m ;;
  v5 <- Ret (fmt_display_dec D8 plain n) ;; expect (same_bytes v5 (bytes_of "9002219982873646582917")) ;;;
  v6 <- parsed D32 (bytes_of "930813094274987073019737146173747392873837475872") ;;
  let n := v6 in
  v7 <- parsed D32 (bytes_of "9374894284708131986293") ;;
  let m := v7 in
  n <- div_assign (impl true D32) n m ;;
  v8 <- Ret (fmt_display_dec D32 plain n) ;; expect (same_bytes v8 (bytes_of "99287849655359182589853179")) ;;;
  v9 <- parsed D32 (bytes_of "930813094274987073019737146173747392873837475872") ;;
  let n := v9 in
  v10 <- parsed D32 (bytes_of "930813094274987073019737146173747392873837475873") ;;
  let m := v10 in
  n <- div_assign (impl true D32) n m ;;
  v11 <- Ret (fmt_display_dec D32 plain n) ;; expect (same_bytes v11 (bytes_of "0")) ;;;
  v12 <- parsed D32 (bytes_of "930813094274987073019737146173747392873837475872") ;;
  let n := v12 in
  v13 <- parsed D32 (bytes_of "930813094274987073019737146173747392873837475872") ;;
  let m := v13 in
  n <- div_assign (impl true D32) n m ;;
  v14 <- Ret (fmt_display_dec D32 plain n) ;; expect (same_bytes v14 (bytes_of "1")) ;;;
  v15 <- parsed D64 (bytes_of "9824927049720029841301497204970192193810497583965928748296429198881") ;;
  let n := v15 in
  v16 <- parsed D64 (bytes_of "930813094274987073146173747392873837475872") ;;
  let m := v16 in
  n <- div_assign (impl true D64) n m ;;
  v17 <- Ret (fmt_display_dec D64 plain n) ;; expect (same_bytes v17 (bytes_of "10555209321988205425269567")) ;;;
  v18 <- parsed D64 (bytes_of "9824927049720029841301497204970192193810497583965928748296429198882") ;;
  let n := v18 in
  v19 <- parsed D64 (bytes_of "9824927049720029841301497204970192193810497583965928748296429198883") ;;
  let m := v19 in
  n <- div_assign (impl true D64) n m ;;
  v20 <- Ret (fmt_display_dec D64 plain n) ;; expect (same_bytes v20 (bytes_of "0")) ;;;
  v21 <- parsed D64 (bytes_of "9824927049720029841301497204970192193810497583965928748296429198882") ;;
  let n := v21 in
  v22 <- parsed D64 (bytes_of "9824927049720029841301497204970192193810497583965928748296429198882") ;;
  let m := v22 in
  n <- div_assign (impl true D64) n m ;;
  v23 <- Ret (fmt_display_dec D64 plain n) ;; expect (same_bytes v23 (bytes_of "1")) ;;;
  Ret tt).
Proof. vm_compute. exact I. Qed.

(** tests/div.rs:163 *)
Example test_div_digit_binary : passes (
  v1 <- parsed B8 (bytes_of "0xe7691881761813f81a7") ;;
  v2 <- div_v_T true B8 v1 135 ;;
  let n := v2 in
  v3 <- Ret (fmt_hex B8 false alternate n) ;; expect (same_bytes v3 (bytes_of "0x1b6d2aba029e5998aa")) ;;;
  v4 <- parsed B8 (bytes_of "0xe7691881761813f81a7") ;;
  v5 <- div_v_T true B8 v4 1 ;;
  let n := v5 in
  v6 <- Ret (fmt_hex B8 false alternate n) ;; expect (same_bytes v6 (bytes_of "0xe7691881761813f81a7")) ;;;
  v7 <- parsed B32 (bytes_of "0x829ef171ac352f24a9dbb827c") ;;
  v8 <- div_v_T true B32 v7 2274033217 ;;
  let n := v8 in
  v9 <- Ret (fmt_hex B32 false alternate n) ;; expect (same_bytes v9 (bytes_of "0xf6b424a056a70a431")) ;;;
  v10 <- parsed B32 (bytes_of "0x829ef171") ;;
  v11 <- div_v_T true B32 v10 2274033217 ;;
  let n := v11 in
  v12 <- Ret (fmt_hex B32 false alternate n) ;; expect (same_bytes v12 (bytes_of "0x0")) ;;;
  Ret tt).
Proof. vm_compute. exact I. Qed.

(** tests/div.rs:179 *)
Example test_div_digit_decimal : passes (
  v1 <- parsed D8 (bytes_of "9002219982873646582917") ;;
  v2 <- div_v_T true D8 v1 87 ;;
  let n := v2 in
  v3 <- Ret (fmt_display_dec D8 plain n) ;; expect (same_bytes v3 (bytes_of "103473792906593638884")) ;;;
  v4 <- parsed D8 (bytes_of "9002219982873646582917") ;;
  v5 <- div_v_T true D8 v4 1 ;;
  let n := v5 in
  v6 <- Ret (fmt_display_dec D8 plain n) ;; expect (same_bytes v6 (bytes_of "9002219982873646582917")) ;;;
  v7 <- parsed D8 (bytes_of "9002219982873646582917") ;;
  v8 <- div_v_T true D8 v7 123 ;;
  let n := v8 in
  v9 <- Ret (fmt_display_dec D8 plain n) ;; expect (same_bytes v9 (bytes_of "73188780348566232381")) ;;;
  v10 <- parsed D32 (bytes_of "93081309173747392873837475872") ;;
  v11 <- div_v_T true D32 v10 91829892 ;;
  let n := v11 in
  v12 <- Ret (fmt_display_dec D32 plain n) ;; expect (same_bytes v12 (bytes_of "1013627557938839706724")) ;;;
  v13 <- parsed D32 (bytes_of "93081309173747392873837475872") ;;
  v14 <- div_v_T true D32 v13 2891829892 ;;
  let n := v14 in
  v15 <- Ret (fmt_display_dec D32 plain n) ;; expect (same_bytes v15 (bytes_of "32187684839709580287")) ;;;
  v16 <- parsed D32 (bytes_of "982198881") ;;
  v17 <- div_v_T true D32 v16 982198882 ;;
  let n := v17 in
  v18 <- Ret (fmt_display_dec D32 plain n) ;; expect (same_bytes v18 (bytes_of "0")) ;;;
  Ret tt).
Proof. vm_compute. exact I. Qed.

(** tests/div.rs:201 *)
Example test_div_by_digit_zero_binary : panics (
  v1 <- parsed B8 (bytes_of "0xe7691881761813f81a7") ;;
  v2 <- div_v_T true B8 v1 0 ;;
  let _n := v2 in
  Ret tt).
Proof. vm_compute. exact I. Qed.

(** tests/div.rs:208 *)
Example test_div_by_digit_zero_decimal : panics (
  v1 <- parsed D8 (bytes_of "39103919881210219921") ;;
  v2 <- div_v_T true D8 v1 0 ;;
  let _n := v2 in
  Ret tt).
Proof. vm_compute. exact I. Qed.

(** tests/div.rs:215 *)
Example test_div_big_binary : passes (
  v1 <- parsed B8 (bytes_of "0xe7691881761813f81a798af534") ;;
  let n := v1 in
  v2 <- parsed B8 (bytes_of "0x827df251fd1919f") ;;
  let m := v2 in
  v3 <- div_vv (impl true B8) n m ;;
  let q := v3 in
  v4 <- Ret (fmt_hex B8 false alternate q) ;; expect (same_bytes v4 (bytes_of "0x1c5fb8fa79d9")) ;;;
  v5 <- parsed B16 (bytes_of "0xe7691881761813f81a7") ;;
  let n := v5 in
  let m := ubig_one in
  v6 <- div_vv (impl true B16) n m ;;
  let q := v6 in
  v7 <- Ret (fmt_hex B16 false alternate q) ;; expect (same_bytes v7 (bytes_of "0xe7691881761813f81a7")) ;;;
  v8 <- parsed B32 (bytes_of "0x829e82f453f2613f2092ff171ac352f24a9dbb827c") ;;
  let n := v8 in
  v9 <- parsed B32 (bytes_of "0x4df8982fd526aaac45") ;;
  let m := v9 in
  v10 <- div_vv (impl true B32) n m ;;
  let q := v10 in
  v11 <- Ret (fmt_hex B32 false alternate q) ;; expect (same_bytes v11 (bytes_of "0x1acdba0651bcf9c842d70578f")) ;;;
  v12 <- parsed B32 (bytes_of "0x829e82f453f2613f2092ff171ac352f24a9dbb827c") ;;
  let n := v12 in
  v13 <- parsed B32 (bytes_of "0x829e82f453f2613f2092ff171ac352f24a9dbb827d") ;;
  let m := v13 in
  v14 <- div_vv (impl true B32) n m ;;
  let q := v14 in
  v15 <- Ret (fmt_hex B32 false alternate q) ;; expect (same_bytes v15 (bytes_of "0x0")) ;;;
  v16 <- parsed B64 (bytes_of "0xe7691881761813f81a798af53482fd526aaac45829e82f453f2613f2092ff171ac352f24a9dbb827c") ;;
  let n := v16 in
  v17 <- parsed B64 (bytes_of "0x829e82f453f2613f2092ff171ac352f24a9dbb827d") ;;
  let m := v17 in
  v18 <- div_vv (impl true B64) n m ;;
  let q := v18 in
  v19 <- Ret (fmt_hex B64 false alternate q) ;; expect (same_bytes v19 (bytes_of "0x1c58a60ae96e6206a9c9394ea075e5988ff78dd9")) ;;;
  v20 <- parsed B64 (bytes_of "0xe7691881761813f81a798af53482fd526aaac45829e82f453f2613f2092ff171ac352f24a9dbb827c") ;;
  let n := v20 in
  v21 <- parsed B64 (bytes_of "0xffffffffffffffffffffffffffffff") ;;
  let m := v21 in
  v22 <- div_vv (impl true B64) n m ;;
  let q := v22 in
  v23 <- Ret (fmt_hex B64 false alternate q) ;; expect (same_bytes v23 (bytes_of "0xe7691881761813f81a798af53482fe39d3c345ce41fc275fb8b")) ;;;
  Ret tt).
Proof. vm_compute. exact I. Qed.

(** tests/div.rs:249 *)
Example test_div_big_decimal : passes (
  v1 <- parsed D8 (bytes_of "900000") ;;
  let n := v1 in
  v2 <- parsed D8 (bytes_of "11000") ;;
  let m := v2 in
  v3 <- div_vv (impl true D8) n m ;;
  let q := v3 in
  v4 <- Ret (fmt_display_dec D8 plain q) ;; expect (same_bytes v4 (bytes_of "81")) ;;;
  v5 <- parsed D8 (bytes_of "9002219982873646582917") ;;
  let n := v5 in
  v6 <- parsed D8 (bytes_of "937486293") ;;
  let m := v6 in
  v7 <- div_vv (impl true D8) n m ;;
  let q := v7 in
  v8 <- Ret (fmt_display_dec D8 plain q) ;; expect (same_bytes v8 (bytes_of "9602508378086")) ;;;
  v9 <- parsed D8 (bytes_of "9002219982873646582917") ;;
  let n := v9 in
  let m := ubig_one in
  v10 <- div_vv (impl true D8) n m ;;
  let q := v10 in
  v11 <- Ret (fmt_display_dec D8 plain q) ;; expect (same_bytes v11 (bytes_of "9002219982873646582917")) ;;;
  v12 <- parsed D32 (bytes_of "930813094274987073019737146173747392873837475872") ;;
  let n := v12 in
  v13 <- parsed D32 (bytes_of "9374894284708131986293") ;;
  let m := v13 in
  v14 <- div_vv (impl true D32) n m ;;
  let q := v14 in
  v15 <- Ret (fmt_display_dec D32 plain q) ;; expect (same_bytes v15 (bytes_of "99287849655359182589853179")) ;;;
  v16 <- parsed D32 (bytes_of "930813094274987073019737146173747392873837475872") ;;
  let n := v16 in
  v17 <- parsed D32 (bytes_of "930813094274987073019737146173747392873837475873") ;;
  let m := v17 in
  v18 <- div_vv (impl true D32) n m ;;
  let q := v18 in
  v19 <- Ret (fmt_display_dec D32 plain q) ;; expect (same_bytes v19 (bytes_of "0")) ;;;
  v20 <- parsed D32 (bytes_of "930813094274987073019737146173747392873837475872") ;;
  let n := v20 in
  v21 <- parsed D32 (bytes_of "930813094274987073019737146173747392873837475872") ;;
  let m := v21 in
  v22 <- div_vv (impl true D32) n m ;;
  let q := v22 in
  v23 <- Ret (fmt_display_dec D32 plain q) ;; expect (same_bytes v23 (bytes_of "1")) ;;;
  v24 <- parsed D64 (bytes_of "9824927049720029841301497204970192193810497583965928748296429198881") ;;
  let n := v24 in
  v25 <- parsed D64 (bytes_of "930813094274987073146173747392873837475872") ;;
  let m := v25 in
  v26 <- div_vv (impl true D64) n m ;;
  let q := v26 in
  v27 <- Ret (fmt_display_dec D64 plain q) ;; expect (same_bytes v27 (bytes_of "10555209321988205425269567")) ;;;
  v28 <- parsed D64 (bytes_of "9824927049720029841301497204970192193810497583965928748296429198882") ;;
  let n := v28 in
  v29 <- parsed D64 (bytes_of "9824927049720029841301497204970192193810497583965928748296429198883") ;;
  let m := v29 in
  v30 <- div_vv (impl true D64) n m ;;
  let q := v30 in
  v31 <- Ret (fmt_display_dec D64 plain q) ;; expect (same_bytes v31 (bytes_of "0")) ;;;
  v32 <- parsed D64 (bytes_of "9824927049720029841301497204970192193810497583965928748296429198882") ;;
  let n := v32 in
  v33 <- parsed D64 (bytes_of "9824927049720029841301497204970192193810497583965928748296429198882") ;;
  let m := v33 in
  v34 <- div_vv (impl true D64) n m ;;
  let q := v34 in
  v35 <- Ret (fmt_display_dec D64 plain q) ;; expect (same_bytes v35 (bytes_of "1")) ;;;
  Ret tt).
Proof. vm_compute. exact I. Qed.

(** tests/div.rs:298 *)
Example test_div_big_zero_binary : panics (
  v1 <- parsed B64 (bytes_of "23740928407201749107429489127") ;;
  let n := v1 in
  let m := ubig_zero in
  v2 <- div_vv (impl true B64) n m ;;
  let _q := v2 in
  Ret tt).
Proof. vm_compute. exact I. Qed.

(** tests/div.rs:307 *)
Example test_div_big_zero_decimal : panics (
  v1 <- parsed D64 (bytes_of "23740928407201749107429489127") ;;
  let n := v1 in
  let m := ubig_zero in
  v2 <- div_vv (impl true D64) n m ;;
  let _q := v2 in
  Ret tt).
Proof. vm_compute. exact I. Qed.

(** ** tests/mul.rs *)

(** tests/mul.rs:19 *)
Example test_mul_assign_digit_binary : passes (
  let n := ubig_zero in
  n <- mul_assign_T true B32 n 305419896 ;;
  v1 <- Ret (fmt_hex B32 false alternate n) ;; expect (same_bytes v1 (bytes_of "0x0")) ;;;
  v2 <- parsed B32 (bytes_of "0xaabbccddeeff00998877665544332211") ;;
  let n := v2 in
  n <- mul_assign_T true B32 n 305419896 ;;
  v3 <- Ret (fmt_hex B32 false alternate n) ;; expect (same_bytes v3 (bytes_of "0xc241c3856bd10289c83f942dc760fa942ddadf8")) ;;;
  v4 <- parsed B32 (bytes_of "0xffffffffffffffffffffffffffffffffffffffff") ;;
  let n := v4 in
  n <- mul_assign_T true B32 n 4294967295 ;;
  v5 <- Ret (fmt_hex B32 false alternate n) ;; expect (same_bytes v5 (bytes_of "0xfffffffeffffffffffffffffffffffffffffffff00000001")) ;;;
  Ret tt).
Proof. vm_compute. exact I. Qed.

(** tests/mul.rs:35 *)
Example test_mul_assign_digit_decimal : passes (
  let n := ubig_zero in
  n <- mul_assign_T true D32 n 12345678 ;;
  v1 <- Ret (fmt_display_dec D32 plain n) ;; expect (same_bytes v1 (bytes_of "0")) ;;;
  let n := ubig_zero in
  n <- mul_assign_T true D32 n 4294967295 ;;
  v2 <- Ret (fmt_display_dec D32 plain n) ;; expect (same_bytes v2 (bytes_of "0")) ;;;
  v3 <- parsed D32 (bytes_of "11223344556677889900998877665544332211") ;;
  let n := v3 in
  n <- mul_assign_T true D32 n 12345678 ;;
  v4 <- Ret (fmt_display_dec D32 plain n) ;; expect (same_bytes v4 (bytes_of "138559797979797978437184022020202020202034058")) ;;;
  v5 <- parsed D32 (bytes_of "11223344556677889900998877665544332211") ;;
  let n := v5 in
  n <- mul_assign_T true D32 n 4294967295 ;;
  v6 <- Ret (fmt_display_dec D32 plain n) ;; expect (same_bytes v6 (bytes_of "48203897811447810974400967405218855218860039245")) ;;;
  v7 <- parsed D32 (bytes_of "9999999999999999999999999999999999999999999999") ;;
  let n := v7 in
  n <- mul_assign_T true D32 n 999999999 ;;
  v8 <- Ret (fmt_display_dec D32 plain n) ;; expect (same_bytes v8 (bytes_of "9999999989999999999999999999999999999999999999000000001")) ;;;
  v9 <- parsed D32 (bytes_of "9999999999999999999999999999999999999999999999") ;;
  let n := v9 in
  n <- mul_assign_T true D32 n 4294967295 ;;
  v10 <- Ret (fmt_display_dec D32 plain n) ;; expect (same_bytes v10 (bytes_of "42949672949999999999999999999999999999999999995705032705")) ;;;
  Ret tt).
Proof. vm_compute. exact I. Qed.

(** tests/mul.rs:63 *)
Example test_mul_digit_binary : passes (
  v1 <- mul_v_T true B32 ubig_zero 305419896 ;;
  let n := v1 in
  v2 <- Ret (fmt_hex B32 false alternate n) ;; expect (same_bytes v2 (bytes_of "0x0")) ;;;
  v3 <- parsed B32 (bytes_of "0xaabbccddeeff00998877665544332211") ;;
  v4 <- mul_v_T true B32 v3 305419896 ;;
  let n := v4 in
  v5 <- Ret (fmt_hex B32 false alternate n) ;; expect (same_bytes v5 (bytes_of "0xc241c3856bd10289c83f942dc760fa942ddadf8")) ;;;
  v6 <- parsed B32 (bytes_of "0xffffffffffffffffffffffffffffffffffffffff") ;;
  v7 <- mul_v_T true B32 v6 4294967295 ;;
  let n := v7 in
  v8 <- Ret (fmt_hex B32 false alternate n) ;; expect (same_bytes v8 (bytes_of "0xfffffffeffffffffffffffffffffffffffffffff00000001")) ;;;
  Ret tt).
Proof. vm_compute. exact I. Qed.

(** tests/mul.rs:76 *)
Example test_mul_digit_decimal : passes (
  v1 <- mul_v_T true D32 ubig_zero 12345678 ;;
  let n := v1 in
  v2 <- Ret (fmt_display_dec D32 plain n) ;; expect (same_bytes v2 (bytes_of "0")) ;;;
  v3 <- mul_v_T true D32 ubig_zero 4294967295 ;;
  let n := v3 in
  v4 <- Ret (fmt_display_dec D32 plain n) ;; expect (same_bytes v4 (bytes_of "0")) ;;;
  v5 <- parsed D32 (bytes_of "11223344556677889900998877665544332211") ;;
  v6 <- mul_v_T true D32 v5 12345678 ;;
  let n := v6 in
  v7 <- Ret (fmt_display_dec D32 plain n) ;; expect (same_bytes v7 (bytes_of "138559797979797978437184022020202020202034058")) ;;;
  v8 <- parsed D32 (bytes_of "11223344556677889900998877665544332211") ;;
  v9 <- mul_v_T true D32 v8 4294967295 ;;
  let n := v9 in
  v10 <- Ret (fmt_display_dec D32 plain n) ;; expect (same_bytes v10 (bytes_of "48203897811447810974400967405218855218860039245")) ;;;
  v11 <- parsed D32 (bytes_of "9999999999999999999999999999999999999999999999") ;;
  v12 <- mul_v_T true D32 v11 999999999 ;;
  let n := v12 in
  v13 <- Ret (fmt_display_dec D32 plain n) ;; expect (same_bytes v13 (bytes_of "9999999989999999999999999999999999999999999999000000001")) ;;;
  v14 <- parsed D32 (bytes_of "9999999999999999999999999999999999999999999999") ;;
  v15 <- mul_v_T true D32 v14 4294967295 ;;
  let n := v15 in
  v16 <- Ret (fmt_display_dec D32 plain n) ;; expect (same_bytes v16 (bytes_of "42949672949999999999999999999999999999999999995705032705")) ;;;
  Ret tt).
Proof. vm_compute. exact I. Qed.

(** tests/mul.rs:98 *)
Example test_mul_assign_big_binary : passes (
  let n0 := ubig_zero in
  v1 <- parsed B8 (bytes_of "0x1234567890abcdeffedcba0987654321") ;;
  let n1 := v1 in
  n0 <- mul_assign (impl true B8) n0 n1 ;;
  v2 <- Ret (fmt_hex B8 false alternate n0) ;; expect (same_bytes v2 (bytes_of "0x0")) ;;;
  v3 <- parsed B8 (bytes_of "0x1234567890abcdeffedcba0987654321") ;;
  let n0 := v3 in
  let n1 := ubig_zero in
  n0 <- mul_assign (impl true B8) n0 n1 ;;
  v4 <- Ret (fmt_hex B8 false alternate n0) ;; expect (same_bytes v4 (bytes_of "0x0")) ;;;
  v5 <- parsed B8 (bytes_of "0xfedcba0987654321") ;;
  let n0 := v5 in
  v6 <- parsed B8 (bytes_of "0x1234567890abcdeffedcba0987654321") ;;
  let n1 := v6 in
  n0 <- mul_assign (impl true B8) n0 n1 ;;
  v7 <- Ret (fmt_hex B8 false alternate n0) ;; expect (same_bytes v7 (bytes_of "0x121fa000a3723a58c00503ab15959929cefea12cd7a44a41")) ;;;
  v8 <- parsed B8 (bytes_of "0x1234567890abcdeffedcba0987654321") ;;
  let n0 := v8 in
  v9 <- parsed B8 (bytes_of "0xfedcba0987654321") ;;
  let n1 := v9 in
  n0 <- mul_assign (impl true B8) n0 n1 ;;
  v10 <- Ret (fmt_hex B8 false alternate n0) ;; expect (same_bytes v10 (bytes_of "0x121fa000a3723a58c00503ab15959929cefea12cd7a44a41")) ;;;
  v11 <- parsed B8 (bytes_of "0x1234567890abcdeffedcba0987654321") ;;
  let n0 := v11 in
  v12 <- parsed B8 (bytes_of "0xfedcba0987654321ffffffffffffffff") ;;
  let n1 := v12 in
  n0 <- mul_assign (impl true B8) n0 n1 ;;
  v13 <- Ret (fmt_hex B8 false alternate n0) ;; expect (same_bytes v13 (bytes_of "0x121fa000a3723a58d2395a23a6416719bba704bdce5dbf72012345f6789abcdf")) ;;;
  v14 <- parsed B8 (bytes_of "0xffffffffffffffff55555555555555551234567890abcdeffedcba0987654321") ;;
  let n0 := v14 in
  v15 <- parsed B8 (bytes_of "0xffffffffffffffff0123456789abcdeffedcba0987654321ffffffffffffffff3333333333333333") ;;
  let n1 := v15 in
  n0 <- mul_assign (impl true B8) n0 n1 ;;
  v16 <- Ret (fmt_hex B8 false alternate n0) ;; expect (same_bytes v16 (bytes_of "0xfffffffffffffffe56789abcdf012345baf98ce7bc493272427386d5dc70a52112574b059c3de1497cf8bbd52d200871ae3a04f80d6f0ac4307826ad10596de8cd070dfe181ef293")) ;;;
  Ret tt).
Proof. vm_compute. exact I. Qed.

(** tests/mul.rs:132 *)
Example test_mul_assign_big_decimal : passes (
  let n0 := ubig_zero in
  v1 <- parsed D8 (bytes_of "123456789098765432101234567890987654321") ;;
  let n1 := v1 in
  n0 <- mul_assign (impl true D8) n0 n1 ;;
  v2 <- Ret (fmt_display_dec D8 plain n0) ;; expect (same_bytes v2 (bytes_of "0")) ;;;
  v3 <- parsed D8 (bytes_of "123456789098765432101234567890987654321") ;;
  let n0 := v3 in
  let n1 := ubig_zero in
  n0 <- mul_assign (impl true D8) n0 n1 ;;
  v4 <- Ret (fmt_display_dec D8 plain n0) ;; expect (same_bytes v4 (bytes_of "0")) ;;;
  v5 <- parsed D8 (bytes_of "9595959595950987654321") ;;
  let n0 := v5 in
  v6 <- parsed D8 (bytes_of "123456789098765432101234567890987654321") ;;
  let n1 := v6 in
  n0 <- mul_assign (impl true D8) n0 n1 ;;
  v7 <- Ret (fmt_display_dec D8 plain n0) ;; expect (same_bytes v7 (bytes_of "1184686360037595433101200204970154951434993533413697789971041")) ;;;
  v8 <- parsed D8 (bytes_of "123456789098765432101234567890987654321") ;;
  let n0 := v8 in
  v9 <- parsed D8 (bytes_of "9595959595950987654321") ;;
  let n1 := v9 in
  n0 <- mul_assign (impl true D8) n0 n1 ;;
  v10 <- Ret (fmt_display_dec D8 plain n0) ;; expect (same_bytes v10 (bytes_of "1184686360037595433101200204970154951434993533413697789971041")) ;;;
  v11 <- parsed D8 (bytes_of "123456789098765432101234567890987654321") ;;
  let n0 := v11 in
  v12 <- parsed D8 (bytes_of "982997489281903873893021388939802022890") ;;
  let n1 := v12 in
  n0 <- mul_assign (impl true D8) n0 n1 ;;
  v13 <- Ret (fmt_display_dec D8 plain n0) ;; expect (same_bytes v13 (bytes_of "121357713718891939860849282139725158093481964939210303155948856078891849407690")) ;;;
  v14 <- parsed D8 (bytes_of "121357713718891939860849282139725158093481964939210303155948856078891849407690") ;;
  let n0 := v14 in
  v15 <- parsed D8 (bytes_of "93029402983198372396198718927039019381098178973717903190830971309179801978") ;;
  let n1 := v15 in
  n0 <- mul_assign (impl true D8) n0 n1 ;;
  v16 <- Ret (fmt_display_dec D8 plain n0) ;; expect (same_bytes v16 (bytes_of "11289835654674419874013163552036167512633752634305413123327030511599249897482191495952901109662410448300334897691877327195498875692661112537790790410820")) ;;;
  Ret tt).
Proof. vm_compute. exact I. Qed.

(** tests/mul.rs:166 *)
Example test_mul_big_binary : passes (
  let n0 := ubig_zero in
  v1 <- parsed B8 (bytes_of "0x1234567890abcdeffedcba0987654321") ;;
  let n1 := v1 in
  v2 <- mul_vv (impl true B8) n0 n1 ;;
  let n := v2 in
  v3 <- Ret (fmt_hex B8 false alternate n) ;; expect (same_bytes v3 (bytes_of "0x0")) ;;;
  v4 <- parsed B8 (bytes_of "0x1234567890abcdeffedcba0987654321") ;;
  let n0 := v4 in
  let n1 := ubig_zero in
  v5 <- mul_vv (impl true B8) n0 n1 ;;
  let n := v5 in
  v6 <- Ret (fmt_hex B8 false alternate n) ;; expect (same_bytes v6 (bytes_of "0x0")) ;;;
  v7 <- parsed B8 (bytes_of "0xfedcba0987654321") ;;
  let n0 := v7 in
  v8 <- parsed B8 (bytes_of "0x1234567890abcdeffedcba0987654321") ;;
  let n1 := v8 in
  v9 <- mul_vv (impl true B8) n0 n1 ;;
  let n := v9 in
  v10 <- Ret (fmt_hex B8 false alternate n) ;; expect (same_bytes v10 (bytes_of "0x121fa000a3723a58c00503ab15959929cefea12cd7a44a41")) ;;;
  v11 <- parsed B8 (bytes_of "0x1234567890abcdeffedcba0987654321") ;;
  let n0 := v11 in
  v12 <- parsed B8 (bytes_of "0xfedcba0987654321") ;;
  let n1 := v12 in
  v13 <- mul_vv (impl true B8) n0 n1 ;;
  let n := v13 in
  v14 <- Ret (fmt_hex B8 false alternate n) ;; expect (same_bytes v14 (bytes_of "0x121fa000a3723a58c00503ab15959929cefea12cd7a44a41")) ;;;
  v15 <- parsed B8 (bytes_of "0x1234567890abcdeffedcba0987654321") ;;
  let n0 := v15 in
  v16 <- parsed B8 (bytes_of "0xfedcba0987654321ffffffffffffffff") ;;
  let n1 := v16 in
  v17 <- mul_vv (impl true B8) n0 n1 ;;
  let n := v17 in
  v18 <- Ret (fmt_hex B8 false alternate n) ;; expect (same_bytes v18 (bytes_of "0x121fa000a3723a58d2395a23a6416719bba704bdce5dbf72012345f6789abcdf")) ;;;
  v19 <- parsed B8 (bytes_of "0xffffffffffffffff55555555555555551234567890abcdeffedcba0987654321") ;;
  let n0 := v19 in
  v20 <- parsed B8 (bytes_of "0xffffffffffffffff0123456789abcdeffedcba0987654321ffffffffffffffff3333333333333333") ;;
  let n1 := v20 in
  v21 <- mul_vv (impl true B8) n0 n1 ;;
  let n := v21 in
  v22 <- Ret (fmt_hex B8 false alternate n) ;; expect (same_bytes v22 (bytes_of "0xfffffffffffffffe56789abcdf012345baf98ce7bc493272427386d5dc70a52112574b059c3de1497cf8bbd52d200871ae3a04f80d6f0ac4307826ad10596de8cd070dfe181ef293")) ;;;
  Ret tt).
Proof. vm_compute. exact I. Qed.

(** tests/mul.rs:200 *)
Example test_mul_big_decimal : passes (
  let n0 := ubig_zero in
  v1 <- parsed D8 (bytes_of "123456789098765432101234567890987654321") ;;
  let n1 := v1 in
  v2 <- mul_vv (impl true D8) n0 n1 ;;
  let n := v2 in
  v3 <- Ret (fmt_display_dec D8 plain n) ;; expect (same_bytes v3 (bytes_of "0")) ;;;
  v4 <- parsed D8 (bytes_of "123456789098765432101234567890987654321") ;;
  let n0 := v4 in
  let n1 := ubig_zero in
  v5 <- mul_vv (impl true D8) n0 n1 ;;
  let n := v5 in
  v6 <- Ret (fmt_display_dec D8 plain n) ;; expect (same_bytes v6 (bytes_of "0")) ;;;
  v7 <- parsed D8 (bytes_of "9595959595950987654321") ;;
  let n0 := v7 in
  v8 <- parsed D8 (bytes_of "123456789098765432101234567890987654321") ;;
  let n1 := v8 in
  v9 <- mul_vv (impl true D8) n0 n1 ;;
  let n := v9 in
  v10 <- Ret (fmt_display_dec D8 plain n) ;; expect (same_bytes v10 (bytes_of "1184686360037595433101200204970154951434993533413697789971041")) ;;;
  v11 <- parsed D8 (bytes_of "123456789098765432101234567890987654321") ;;
  let n0 := v11 in
  v12 <- parsed D8 (bytes_of "9595959595950987654321") ;;
  let n1 := v12 in
  v13 <- mul_vv (impl true D8) n0 n1 ;;
  let n := v13 in
  v14 <- Ret (fmt_display_dec D8 plain n) ;; expect (same_bytes v14 (bytes_of "1184686360037595433101200204970154951434993533413697789971041")) ;;;
  v15 <- parsed D8 (bytes_of "123456789098765432101234567890987654321") ;;
  let n0 := v15 in
  v16 <- parsed D8 (bytes_of "982997489281903873893021388939802022890") ;;
  let n1 := v16 in
  v17 <- mul_vv (impl true D8) n0 n1 ;;
  let n := v17 in
  v18 <- Ret (fmt_display_dec D8 plain n) ;; expect (same_bytes v18 (bytes_of "121357713718891939860849282139725158093481964939210303155948856078891849407690")) ;;;
  v19 <- parsed D8 (bytes_of "121357713718891939860849282139725158093481964939210303155948856078891849407690") ;;
  let n0 := v19 in
  v20 <- parsed D8 (bytes_of "93029402983198372396198718927039019381098178973717903190830971309179801978") ;;
  let n1 := v20 in
  v21 <- mul_vv (impl true D8) n0 n1 ;;
  let n := v21 in
  v22 <- Ret (fmt_display_dec D8 plain n) ;; expect (same_bytes v22 (bytes_of "11289835654674419874013163552036167512633752634305413123327030511599249897482191495952901109662410448300334897691877327195498875692661112537790790410820")) ;;;
  Ret tt).
Proof. vm_compute. exact I. Qed.

(** ** tests/pow.rs *)

(** tests/pow.rs:19 *)
Example test_pow_binary : passes (
  let n := ubig_zero in
  v1 <- pow_r (impl true B8) n 0%N ;;
  let m := v1 in
  v2 <- Ret (fmt_hex B8 false alternate m) ;; expect (same_bytes v2 (bytes_of "0x1")) ;;;
  let n := ubig_zero in
  v3 <- pow_r (impl true B8) n 13%N ;;
  let m := v3 in
  v4 <- Ret (fmt_hex B8 false alternate m) ;; expect (same_bytes v4 (bytes_of "0x0")) ;;;
  v5 <- parsed B8 (bytes_of "0xfedcba98") ;;
  let n := v5 in
  v6 <- pow_r (impl true B8) n 1%N ;;
  let m := v6 in
  v7 <- Ret (fmt_hex B8 false alternate m) ;; expect (same_bytes v7 (bytes_of "0xfedcba98")) ;;;
  v8 <- parsed B8 (bytes_of "0xfedcba98") ;;
  let n := v8 in
  v9 <- pow_r (impl true B8) n 2%N ;;
  let m := v9 in
  v10 <- Ret (fmt_hex B8 false alternate m) ;; expect (same_bytes v10 (bytes_of "0xfdbac096dd413a40")) ;;;
  v11 <- parsed B8 (bytes_of "0xfedcba98") ;;
  let n := v11 in
  v12 <- pow_r (impl true B8) n 13%N ;;
  let m := v12 in
  v13 <- Ret (fmt_hex B8 false alternate m) ;; expect (same_bytes v13 (bytes_of "0xf198d2747a110de9256ef6e6084ab7b9fd88abb07e0b7af71db30ef0f458076de8eb6ed7ffe5050e7715a6ddafedf18000000000")) ;;;
  v14 <- parsed B32 (bytes_of "0xfedcba98") ;;
  let n := v14 in
  v15 <- pow_r (impl true B32) n 13%N ;;
  let m := v15 in
  v16 <- Ret (fmt_hex B32 false alternate m) ;; expect (same_bytes v16 (bytes_of "0xf198d2747a110de9256ef6e6084ab7b9fd88abb07e0b7af71db30ef0f458076de8eb6ed7ffe5050e7715a6ddafedf18000000000")) ;;;
  v17 <- parsed B32 (bytes_of "0x1") ;;
  let n := v17 in
  v18 <- pow_r (impl true B32) n 356%N ;;
  let m := v18 in
  v19 <- Ret (fmt_hex B32 false alternate m) ;; expect (same_bytes v19 (bytes_of "0x1")) ;;;
  v20 <- parsed B32 (bytes_of "0x2") ;;
  let n := v20 in
  v21 <- pow_r (impl true B32) n 356%N ;;
  let m := v21 in
  v22 <- Ret (fmt_hex B32 false alternate m) ;; expect (same_bytes v22 (bytes_of "0x100000000000000000000000000000000000000000000000000000000000000000000000000000000000000000")) ;;;
  Ret tt).
Proof. vm_compute. exact I. Qed.

(** tests/pow.rs:55 *)
Example test_pow_decimal : passes (
  let n := ubig_zero in
  v1 <- pow_r (impl true D8) n 0%N ;;
  let m := v1 in
  v2 <- Ret (fmt_display_dec D8 plain m) ;; expect (same_bytes v2 (bytes_of "1")) ;;;
  let n := ubig_zero in
  v3 <- pow_r (impl true D8) n 13%N ;;
  let m := v3 in
  v4 <- Ret (fmt_display_dec D8 plain m) ;; expect (same_bytes v4 (bytes_of "0")) ;;;
  v5 <- parsed D8 (bytes_of "982282810") ;;
  let n := v5 in
  v6 <- pow_r (impl true D8) n 1%N ;;
  let m := v6 in
  v7 <- Ret (fmt_display_dec D8 plain m) ;; expect (same_bytes v7 (bytes_of "982282810")) ;;;
  v8 <- parsed D8 (bytes_of "982282810") ;;
  let n := v8 in
  v9 <- pow_r (impl true D8) n 2%N ;;
  let m := v9 in
  v10 <- Ret (fmt_display_dec D8 plain m) ;; expect (same_bytes v10 (bytes_of "964879518821496100")) ;;;
  v11 <- parsed D8 (bytes_of "982282810") ;;
  let n := v11 in
  v12 <- pow_r (impl true D8) n 13%N ;;
  let m := v12 in
  v13 <- Ret (fmt_display_dec D8 plain m) ;; expect (same_bytes v13 (bytes_of "792638332352224578622119426724922794977683169682171995983750988396136915147220543547941320563348899948410000000000000")) ;;;
  v14 <- parsed D32 (bytes_of "982282810") ;;
  let n := v14 in
  v15 <- pow_r (impl true D32) n 13%N ;;
  let m := v15 in
  v16 <- Ret (fmt_display_dec D32 plain m) ;; expect (same_bytes v16 (bytes_of "792638332352224578622119426724922794977683169682171995983750988396136915147220543547941320563348899948410000000000000")) ;;;
  v17 <- parsed D32 (bytes_of "1") ;;
  let n := v17 in
  v18 <- pow_r (impl true D32) n 356%N ;;
  let m := v18 in
  v19 <- Ret (fmt_display_dec D32 plain m) ;; expect (same_bytes v19 (bytes_of "1")) ;;;
  v20 <- parsed D32 (bytes_of "2") ;;
  let n := v20 in
  v21 <- pow_r (impl true D32) n 356%N ;;
  let m := v21 in
  v22 <- Ret (fmt_display_dec D32 plain m) ;; expect (same_bytes v22 (bytes_of "146783911423364576743092537299333564210980159306769991919205685720763064069663027716481187399048043939495936")) ;;;
  Ret tt).
Proof. vm_compute. exact I. Qed.

(** ** tests/rem.rs *)

(** tests/rem.rs:19 *)
Example test_rem_assign_digit_binary : passes (
  v1 <- parsed B8 (bytes_of "0xe7691881761813f81a7") ;;
  let n := v1 in
  n <- rem_assign_T true B8 n 135 ;;
  v2 <- Ret (fmt_hex B8 false alternate n) ;; expect (same_bytes v2 (bytes_of "0x1")) ;;;
  v3 <- parsed B8 (bytes_of "0xe7691881761813f81a7") ;;
  let n := v3 in
  n <- rem_assign_T true B8 n 1 ;;
  v4 <- Ret (fmt_hex B8 false alternate n) ;; expect (same_bytes v4 (bytes_of "0x0")) ;;;
  v5 <- parsed B16 (bytes_of "0x3275ea9937d3dfe1543def144aaacf24") ;;
  let n := v5 in
  n <- rem_assign_T true B16 n 62309 ;;
  v6 <- Ret (fmt_hex B16 false alternate n) ;; expect (same_bytes v6 (bytes_of "0xdd93")) ;;;
  v7 <- parsed B32 (bytes_of "0x829ef171ac352f24a9dbb827c") ;;
  let n := v7 in
  n <- rem_assign_T true B32 n 2274033217 ;;
  v8 <- Ret (fmt_hex B32 false alternate n) ;; expect (same_bytes v8 (bytes_of "0x7acf340b")) ;;;
  v9 <- parsed B32 (bytes_of "0x829ef171") ;;
  let n := v9 in
  n <- rem_assign_T true B32 n 2274033217 ;;
  v10 <- Ret (fmt_hex B32 false alternate n) ;; expect (same_bytes v10 (bytes_of "0x829ef171")) ;;;
  v11 <- parsed B64 (bytes_of "0x829ef171f5353cf273828fd667372fd6242ade1983ddfffe") ;;
  let n := v11 in
  n <- rem_assign_T true B64 n 9366996259809777462 ;;
  v12 <- Ret (fmt_hex B64 false alternate n) ;; expect (same_bytes v12 (bytes_of "0x6e5c25b8c68d5924")) ;;;
  Ret tt).
Proof. vm_compute. exact I. Qed.

(** tests/rem.rs:47 *)
Example test_rem_assign_digit_decimal : passes (
  v1 <- parsed D8 (bytes_of "9002219982873646582917") ;;
  let n := v1 in
  n <- rem_assign_T true D8 n 87 ;;
  v2 <- Ret (fmt_display_dec D8 plain n) ;; expect (same_bytes v2 (bytes_of "9")) ;;;
  v3 <- parsed D8 (bytes_of "9002219982873646582917") ;;
  let n := v3 in
  n <- rem_assign_T true D8 n 1 ;;
  v4 <- Ret (fmt_display_dec D8 plain n) ;; expect (same_bytes v4 (bytes_of "0")) ;;;
  v5 <- parsed D8 (bytes_of "9002219982873646582917") ;;
  let n := v5 in
  n <- rem_assign_T true D8 n 123 ;;
  v6 <- Ret (fmt_display_dec D8 plain n) ;; expect (same_bytes v6 (bytes_of "54")) ;;;
  v7 <- parsed D16 (bytes_of "90022199828736465829179002219982873646582917") ;;
  let n := v7 in
  n <- rem_assign_T true D16 n 8345 ;;
  v8 <- Ret (fmt_display_dec D16 plain n) ;; expect (same_bytes v8 (bytes_of "5572")) ;;;
  v9 <- parsed D32 (bytes_of "93081309173747392873837475872") ;;
  let n := v9 in
  n <- rem_assign_T true D32 n 91829892 ;;
  v10 <- Ret (fmt_display_dec D32 plain n) ;; expect (same_bytes v10 (bytes_of "60882064")) ;;;
  v11 <- parsed D32 (bytes_of "93081309173747392873837475872") ;;
  let n := v11 in
  n <- rem_assign_T true D32 n 2891829892 ;;
  v12 <- Ret (fmt_display_dec D32 plain n) ;; expect (same_bytes v12 (bytes_of "1116936868")) ;;;
  v13 <- parsed D32 (bytes_of "982198881") ;;
  let n := v13 in
  n <- rem_assign_T true D32 n 982198882 ;;
  v14 <- Ret (fmt_display_dec D32 plain n) ;; expect (same_bytes v14 (bytes_of "982198881")) ;;;
  v15 <- parsed D64 (bytes_of "498274927462984759874294867203710386146272569189313981") ;;
  let n := v15 in
  n <- rem_assign_T true D64 n 3958234847986999123 ;;
  v16 <- Ret (fmt_display_dec D64 plain n) ;; expect (same_bytes v16 (bytes_of "864138130113784515")) ;;;
  Ret tt).
Proof. vm_compute. exact I. Qed.

(** tests/rem.rs:83 *)
Example test_rem_assign_by_digit_zero_binary : panics (
  v1 <- parsed B8 (bytes_of "0xe7691881761813f81a7") ;;
  let n := v1 in
  n <- rem_assign_T true B8 n 0 ;;
  Ret tt).
Proof. vm_compute. exact I. Qed.

(** tests/rem.rs:91 *)
Example test_rem_assign_by_digit_zero_decimal : panics (
  v1 <- parsed D8 (bytes_of "39103919881210219921") ;;
  let n := v1 in
  n <- rem_assign_T true D8 n 0 ;;
  Ret tt).
Proof. vm_compute. exact I. Qed.

(** tests/rem.rs:99 *)
Example test_rem_assign_big_binary : passes (
  v1 <- parsed B8 (bytes_of "0x272fddae3514e1414ffe52717dfe717") ;;
  let n := v1 in
  v2 <- parsed B8 (bytes_of "0xffe72718933fe9") ;;
  let m := v2 in
  n <- rem_assign (impl true B8) n m ;;
  v3 <- Ret (fmt_hex B8 false alternate n) ;; expect (same_bytes v3 (bytes_of "0xa612ddc004b82c")) ;;;
  v4 <- parsed B16 (bytes_of "0x30177230ab15e5d8ae22f6ab1e8ed7d") ;;
  let n := v4 in
  v5 <- parsed B16 (bytes_of "0x3728289281") ;;
  let m := v5 in
  n <- rem_assign (impl true B16) n m ;;
  v6 <- Ret (fmt_hex B16 false alternate n) ;; expect (same_bytes v6 (bytes_of "0x0")) ;;;
  v7 <- parsed B32 (bytes_of "0x30177230a30177230ab15e5d8ae22f6ab1e8ed7db15e5d8ae22f6ab1e8ed7d") ;;
  let n := v7 in
  v8 <- parsed B32 (bytes_of "0x368dff2535ddf342462efefff34") ;;
  let m := v8 in
  n <- rem_assign (impl true B32) n m ;;
  v9 <- Ret (fmt_hex B32 false alternate n) ;; expect (same_bytes v9 (bytes_of "0x82046ee442d49005bc6bb70529")) ;;;
  v10 <- parsed B64 (bytes_of "0x30177230a30177230ab15e6d8ae22f6ab1e8ed7db15e5d8ae22f6ab1e8ed7d") ;;
  let n := v10 in
  v11 <- parsed B64 (bytes_of "0x368dff2535d4676dfefe646efdf342552efefff34") ;;
  let m := v11 in
  n <- rem_assign (impl true B64) n m ;;
  v12 <- Ret (fmt_hex B64 false alternate n) ;; expect (same_bytes v12 (bytes_of "0xbb68f67da829880d3695b52744a1227fcf93a95d")) ;;;
  Ret tt).
Proof. vm_compute. exact I. Qed.

(** tests/rem.rs:123 *)
Example test_rem_assign_big_decimal : passes (
  v1 <- parsed D8 (bytes_of "7849374978203198420749827429") ;;
  let n := v1 in
  v2 <- parsed D8 (bytes_of "274097309742780") ;;
  let m := v2 in
  n <- rem_assign (impl true D8) n m ;;
  v3 <- Ret (fmt_display_dec D8 plain n) ;; expect (same_bytes v3 (bytes_of "147172302973209")) ;;;
  v4 <- parsed D16 (bytes_of "77427309730270207042742749648729740935793246297832") ;;
  let n := v4 in
  v5 <- parsed D16 (bytes_of "972498704274092492174970279") ;;
  let m := v5 in
  n <- rem_assign (impl true D16) n m ;;
  v6 <- Ret (fmt_display_dec D16 plain n) ;; expect (same_bytes v6 (bytes_of "95061865451716395454014970")) ;;;
  v7 <- parsed D32 (bytes_of "457787921314029600398699209789811884151080151838812560337357067840") ;;
  let n := v7 in
  v8 <- parsed D32 (bytes_of "48274807097205970972097520") ;;
  let m := v8 in
  n <- rem_assign (impl true D32) n m ;;
  v9 <- Ret (fmt_display_dec D32 plain n) ;; expect (same_bytes v9 (bytes_of "0")) ;;;
  v10 <- parsed D64 (bytes_of "409274097205720582757338649279470129742085692846502857029472095729856928") ;;
  let n := v10 in
  v11 <- parsed D64 (bytes_of "924874928740274085620847057805692759326592") ;;
  let m := v11 in
  n <- rem_assign (impl true D64) n m ;;
  v12 <- Ret (fmt_display_dec D64 plain n) ;; expect (same_bytes v12 (bytes_of "579494661511233909925933152107839265085216")) ;;;
  Ret tt).
Proof. vm_compute. exact I. Qed.

(** tests/rem.rs:147 *)
Example test_rem_assign_by_big_zero_binary : panics (
  v1 <- parsed B8 (bytes_of "0xe7691881761813f81a7") ;;
  let n := v1 in
  n <- rem_assign (impl true B8) n ubig_zero ;;
  Ret tt).
Proof. vm_compute. exact I. Qed.

(** tests/rem.rs:155 *)
Example test_rem_assign_by_big_zero_decimal : panics (
  v1 <- parsed D8 (bytes_of "39103919881210219921") ;;
  let n := v1 in
  n <- rem_assign (impl true D8) n ubig_zero ;;
  Ret tt).
Proof. vm_compute. exact I. Qed.

(** tests/rem.rs:164 *)
Example test_rem_digit_binary : passes (
  v1 <- parsed B8 (bytes_of "0xe7691881761813f81a7") ;;
  v2 <- rem_v_T true B8 v1 135 ;;
  let n := v2 in
  v3 <- Ret (fmt_hex B8 false alternate n) ;; expect (same_bytes v3 (bytes_of "0x1")) ;;;
  v4 <- parsed B8 (bytes_of "0xe7691881761813f81a7") ;;
  v5 <- rem_v_T true B8 v4 1 ;;
  let n := v5 in
  v6 <- Ret (fmt_hex B8 false alternate n) ;; expect (same_bytes v6 (bytes_of "0x0")) ;;;
  v7 <- parsed B16 (bytes_of "0x3275ea9937d3dfe1543def144aaacf24") ;;
  v8 <- rem_v_T true B16 v7 62309 ;;
  let n := v8 in
  v9 <- Ret (fmt_hex B16 false alternate n) ;; expect (same_bytes v9 (bytes_of "0xdd93")) ;;;
  v10 <- parsed B32 (bytes_of "0x829ef171ac352f24a9dbb827c") ;;
  v11 <- rem_v_T true B32 v10 2274033217 ;;
  let n := v11 in
  v12 <- Ret (fmt_hex B32 false alternate n) ;; expect (same_bytes v12 (bytes_of "0x7acf340b")) ;;;
  v13 <- parsed B32 (bytes_of "0x829ef171") ;;
  v14 <- rem_v_T true B32 v13 2274033217 ;;
  let n := v14 in
  v15 <- Ret (fmt_hex B32 false alternate n) ;; expect (same_bytes v15 (bytes_of "0x829ef171")) ;;;
  v16 <- parsed B64 (bytes_of "0x829ef171f5353cf273828fd667372fd6242ade1983ddfffe") ;;
  v17 <- rem_v_T true B64 v16 9366996259809777462 ;;
  let n := v17 in
  v18 <- Ret (fmt_hex B64 false alternate n) ;; expect (same_bytes v18 (bytes_of "0x6e5c25b8c68d5924")) ;;;
  Ret tt).
Proof. vm_compute. exact I. Qed.

(** tests/rem.rs:186 *)
Example test_rem_digit_decimal : passes (
  v1 <- parsed D8 (bytes_of "9002219982873646582917") ;;
  v2 <- rem_v_T true D8 v1 87 ;;
  let n := v2 in
  v3 <- Ret (fmt_display_dec D8 plain n) ;; expect (same_bytes v3 (bytes_of "9")) ;;;
  v4 <- parsed D8 (bytes_of "9002219982873646582917") ;;
  v5 <- rem_v_T true D8 v4 1 ;;
  let n := v5 in
  v6 <- Ret (fmt_display_dec D8 plain n) ;; expect (same_bytes v6 (bytes_of "0")) ;;;
  v7 <- parsed D8 (bytes_of "9002219982873646582917") ;;
  v8 <- rem_v_T true D8 v7 123 ;;
  let n := v8 in
  v9 <- Ret (fmt_display_dec D8 plain n) ;; expect (same_bytes v9 (bytes_of "54")) ;;;
  v10 <- parsed D16 (bytes_of "90022199828736465829179002219982873646582917") ;;
  v11 <- rem_v_T true D16 v10 8345 ;;
  let n := v11 in
  v12 <- Ret (fmt_display_dec D16 plain n) ;; expect (same_bytes v12 (bytes_of "5572")) ;;;
  v13 <- parsed D32 (bytes_of "93081309173747392873837475872") ;;
  v14 <- rem_v_T true D32 v13 91829892 ;;
  let n := v14 in
  v15 <- Ret (fmt_display_dec D32 plain n) ;; expect (same_bytes v15 (bytes_of "60882064")) ;;;
  v16 <- parsed D32 (bytes_of "93081309173747392873837475872") ;;
  v17 <- rem_v_T true D32 v16 2891829892 ;;
  let n := v17 in
  v18 <- Ret (fmt_display_dec D32 plain n) ;; expect (same_bytes v18 (bytes_of "1116936868")) ;;;
  v19 <- parsed D32 (bytes_of "982198881") ;;
  v20 <- rem_v_T true D32 v19 982198882 ;;
  let n := v20 in
  v21 <- Ret (fmt_display_dec D32 plain n) ;; expect (same_bytes v21 (bytes_of "982198881")) ;;;
  v22 <- parsed D64 (bytes_of "498274927462984759874294867203710386146272569189313981") ;;
  v23 <- rem_v_T true D64 v22 3958234847986999123 ;;
  let n := v23 in
  v24 <- Ret (fmt_display_dec D64 plain n) ;; expect (same_bytes v24 (bytes_of "864138130113784515")) ;;;
  Ret tt).
Proof. vm_compute. exact I. Qed.

(** tests/rem.rs:214 *)
Example test_rem_by_digit_zero_binary : panics (
  v1 <- parsed B8 (bytes_of "0xe7691881761813f81a7") ;;
  v2 <- rem_v_T true B8 v1 0 ;;
  let _n := v2 in
  Ret tt).
Proof. vm_compute. exact I. Qed.

(** tests/rem.rs:221 *)
Example test_rem_by_digit_zero_decimal : panics (
  v1 <- parsed D8 (bytes_of "39103919881210219921") ;;
  v2 <- rem_v_T true D8 v1 0 ;;
  let _n := v2 in
  Ret tt).
Proof. vm_compute. exact I. Qed.

(** tests/rem.rs:228 *)
Example test_rem_big_binary : passes (
  v1 <- parsed B8 (bytes_of "0x272fddae3514e1414ffe52717dfe717") ;;
  let n := v1 in
  v2 <- parsed B8 (bytes_of "0xffe72718933fe9") ;;
  let m := v2 in
  v3 <- rem_vv (impl true B8) n m ;;
  let r := v3 in
  v4 <- Ret (fmt_hex B8 false alternate r) ;; expect (same_bytes v4 (bytes_of "0xa612ddc004b82c")) ;;;
  v5 <- parsed B16 (bytes_of "0x30177230ab15e5d8ae22f6ab1e8ed7d") ;;
  let n := v5 in
  v6 <- parsed B16 (bytes_of "0x3728289281") ;;
  let m := v6 in
  v7 <- rem_vv (impl true B16) n m ;;
  let r := v7 in
  v8 <- Ret (fmt_hex B16 false alternate r) ;; expect (same_bytes v8 (bytes_of "0x0")) ;;;
  v9 <- parsed B32 (bytes_of "0x30177230a30177230ab15e5d8ae22f6ab1e8ed7db15e5d8ae22f6ab1e8ed7d") ;;
  let n := v9 in
  v10 <- parsed B32 (bytes_of "0x368dff2535ddf342462efefff34") ;;
  let m := v10 in
  v11 <- rem_vv (impl true B32) n m ;;
  let r := v11 in
  v12 <- Ret (fmt_hex B32 false alternate r) ;; expect (same_bytes v12 (bytes_of "0x82046ee442d49005bc6bb70529")) ;;;
  v13 <- parsed B64 (bytes_of "0x30177230a30177230ab15e6d8ae22f6ab1e8ed7db15e5d8ae22f6ab1e8ed7d") ;;
  let n := v13 in
  v14 <- parsed B64 (bytes_of "0x368dff2535d4676dfefe646efdf342552efefff34") ;;
  let m := v14 in
  v15 <- rem_vv (impl true B64) n m ;;
  let r := v15 in
  v16 <- Ret (fmt_hex B64 false alternate r) ;; expect (same_bytes v16 (bytes_of "0xbb68f67da829880d3695b52744a1227fcf93a95d")) ;;;
  Ret tt).
Proof. vm_compute. exact I. Qed.

(** tests/rem.rs:252 *)
Example test_rem_big_decimal : passes (
  v1 <- parsed D8 (bytes_of "7849374978203198420749827429") ;;
  let n := v1 in
  v2 <- parsed D8 (bytes_of "274097309742780") ;;
  let m := v2 in
  v3 <- rem_vv (impl true D8) n m ;;
  let r := v3 in
  v4 <- Ret (fmt_display_dec D8 plain r) ;; expect (same_bytes v4 (bytes_of "147172302973209")) ;;;
  v5 <- parsed D16 (bytes_of "77427309730270207042742749648729740935793246297832") ;;
  let n := v5 in
  v6 <- parsed D16 (bytes_of "972498704274092492174970279") ;;
  let m := v6 in
  v7 <- rem_vv (impl true D16) n m ;;
  let r := v7 in
  v8 <- Ret (fmt_display_dec D16 plain r) ;; expect (same_bytes v8 (bytes_of "95061865451716395454014970")) ;;;
  v9 <- parsed D32 (bytes_of "457787921314029600398699209789811884151080151838812560337357067840") ;;
  let n := v9 in
  v10 <- parsed D32 (bytes_of "48274807097205970972097520") ;;
  let m := v10 in
  v11 <- rem_vv (impl true D32) n m ;;
  let r := v11 in
  v12 <- Ret (fmt_display_dec D32 plain r) ;; expect (same_bytes v12 (bytes_of "0")) ;;;
  v13 <- parsed D64 (bytes_of "409274097205720582757338649279470129742085692846502857029472095729856928") ;;
  let n := v13 in
  v14 <- parsed D64 (bytes_of "924874928740274085620847057805692759326592") ;;
  let m := v14 in
  v15 <- rem_vv (impl true D64) n m ;;
  let r := v15 in
  v16 <- Ret (fmt_display_dec D64 plain r) ;; expect (same_bytes v16 (bytes_of "579494661511233909925933152107839265085216")) ;;;
  Ret tt).
Proof. vm_compute. exact I. Qed.

(** tests/rem.rs:276 *)
Example test_rem_by_big_zero_binary : panics (
  v1 <- parsed B32 (bytes_of "0xe7691881761813f81a7") ;;
  v2 <- rem_vv (impl true B32) v1 ubig_zero ;;
  let _n := v2 in
  Ret tt).
Proof. vm_compute. exact I. Qed.

(** tests/rem.rs:283 *)
Example test_rem_by_big_zero_decimal : panics (
  v1 <- parsed D64 (bytes_of "39103919881210219921") ;;
  v2 <- rem_vv (impl true D64) v1 ubig_zero ;;
  let _n := v2 in
  Ret tt).
Proof. vm_compute. exact I. Qed.

(** ** tests/shl.rs *)

(** tests/shl.rs:19 *)
Example test_shl_assign_binary : passes (
  let n := ubig_zero in
  n <- shl_assign true B32 n 15 ;;
  v1 <- Ret (fmt_hex B32 false alternate n) ;; expect (same_bytes v1 (bytes_of "0x0")) ;;;
  v2 <- parsed B32 (bytes_of "0x71919fc729e01f34d132") ;;
  let n := v2 in
  n <- shl_assign true B32 n 15 ;;
  v3 <- Ret (fmt_hex B32 false alternate n) ;; expect (same_bytes v3 (bytes_of "0x38c8cfe394f00f9a68990000")) ;;;
  v4 <- parsed B32 (bytes_of "0x71919fc729e01f34d132") ;;
  let n := v4 in
  n <- shl_assign true B32 n 73 ;;
  v5 <- Ret (fmt_hex B32 false alternate n) ;; expect (same_bytes v5 (bytes_of "0xe3233f8e53c03e69a264000000000000000000")) ;;;
  v6 <- parsed B32 (bytes_of "0x71919fc729e01f34d132") ;;
  let n := v6 in
  n <- shl_assign true B32 n 0 ;;
  v7 <- Ret (fmt_hex B32 false alternate n) ;; expect (same_bytes v7 (bytes_of "0x71919fc729e01f34d132")) ;;;
  v8 <- parsed B32 (bytes_of "0xfffffffffffffffffffffffffffffffffffffffffff") ;;
  let n := v8 in
  n <- shl_assign true B32 n 128 ;;
  v9 <- Ret (fmt_hex B32 false alternate n) ;; expect (same_bytes v9 (bytes_of "0xfffffffffffffffffffffffffffffffffffffffffff00000000000000000000000000000000")) ;;;
  v10 <- parsed B64 (bytes_of "0x71919fc729e01f34d132") ;;
  let n := v10 in
  n <- shl_assign true B64 n 73 ;;
  v11 <- Ret (fmt_hex B64 false alternate n) ;; expect (same_bytes v11 (bytes_of "0xe3233f8e53c03e69a264000000000000000000")) ;;;
  v12 <- parsed B64 (bytes_of "0xfffffffffffffffffffffffffffffffffffffffffff") ;;
  let n := v12 in
  n <- shl_assign true B64 n 128 ;;
  v13 <- Ret (fmt_hex B64 false alternate n) ;; expect (same_bytes v13 (bytes_of "0xfffffffffffffffffffffffffffffffffffffffffff00000000000000000000000000000000")) ;;;
  v14 <- parsed B64 (bytes_of "0xfffffffffffffffffffffffffffffffffffffffffff") ;;
  let n := v14 in
  n <- shl_assign true B64 n 0 ;;
  v15 <- Ret (fmt_hex B64 false alternate n) ;; expect (same_bytes v15 (bytes_of "0xfffffffffffffffffffffffffffffffffffffffffff")) ;;;
  Ret tt).
Proof. vm_compute. exact I. Qed.

(** tests/shl.rs:55 *)
Example test_shl_assign_decimal : passes (
  let n := ubig_zero in
  n <- shl_assign true D32 n 15 ;;
  v1 <- Ret (fmt_display_dec D32 plain n) ;; expect (same_bytes v1 (bytes_of "0")) ;;;
  v2 <- parsed D32 (bytes_of "71919437299019348132") ;;
  let n := v2 in
  n <- shl_assign true D32 n 15 ;;
  v3 <- Ret (fmt_display_dec D32 plain n) ;; expect (same_bytes v3 (bytes_of "2356656121414265999589376")) ;;;
  v4 <- parsed D32 (bytes_of "71919437299019348132") ;;
  let n := v4 in
  n <- shl_assign true D32 n 73 ;;
  v5 <- Ret (fmt_display_dec D32 plain n) ;; expect (same_bytes v5 (bytes_of "679259880335467951013695731362983516831744")) ;;;
  v6 <- parsed D32 (bytes_of "71919437299019348132") ;;
  let n := v6 in
  n <- shl_assign true D32 n 0 ;;
  v7 <- Ret (fmt_display_dec D32 plain n) ;; expect (same_bytes v7 (bytes_of "71919437299019348132")) ;;;
  v8 <- parsed D32 (bytes_of "999999999999999999999999999999999999999") ;;
  let n := v8 in
  n <- shl_assign true D32 n 128 ;;
  v9 <- Ret (fmt_display_dec D32 plain n) ;; expect (same_bytes v9 (bytes_of "340282366920938463463374607431768211455659717633079061536536625392568231788544")) ;;;
  v10 <- parsed D64 (bytes_of "71919437299019348132") ;;
  let n := v10 in
  n <- shl_assign true D64 n 73 ;;
  v11 <- Ret (fmt_display_dec D64 plain n) ;; expect (same_bytes v11 (bytes_of "679259880335467951013695731362983516831744")) ;;;
  v12 <- parsed D64 (bytes_of "71919437299019348132") ;;
  let n := v12 in
  n <- shl_assign true D64 n 0 ;;
  v13 <- Ret (fmt_display_dec D64 plain n) ;; expect (same_bytes v13 (bytes_of "71919437299019348132")) ;;;
  v14 <- parsed D64 (bytes_of "999999999999999999999999999999999999999") ;;
  let n := v14 in
  n <- shl_assign true D64 n 128 ;;
  v15 <- Ret (fmt_display_dec D64 plain n) ;; expect (same_bytes v15 (bytes_of "340282366920938463463374607431768211455659717633079061536536625392568231788544")) ;;;
  Ret tt).
Proof. vm_compute. exact I. Qed.

(** tests/shl.rs:91 *)
Example test_shl_binary : passes (
  v1 <- shl_v true B32 ubig_zero 15 ;;
  let n := v1 in
  v2 <- Ret (fmt_hex B32 false alternate n) ;; expect (same_bytes v2 (bytes_of "0x0")) ;;;
  v3 <- parsed B32 (bytes_of "0x71919fc729e01f34d132") ;;
  v4 <- shl_v true B32 v3 15 ;;
  let n := v4 in
  v5 <- Ret (fmt_hex B32 false alternate n) ;; expect (same_bytes v5 (bytes_of "0x38c8cfe394f00f9a68990000")) ;;;
  v6 <- parsed B32 (bytes_of "0x71919fc729e01f34d132") ;;
  v7 <- shl_v true B32 v6 73 ;;
  let n := v7 in
  v8 <- Ret (fmt_hex B32 false alternate n) ;; expect (same_bytes v8 (bytes_of "0xe3233f8e53c03e69a264000000000000000000")) ;;;
  v9 <- parsed B32 (bytes_of "0x71919fc729e01f34d132") ;;
  v10 <- shl_v true B32 v9 0 ;;
  let n := v10 in
  v11 <- Ret (fmt_hex B32 false alternate n) ;; expect (same_bytes v11 (bytes_of "0x71919fc729e01f34d132")) ;;;
  v12 <- parsed B32 (bytes_of "0xfffffffffffffffffffffffffffffffffffffffffff") ;;
  v13 <- shl_v true B32 v12 128 ;;
  let n := v13 in
  v14 <- Ret (fmt_hex B32 false alternate n) ;; expect (same_bytes v14 (bytes_of "0xfffffffffffffffffffffffffffffffffffffffffff00000000000000000000000000000000")) ;;;
  v15 <- parsed B64 (bytes_of "0x71919fc729e01f34d132") ;;
  v16 <- shl_v true B64 v15 73 ;;
  let n := v16 in
  v17 <- Ret (fmt_hex B64 false alternate n) ;; expect (same_bytes v17 (bytes_of "0xe3233f8e53c03e69a264000000000000000000")) ;;;
  v18 <- parsed B64 (bytes_of "0x71919fc729e01f34d132") ;;
  v19 <- shl_v true B64 v18 0 ;;
  let n := v19 in
  v20 <- Ret (fmt_hex B64 false alternate n) ;; expect (same_bytes v20 (bytes_of "0x71919fc729e01f34d132")) ;;;
  v21 <- parsed B64 (bytes_of "0xfffffffffffffffffffffffffffffffffffffffffff") ;;
  v22 <- shl_v true B64 v21 128 ;;
  let n := v22 in
  v23 <- Ret (fmt_hex B64 false alternate n) ;; expect (same_bytes v23 (bytes_of "0xfffffffffffffffffffffffffffffffffffffffffff00000000000000000000000000000000")) ;;;
  Ret tt).
Proof. vm_compute. exact I. Qed.

(** tests/shl.rs:119 *)
Example test_shl_decimal : passes (
  v1 <- shl_v true D32 ubig_zero 15 ;;
  let n := v1 in
  v2 <- Ret (fmt_display_dec D32 plain n) ;; expect (same_bytes v2 (bytes_of "0")) ;;;
  v3 <- parsed D32 (bytes_of "71919437299019348132") ;;
  v4 <- shl_v true D32 v3 15 ;;
  let n := v4 in
  v5 <- Ret (fmt_display_dec D32 plain n) ;; expect (same_bytes v5 (bytes_of "2356656121414265999589376")) ;;;
  v6 <- parsed D32 (bytes_of "71919437299019348132") ;;
  v7 <- shl_v true D32 v6 73 ;;
  let n := v7 in
  v8 <- Ret (fmt_display_dec D32 plain n) ;; expect (same_bytes v8 (bytes_of "679259880335467951013695731362983516831744")) ;;;
  v9 <- parsed D32 (bytes_of "71919437299019348132") ;;
  v10 <- shl_v true D32 v9 0 ;;
  let n := v10 in
  v11 <- Ret (fmt_display_dec D32 plain n) ;; expect (same_bytes v11 (bytes_of "71919437299019348132")) ;;;
  v12 <- parsed D32 (bytes_of "999999999999999999999999999999999999999") ;;
  v13 <- shl_v true D32 v12 128 ;;
  let n := v13 in
  v14 <- Ret (fmt_display_dec D32 plain n) ;; expect (same_bytes v14 (bytes_of "340282366920938463463374607431768211455659717633079061536536625392568231788544")) ;;;
  v15 <- parsed D64 (bytes_of "71919437299019348132") ;;
  v16 <- shl_v true D64 v15 73 ;;
  let n := v16 in
  v17 <- Ret (fmt_display_dec D64 plain n) ;; expect (same_bytes v17 (bytes_of "679259880335467951013695731362983516831744")) ;;;
  v18 <- parsed D64 (bytes_of "71919437299019348132") ;;
  v19 <- shl_v true D64 v18 0 ;;
  let n := v19 in
  v20 <- Ret (fmt_display_dec D64 plain n) ;; expect (same_bytes v20 (bytes_of "71919437299019348132")) ;;;
  v21 <- parsed D64 (bytes_of "999999999999999999999999999999999999999") ;;
  v22 <- shl_v true D64 v21 128 ;;
  let n := v22 in
  v23 <- Ret (fmt_display_dec D64 plain n) ;; expect (same_bytes v23 (bytes_of "340282366920938463463374607431768211455659717633079061536536625392568231788544")) ;;;
  Ret tt).
Proof. vm_compute. exact I. Qed.

(** ** tests/shr.rs *)

(** tests/shr.rs:19 *)
Example test_shr_assign_binary : passes (
  let n := ubig_zero in
  n <- shr_assign true B32 n 15 ;;
  v1 <- Ret (fmt_hex B32 false alternate n) ;; expect (same_bytes v1 (bytes_of "0x0")) ;;;
  v2 <- parsed B32 (bytes_of "0x71919fc729e01f34d132") ;;
  let n := v2 in
  n <- shr_assign true B32 n 15 ;;
  v3 <- Ret (fmt_hex B32 false alternate n) ;; expect (same_bytes v3 (bytes_of "0xe3233f8e53c03e69")) ;;;
  v4 <- parsed B32 (bytes_of "0x71919fc729e01f34d132") ;;
  let n := v4 in
  n <- shr_assign true B32 n 73 ;;
  v5 <- Ret (fmt_hex B32 false alternate n) ;; expect (same_bytes v5 (bytes_of "0x38")) ;;;
  v6 <- parsed B32 (bytes_of "0x71919fc729e01f34d132") ;;
  let n := v6 in
  n <- shr_assign true B32 n 82 ;;
  v7 <- Ret (fmt_hex B32 false alternate n) ;; expect (same_bytes v7 (bytes_of "0x0")) ;;;
  v8 <- parsed B32 (bytes_of "0x71919fc729e01f34d132") ;;
  let n := v8 in
  n <- shr_assign true B32 n 0 ;;
  v9 <- Ret (fmt_hex B32 false alternate n) ;; expect (same_bytes v9 (bytes_of "0x71919fc729e01f34d132")) ;;;
  v10 <- parsed B32 (bytes_of "0xfffffffffffffffffffffffffffffffffffffffffff") ;;
  let n := v10 in
  n <- shr_assign true B32 n 128 ;;
  v11 <- Ret (fmt_hex B32 false alternate n) ;; expect (same_bytes v11 (bytes_of "0xfffffffffff")) ;;;
  v12 <- parsed B64 (bytes_of "0x71919fc729e01f34d132") ;;
  let n := v12 in
  n <- shr_assign true B64 n 0 ;;
  v13 <- Ret (fmt_hex B64 false alternate n) ;; expect (same_bytes v13 (bytes_of "0x71919fc729e01f34d132")) ;;;
  v14 <- parsed B64 (bytes_of "0xfffffffffffffffffffffffffffffffffffffffffff") ;;
  let n := v14 in
  n <- shr_assign true B64 n 128 ;;
  v15 <- Ret (fmt_hex B64 false alternate n) ;; expect (same_bytes v15 (bytes_of "0xfffffffffff")) ;;;
  Ret tt).
Proof. vm_compute. exact I. Qed.

(** tests/shr.rs:55 *)
Example test_shr_binary : passes (
  v1 <- shr_v true B32 ubig_zero 15 ;;
  let n := v1 in
  v2 <- Ret (fmt_hex B32 false alternate n) ;; expect (same_bytes v2 (bytes_of "0x0")) ;;;
  v3 <- parsed B32 (bytes_of "0x71919fc729e01f34d132") ;;
  v4 <- shr_v true B32 v3 15 ;;
  let n := v4 in
  v5 <- Ret (fmt_hex B32 false alternate n) ;; expect (same_bytes v5 (bytes_of "0xe3233f8e53c03e69")) ;;;
  v6 <- parsed B32 (bytes_of "0x71919fc729e01f34d132") ;;
  v7 <- shr_v true B32 v6 73 ;;
  let n := v7 in
  v8 <- Ret (fmt_hex B32 false alternate n) ;; expect (same_bytes v8 (bytes_of "0x38")) ;;;
  v9 <- parsed B32 (bytes_of "0x71919fc729e01f34d132") ;;
  v10 <- shr_v true B32 v9 0 ;;
  let n := v10 in
  v11 <- Ret (fmt_hex B32 false alternate n) ;; expect (same_bytes v11 (bytes_of "0x71919fc729e01f34d132")) ;;;
  v12 <- parsed B32 (bytes_of "0x71919fc729e01f34d132") ;;
  v13 <- shr_v true B32 v12 82 ;;
  let n := v13 in
  v14 <- Ret (fmt_hex B32 false alternate n) ;; expect (same_bytes v14 (bytes_of "0x0")) ;;;
  v15 <- parsed B32 (bytes_of "0xfffffffffffffffffffffffffffffffffffffffffff") ;;
  v16 <- shr_v true B32 v15 128 ;;
  let n := v16 in
  v17 <- Ret (fmt_hex B32 false alternate n) ;; expect (same_bytes v17 (bytes_of "0xfffffffffff")) ;;;
  v18 <- parsed B64 (bytes_of "0x71919fc729e01f34d132") ;;
  v19 <- shr_v true B64 v18 73 ;;
  let n := v19 in
  v20 <- Ret (fmt_hex B64 false alternate n) ;; expect (same_bytes v20 (bytes_of "0x38")) ;;;
  v21 <- parsed B64 (bytes_of "0x71919fc729e01f34d132") ;;
  v22 <- shr_v true B64 v21 0 ;;
  let n := v22 in
  v23 <- Ret (fmt_hex B64 false alternate n) ;; expect (same_bytes v23 (bytes_of "0x71919fc729e01f34d132")) ;;;
  v24 <- parsed B64 (bytes_of "0xfffffffffffffffffffffffffffffffffffffffffff") ;;
  v25 <- shr_v true B64 v24 128 ;;
  let n := v25 in
  v26 <- Ret (fmt_hex B64 false alternate n) ;; expect (same_bytes v26 (bytes_of "0xfffffffffff")) ;;;
  Ret tt).
Proof. vm_compute. exact I. Qed.

(** ** tests/square.rs *)

(** tests/square.rs:18 *)
Example test_square_binary : passes (
  v1 <- parsed B8 (bytes_of "0xaabbccddeeff00998877665544332211") ;;
  let n := v1 in
  v2 <- square (impl true B8) n ;;
  let nsq := v2 in
  v3 <- Ret (fmt_hex B8 false alternate nsq) ;; expect (same_bytes v3 (bytes_of "0x71ddf5dbb1984aa3b5e6d00c54005c14678e40e5e3a082ccd7135f999f4e8521")) ;;;
  v4 <- parsed B32 (bytes_of "0x8782defe72928faed45543232223fd298743fdfe6282d35ef256ffff3282912ff") ;;
  let n := v4 in
  v5 <- square (impl true B32) n ;;
  let nsq := v5 in
  v6 <- Ret (fmt_hex B32 false alternate nsq) ;; expect (same_bytes v6 (bytes_of "0x47bb4a1799813c0210d0c678607db42588d651f6cec650ad64d352b37679c705a8e52595f01d20c894af36365da1d27f656f0580369a9412354740eea0c716da01")) ;;;
  v7 <- parsed B64 (bytes_of "0x8782defe72928faed45543232223fd298743fdfe6282d35ef256ffff3282912ff") ;;
  let n := v7 in
  v8 <- square (impl true B64) n ;;
  let nsq := v8 in
  v9 <- Ret (fmt_hex B64 false alternate nsq) ;; expect (same_bytes v9 (bytes_of "0x47bb4a1799813c0210d0c678607db42588d651f6cec650ad64d352b37679c705a8e52595f01d20c894af36365da1d27f656f0580369a9412354740eea0c716da01")) ;;;
  v10 <- parsed B8 (bytes_of "0xfffffffffffffffffffffffffffffffffffffffffffffffffffffffffffffffffffffffffffffffffffffff") ;;
  let n := v10 in
  v11 <- square (impl true B8) n ;;
  let nsq := v11 in
  v12 <- Ret (fmt_hex B8 false alternate nsq) ;; expect (same_bytes v12 (bytes_of "0xffffffffffffffffffffffffffffffffffffffffffffffffffffffffffffffffffffffffffffffffffffffe000000000000000000000000000000000000000000000000000000000000000000000000000000000000001")) ;;;
  v13 <- parsed B64 (bytes_of "0xfffffffffffffffffffffffffffffffffffffffffffffffffffffffffffffffffffffffffffffffffffffff") ;;
  let n := v13 in
  v14 <- square (impl true B64) n ;;
  let nsq := v14 in
  v15 <- Ret (fmt_hex B64 false alternate nsq) ;; expect (same_bytes v15 (bytes_of "0xffffffffffffffffffffffffffffffffffffffffffffffffffffffffffffffffffffffffffffffffffffffe000000000000000000000000000000000000000000000000000000000000000000000000000000000000001")) ;;;
  Ret tt).
Proof. vm_compute. exact I. Qed.

(** tests/square.rs:42 *)
Example test_square_decimal : passes (
  v1 <- parsed D8 (bytes_of "90727377009702372093809109273071309") ;;
  let n := v1 in
  v2 <- square (impl true D8) n ;;
  let nsq := v2 in
  v3 <- Ret (fmt_display_dec D8 plain nsq) ;; expect (same_bytes v3 (bytes_of "8231456939060670541592732870350998958165109827496929456075301798973481")) ;;;
  v4 <- parsed D32 (bytes_of "93930273848473992847564646555552735478998990939373836272") ;;
  let n := v4 in
  v5 <- square (impl true D32) n ;;
  let nsq := v5 in
  v6 <- Ret (fmt_display_dec D32 plain nsq) ;; expect (same_bytes v6 (bytes_of "8822896345249317283051705810912339219361910538931465262594904474090285837738020601641946335849934832374262857984")) ;;;
  v7 <- parsed D64 (bytes_of "3290847429837828822896345249317283051705810912339219361910538931465262594904474090285837738020601641946335849934832374262857984") ;;
  let n := v7 in
  v8 <- square (impl true D64) n ;;
  let nsq := v8 in
  v9 <- Ret (fmt_display_dec D64 plain nsq) ;; expect (same_bytes v9 (bytes_of "10829676806470243697243025330900165325427709743339480433570580434846912014896850953531952081670526694872997116697146897578279823010880330068960918790299855167047725234049466035765365196628178125021675079324727934964042656069974880069014484242351752544256")) ;;;
  v10 <- parsed D8 (bytes_of "999999999999999999999999999999999999999999999999999999999999999999999999999999999999") ;;
  let n := v10 in
  v11 <- square (impl true D8) n ;;
  let nsq := v11 in
  v12 <- Ret (fmt_display_dec D8 plain nsq) ;; expect (same_bytes v12 (bytes_of "999999999999999999999999999999999999999999999999999999999999999999999999999999999998000000000000000000000000000000000000000000000000000000000000000000000000000000000001")) ;;;
  v13 <- parsed D64 (bytes_of "999999999999999999999999999999999999999999999999999999999999999999999999999999999999") ;;
  let n := v13 in
  v14 <- square (impl true D64) n ;;
  let nsq := v14 in
  v15 <- Ret (fmt_display_dec D64 plain nsq) ;; expect (same_bytes v15 (bytes_of "999999999999999999999999999999999999999999999999999999999999999999999999999999999998000000000000000000000000000000000000000000000000000000000000000000000000000000000001")) ;;;
  Ret tt).
Proof. vm_compute. exact I. Qed.

(** ** tests/sub.rs *)

(** tests/sub.rs:19 *)
Example test_sub_assign_digit_binary : passes (
  v1 <- parsed B32 (bytes_of "0x32") ;;
  let n := v1 in
  n <- sub_assign_T true B32 n 0 ;;
  v2 <- Ret (fmt_hex B32 false alternate n) ;; expect (same_bytes v2 (bytes_of "0x32")) ;;;
  v3 <- parsed B32 (bytes_of "0x112345677") ;;
  let n := v3 in
  n <- sub_assign_T true B32 n 4294967295 ;;
  v4 <- Ret (fmt_hex B32 false alternate n) ;; expect (same_bytes v4 (bytes_of "0x12345678")) ;;;
  v5 <- parsed B32 (bytes_of "0x10000000000000000") ;;
  let n := v5 in
  n <- sub_assign_T true B32 n 1 ;;
  v6 <- Ret (fmt_hex B32 false alternate n) ;; expect (same_bytes v6 (bytes_of "0xffffffffffffffff")) ;;;
  Ret tt).
Proof. vm_compute. exact I. Qed.

(** tests/sub.rs:35 *)
Example test_sub_assign_digit_binary_underflow : panics (
  v1 <- parsed B32 (bytes_of "0x32") ;;
  let n := v1 in
  n <- sub_assign_T true B32 n 100 ;;
  Ret tt).
Proof. vm_compute. exact I. Qed.

(** tests/sub.rs:43 *)
Example test_sub_assign_digit_decimal : passes (
  v1 <- parsed D32 (bytes_of "101") ;;
  let n := v1 in
  n <- sub_assign_T true D32 n 0 ;;
  v2 <- Ret (fmt_display_dec D32 plain n) ;; expect (same_bytes v2 (bytes_of "101")) ;;;
  v3 <- parsed D32 (bytes_of "2000000000") ;;
  let n := v3 in
  n <- sub_assign_T true D32 n 2000000000 ;;
  v4 <- Ret (fmt_display_dec D32 plain n) ;; expect (same_bytes v4 (bytes_of "0")) ;;;
  v5 <- parsed D32 (bytes_of "4418424084") ;;
  let n := v5 in
  n <- sub_assign_T true D32 n 4294967295 ;;
  v6 <- Ret (fmt_display_dec D32 plain n) ;; expect (same_bytes v6 (bytes_of "123456789")) ;;;
  v7 <- parsed D32 (bytes_of "1000000000000000000") ;;
  let n := v7 in
  n <- sub_assign_T true D32 n 1 ;;
  v8 <- Ret (fmt_display_dec D32 plain n) ;; expect (same_bytes v8 (bytes_of "999999999999999999")) ;;;
  Ret tt).
Proof. vm_compute. exact I. Qed.

(** tests/sub.rs:63 *)
Example test_sub_assign_digit_decimal_underflow : panics (
  v1 <- parsed D32 (bytes_of "101") ;;
  let n := v1 in
  n <- sub_assign_T true D32 n 1003 ;;
  Ret tt).
Proof. vm_compute. exact I. Qed.

(** tests/sub.rs:71 *)
Example test_sub_digit_binary : passes (
  v1 <- parsed B32 (bytes_of "0x32") ;;
  v2 <- sub_v_T true B32 v1 0 ;;
  let n := v2 in
  v3 <- Ret (fmt_hex B32 false alternate n) ;; expect (same_bytes v3 (bytes_of "0x32")) ;;;
  v4 <- parsed B32 (bytes_of "0x112345677") ;;
  v5 <- sub_v_T true B32 v4 4294967295 ;;
  let n := v5 in
  v6 <- Ret (fmt_hex B32 false alternate n) ;; expect (same_bytes v6 (bytes_of "0x12345678")) ;;;
  v7 <- parsed B32 (bytes_of "0x10000000000000000") ;;
  v8 <- sub_v_T true B32 v7 1 ;;
  let n := v8 in
  v9 <- Ret (fmt_hex B32 false alternate n) ;; expect (same_bytes v9 (bytes_of "0xffffffffffffffff")) ;;;
  Ret tt).
Proof. vm_compute. exact I. Qed.

(** tests/sub.rs:84 *)
Example test_sub_digit_binary_underflow : panics (
  v1 <- parsed B32 (bytes_of "0x32") ;;
  v2 <- sub_v_T true B32 v1 100 ;;
  let _n := v2 in
  Ret tt).
Proof. vm_compute. exact I. Qed.

(** tests/sub.rs:91 *)
Example test_sub_digit_decimal : passes (
  v1 <- parsed D32 (bytes_of "101") ;;
  v2 <- sub_v_T true D32 v1 0 ;;
  let n := v2 in
  v3 <- Ret (fmt_display_dec D32 plain n) ;; expect (same_bytes v3 (bytes_of "101")) ;;;
  v4 <- parsed D32 (bytes_of "2000000000") ;;
  v5 <- sub_v_T true D32 v4 2000000000 ;;
  let n := v5 in
  v6 <- Ret (fmt_display_dec D32 plain n) ;; expect (same_bytes v6 (bytes_of "0")) ;;;
  v7 <- parsed D32 (bytes_of "4418424084") ;;
  v8 <- sub_v_T true D32 v7 4294967295 ;;
  let n := v8 in
  v9 <- Ret (fmt_display_dec D32 plain n) ;; expect (same_bytes v9 (bytes_of "123456789")) ;;;
  v10 <- parsed D32 (bytes_of "1000000000000000000") ;;
  v11 <- sub_v_T true D32 v10 1 ;;
  let n := v11 in
  v12 <- Ret (fmt_display_dec D32 plain n) ;; expect (same_bytes v12 (bytes_of "999999999999999999")) ;;;
  Ret tt).
Proof. vm_compute. exact I. Qed.

(** tests/sub.rs:107 *)
Example test_sub_digit_decimal_underflow : panics (
  v1 <- parsed D32 (bytes_of "101") ;;
  v2 <- sub_v_T true D32 v1 1003 ;;
  let _n := v2 in
  Ret tt).
Proof. vm_compute. exact I. Qed.

(** tests/sub.rs:114 *)
Example test_sub_assign_big_binary : passes (
  let n := ubig_zero in
  n <- sub_assign (impl true B32) n ubig_zero ;;
  v1 <- Ret (fmt_hex B32 false alternate n) ;; expect (same_bytes v1 (bytes_of "0x0")) ;;;
  v2 <- parsed B32 (bytes_of "0x99999999") ;;
  let n := v2 in
  v3 <- parsed B32 (bytes_of "0x87654321") ;;
  n <- sub_assign (impl true B32) n v3 ;;
  v4 <- Ret (fmt_hex B32 false alternate n) ;; expect (same_bytes v4 (bytes_of "0x12345678")) ;;;
  v5 <- parsed B32 (bytes_of "0x1234567918111110") ;;
  let n := v5 in
  v6 <- parsed B32 (bytes_of "0x87654321") ;;
  n <- sub_assign (impl true B32) n v6 ;;
  v7 <- Ret (fmt_hex B32 false alternate n) ;; expect (same_bytes v7 (bytes_of "0x1234567890abcdef")) ;;;
  v8 <- parsed B32 (bytes_of "0x1234567918111110") ;;
  let n := v8 in
  v9 <- parsed B32 (bytes_of "0x1234567890abcdef") ;;
  n <- sub_assign (impl true B32) n v9 ;;
  v10 <- Ret (fmt_hex B32 false alternate n) ;; expect (same_bytes v10 (bytes_of "0x87654321")) ;;;
  v11 <- parsed B32 (bytes_of "0x10000000000000009") ;;
  let n := v11 in
  v12 <- parsed B32 (bytes_of "0xa") ;;
  n <- sub_assign (impl true B32) n v12 ;;
  v13 <- Ret (fmt_hex B32 false alternate n) ;; expect (same_bytes v13 (bytes_of "0xffffffffffffffff")) ;;;
  Ret tt).
Proof. vm_compute. exact I. Qed.

(** tests/sub.rs:138 *)
Example test_sub_assign_big_binary_underflow : panics (
  v1 <- parsed B32 (bytes_of "0x1234567890123456") ;;
  let n := v1 in
  v2 <- parsed B32 (bytes_of "0x1234567890123457") ;;
  n <- sub_assign (impl true B32) n v2 ;;
  Ret tt).
Proof. vm_compute. exact I. Qed.

(** tests/sub.rs:146 *)
Example test_sub_assign_big_decimal : passes (
  let n := ubig_zero in
  n <- sub_assign (impl true D32) n ubig_zero ;;
  v1 <- Ret (fmt_display_dec D32 plain n) ;; expect (same_bytes v1 (bytes_of "0")) ;;;
  v2 <- parsed D32 (bytes_of "99999999") ;;
  let n := v2 in
  v3 <- parsed D32 (bytes_of "87654321") ;;
  n <- sub_assign (impl true D32) n v3 ;;
  v4 <- Ret (fmt_display_dec D32 plain n) ;; expect (same_bytes v4 (bytes_of "12345678")) ;;;
  v5 <- parsed D32 (bytes_of "1234567977777777") ;;
  let n := v5 in
  v6 <- parsed D32 (bytes_of "87654321") ;;
  n <- sub_assign (impl true D32) n v6 ;;
  v7 <- Ret (fmt_display_dec D32 plain n) ;; expect (same_bytes v7 (bytes_of "1234567890123456")) ;;;
  v8 <- parsed D32 (bytes_of "1234567977777777") ;;
  let n := v8 in
  v9 <- parsed D32 (bytes_of "1234567890123456") ;;
  n <- sub_assign (impl true D32) n v9 ;;
  v10 <- Ret (fmt_display_dec D32 plain n) ;; expect (same_bytes v10 (bytes_of "87654321")) ;;;
  v11 <- parsed D32 (bytes_of "1000000000000000009") ;;
  let n := v11 in
  v12 <- parsed D32 (bytes_of "10") ;;
  n <- sub_assign (impl true D32) n v12 ;;
  v13 <- Ret (fmt_display_dec D32 plain n) ;; expect (same_bytes v13 (bytes_of "999999999999999999")) ;;;
  Ret tt).
Proof. vm_compute. exact I. Qed.

(** tests/sub.rs:170 *)
Example test_sub_assign_big_decimal_underflow : panics (
  v1 <- parsed B32 (bytes_of "123456789012345678") ;;
  let n := v1 in
  v2 <- parsed B32 (bytes_of "123456789012345679") ;;
  n <- sub_assign (impl true B32) n v2 ;;
  Ret tt).
Proof. vm_compute. exact I. Qed.

(** tests/sub.rs:178 *)
Example test_sub_big_binary : passes (
  v1 <- sub_vv (impl true B32) ubig_zero ubig_zero ;;
  let n := v1 in
  v2 <- Ret (fmt_hex B32 false alternate n) ;; expect (same_bytes v2 (bytes_of "0x0")) ;;;
  v3 <- parsed B32 (bytes_of "0x99999999") ;;
  v4 <- parsed B32 (bytes_of "0x87654321") ;;
  v5 <- sub_vv (impl true B32) v3 v4 ;;
  let n := v5 in
  v6 <- Ret (fmt_hex B32 false alternate n) ;; expect (same_bytes v6 (bytes_of "0x12345678")) ;;;
  v7 <- parsed B32 (bytes_of "0x1234567918111110") ;;
  v8 <- parsed B32 (bytes_of "0x87654321") ;;
  v9 <- sub_vv (impl true B32) v7 v8 ;;
  let n := v9 in
  v10 <- Ret (fmt_hex B32 false alternate n) ;; expect (same_bytes v10 (bytes_of "0x1234567890abcdef")) ;;;
  v11 <- parsed B32 (bytes_of "0x1234567918111110") ;;
  v12 <- parsed B32 (bytes_of "0x1234567890abcdef") ;;
  v13 <- sub_vv (impl true B32) v11 v12 ;;
  let n := v13 in
  v14 <- Ret (fmt_hex B32 false alternate n) ;; expect (same_bytes v14 (bytes_of "0x87654321")) ;;;
  v15 <- parsed B32 (bytes_of "0x10000000000000009") ;;
  v16 <- parsed B32 (bytes_of "0xa") ;;
  v17 <- sub_vv (impl true B32) v15 v16 ;;
  let n := v17 in
  v18 <- Ret (fmt_hex B32 false alternate n) ;; expect (same_bytes v18 (bytes_of "0xffffffffffffffff")) ;;;
  Ret tt).
Proof. vm_compute. exact I. Qed.

(** tests/sub.rs:198 *)
Example test_sub_big_binary_underflow : panics (
  v1 <- parsed B32 (bytes_of "0x1234567890123456") ;;
  v2 <- parsed B32 (bytes_of "0x1234567890123457") ;;
  v3 <- sub_vv (impl true B32) v1 v2 ;;
  let _n := v3 in
  Ret tt).
Proof. vm_compute. exact I. Qed.

(** tests/sub.rs:206 *)
Example test_sub_big_decimal : passes (
  v1 <- sub_vv (impl true D32) ubig_zero ubig_zero ;;
  let n := v1 in
  v2 <- Ret (fmt_display_dec D32 plain n) ;; expect (same_bytes v2 (bytes_of "0")) ;;;
  v3 <- parsed D32 (bytes_of "99999999") ;;
  v4 <- parsed D32 (bytes_of "87654321") ;;
  v5 <- sub_vv (impl true D32) v3 v4 ;;
  let n := v5 in
  v6 <- Ret (fmt_display_dec D32 plain n) ;; expect (same_bytes v6 (bytes_of "12345678")) ;;;
  v7 <- parsed D32 (bytes_of "1234567977777777") ;;
  v8 <- parsed D32 (bytes_of "87654321") ;;
  v9 <- sub_vv (impl true D32) v7 v8 ;;
  let n := v9 in
  v10 <- Ret (fmt_display_dec D32 plain n) ;; expect (same_bytes v10 (bytes_of "1234567890123456")) ;;;
  v11 <- parsed D32 (bytes_of "1234567977777777") ;;
  v12 <- parsed D32 (bytes_of "1234567890123456") ;;
  v13 <- sub_vv (impl true D32) v11 v12 ;;
  let n := v13 in
  v14 <- Ret (fmt_display_dec D32 plain n) ;; expect (same_bytes v14 (bytes_of "87654321")) ;;;
  v15 <- parsed D32 (bytes_of "1000000000000000009") ;;
  v16 <- parsed D32 (bytes_of "10") ;;
  v17 <- sub_vv (impl true D32) v15 v16 ;;
  let n := v17 in
  v18 <- Ret (fmt_display_dec D32 plain n) ;; expect (same_bytes v18 (bytes_of "999999999999999999")) ;;;
  Ret tt).
Proof. vm_compute. exact I. Qed.

(** tests/sub.rs:226 *)
Example test_sub_big_decimal_underflow : panics (
  v1 <- parsed B32 (bytes_of "123456789012345678") ;;
  v2 <- parsed B32 (bytes_of "123456789012345679") ;;
  v3 <- sub_vv (impl true B32) v1 v2 ;;
  let _n := v3 in
  Ret tt).
Proof. vm_compute. exact I. Qed.
