(** * UBigTests: the unit tests of src/ubig.rs, run on the model.

    Written by tools/gen_ubig_tests.py.  These are tests of the fidelity of the model, not
    proofs of properties.  [dbg] is true, as in a test build. *)
From Coq Require Import ZArith NArith List Bool.
From Verif Require Import Base Digit Slice Mul Div UBig Text Traits.
Import ListNotations.
Open Scope Z_scope.
Open Scope m_scope.

Definition holds (e : M Prop) : Prop := match e with Ret p => p | _ => False end.

(** src/ubig.rs:576 *)
Example test_new : holds (
  let ds := ([1; 2] : digits) in
  n <- ubig_new ds ;;
  let c1 := (digits_of n = ([1; 2] : digits)) in
  let ds := ([1; 2; 0] : digits) in
  n <- ubig_new ds ;;
  let c2 := (digits_of n = ([1; 2] : digits)) in
  let ds := ([1; 2; 0; 3] : digits) in
  n <- ubig_new ds ;;
  let c3 := (digits_of n = ([1; 2; 0; 3] : digits)) in
  let ds := ([1; 2; 0; 0] : digits) in
  n <- ubig_new ds ;;
  let c4 := (digits_of n = ([1; 2] : digits)) in
  let ds := ([0; 2; 0] : digits) in
  n <- ubig_new ds ;;
  let c5 := (digits_of n = ([0; 2] : digits)) in
  Ret (c1 /\ c2 /\ c3 /\ c4 /\ c5)).
Proof. vm_compute. repeat split. Qed.

(** src/ubig.rs:600 *)
Example test_zero : holds (
  let n := ubig_zero in
  let c1 := (digits_of n = ([] : digits)) in
  let n := ubig_zero in
  let c2 := (digits_of n = ([] : digits)) in
  Ret (c1 /\ c2)).
Proof. vm_compute. repeat split. Qed.

(** src/ubig.rs:610 *)
Example test_is_zero : holds (
  let ds := ([] : digits) in
  let n := ds in
  let c1 := (ubig_is_zero n = true) in
  let ds := ([12; 16] : digits) in
  let n := ds in
  let c2 := (ubig_is_zero n = false) in
  let n := ubig_zero in
  let c3 := (ubig_is_zero n = true) in
  Ret (c1 /\ c2 /\ c3)).
Proof. vm_compute. repeat split. Qed.

(** src/ubig.rs:625 *)
Example test_one : holds (
  let n := ubig_one in
  let c1 := (digits_of n = ([1] : digits)) in
  let n := ubig_one in
  let c2 := (digits_of n = ([1] : digits)) in
  Ret (c1 /\ c2)).
Proof. vm_compute. repeat split. Qed.

(** src/ubig.rs:635 *)
Example test_from_digit_binary : holds (
  let n := from_T B8 0 in
  let c1 := (digits_of n = ([] : digits)) in
  let n := from_T B8 127 in
  let c2 := (digits_of n = ([127] : digits)) in
  let n := from_T B16 0 in
  let c3 := (digits_of n = ([] : digits)) in
  let n := from_T B16 62335 in
  let c4 := (digits_of n = ([62335] : digits)) in
  let n := from_T B32 0 in
  let c5 := (digits_of n = ([] : digits)) in
  let n := from_T B32 305419896 in
  let c6 := (digits_of n = ([305419896] : digits)) in
  Ret (c1 /\ c2 /\ c3 /\ c4 /\ c5 /\ c6)).
Proof. vm_compute. repeat split. Qed.

(** src/ubig.rs:657 *)
Example test_from_digit_decimal : holds (
  let n := from_T D8 0 in
  let c1 := (digits_of n = ([] : digits)) in
  let n := from_T D8 57 in
  let c2 := (digits_of n = ([57] : digits)) in
  let n := from_T D8 204 in
  let c3 := (digits_of n = ([4; 2] : digits)) in
  let n := from_T D16 0 in
  let c4 := (digits_of n = ([] : digits)) in
  let n := from_T D16 7352 in
  let c5 := (digits_of n = ([7352] : digits)) in
  let n := from_T D16 25352 in
  let c6 := (digits_of n = ([5352; 2] : digits)) in
  let n := from_T D32 0 in
  let c7 := (digits_of n = ([] : digits)) in
  let n := from_T D32 237651987 in
  let c8 := (digits_of n = ([237651987] : digits)) in
  let n := from_T D32 3237651987 in
  let c9 := (digits_of n = ([237651987; 3] : digits)) in
  Ret (c1 /\ c2 /\ c3 /\ c4 /\ c5 /\ c6 /\ c7 /\ c8 /\ c9)).
Proof. vm_compute. repeat split. Qed.

(** src/ubig.rs:688 *)
Example test_from_decimal_str_binary : holds (
  res <- from_str true B32 ([49; 50; 51; 52; 53; 54; 55; 56; 57; 48; 49; 50; 51; 52; 53; 54; 55; 56; 57; 48; 49; 50; 51; 52; 53; 54; 55; 56; 57; 48] : bytes) ;;
  let c1 := (match res with ROk _ => True | RErr _ => False end) in
  let c2 := (res = ROk ([1312754386; 3279151342; 2397638646; 1] : digits)) in
  res <- from_str true B32 ([48; 48; 48; 48; 48; 48; 48; 48; 48; 48; 48; 48; 48; 48; 48; 48; 48; 48; 48; 49; 50; 51; 52; 53; 54; 55; 56; 57; 48; 49; 50; 51; 52; 53; 54; 55; 56; 57; 48; 49; 50; 51; 52; 53; 54; 55; 56; 57; 48] : bytes) ;;
  let c3 := (match res with ROk _ => True | RErr _ => False end) in
  let c4 := (res = ROk ([1312754386; 3279151342; 2397638646; 1] : digits)) in
  res <- from_str true B8 ([49; 50; 51; 52; 53; 54; 55; 56; 57; 48; 49; 50; 51; 52; 53; 54; 55; 56; 57; 48; 49; 50; 51; 52; 53; 54; 55; 56; 57; 48] : bytes) ;;
  let c5 := (match res with ROk _ => True | RErr _ => False end) in
  let c6 := (res = ROk ([210; 10; 63; 78; 238; 224; 115; 195; 246; 15; 233; 142; 1] : digits)) in
  res <- from_str true D32 ([49; 50; 51; 104; 101; 108; 108; 111] : bytes) ;;
  let c7 := (res = RErr InvalidNumber) in
  Ret (c1 /\ c2 /\ c3 /\ c4 /\ c5 /\ c6 /\ c7)).
Proof. vm_compute. repeat split. Qed.

(** src/ubig.rs:722 *)
Example test_from_hex_str_binary : holds (
  res <- from_str true B32 ([48; 120; 49; 50; 51; 52; 53; 54; 55; 56; 57; 48; 49; 50; 51; 52; 53; 54; 55; 56; 57; 48; 49; 50; 51; 52; 53; 54; 55; 56; 57; 48] : bytes) ;;
  let c1 := (match res with ROk _ => True | RErr _ => False end) in
  let c2 := (res = ROk ([878082192; 1450741778; 2022707764; 1193046] : digits)) in
  res <- from_str true B32 ([48; 120; 48; 48; 48; 48; 48; 48; 48; 48; 48; 48; 48; 48; 48; 48; 48; 48; 48; 48; 48; 49; 50; 51; 52; 53; 54; 55; 56; 57; 48; 49; 50; 51; 52; 53; 54; 55; 56; 57; 48; 49; 50; 51; 52; 53; 54; 55; 56; 57; 48] : bytes) ;;
  let c3 := (match res with ROk _ => True | RErr _ => False end) in
  let c4 := (res = ROk ([878082192; 1450741778; 2022707764; 1193046] : digits)) in
  res <- from_str true B32 ([48; 120; 49; 50; 51; 52; 53; 54; 55; 56; 57; 97; 98; 99; 100; 101; 102; 102; 101; 100; 99; 98; 97; 48; 57; 56; 55; 54; 53; 52; 51; 50; 49] : bytes) ;;
  let c5 := (match res with ROk _ => True | RErr _ => False end) in
  let c6 := (res = ROk ([2271560481; 4275878409; 2309737967; 19088743] : digits)) in
  res <- from_str true B32 ([48; 120; 49; 50; 51; 104; 101; 108; 108; 111] : bytes) ;;
  let c7 := (res = RErr InvalidNumber) in
  Ret (c1 /\ c2 /\ c3 /\ c4 /\ c5 /\ c6 /\ c7)).
Proof. vm_compute. repeat split. Qed.

(** src/ubig.rs:756 *)
Example test_from_decimal_str_decimal : holds (
  res <- from_str true D32 ([49; 50; 51; 52; 53; 54; 55; 56; 57; 48; 49; 50; 51; 52; 53; 54; 55; 56; 57; 48; 49; 50; 51; 52; 53; 54; 55; 56; 57; 48] : bytes) ;;
  let c1 := (match res with ROk _ => True | RErr _ => False end) in
  let c2 := (res = ROk ([234567890; 345678901; 456789012; 123] : digits)) in
  res <- from_str true D32 ([48; 48; 48; 48; 48; 48; 48; 48; 48; 48; 48; 48; 48; 48; 48; 48; 48; 48; 48; 49; 50; 51; 52; 53; 54; 55; 56; 57; 48; 49; 50; 51; 52; 53; 54; 55; 56; 57; 48; 49; 50; 51; 52; 53; 54; 55; 56; 57; 48] : bytes) ;;
  let c3 := (match res with ROk _ => True | RErr _ => False end) in
  let c4 := (res = ROk ([234567890; 345678901; 456789012; 123] : digits)) in
  res <- from_str true D32 ([49; 50; 51; 104; 101; 108; 108; 111] : bytes) ;;
  let c5 := (res = RErr InvalidNumber) in
  Ret (c1 /\ c2 /\ c3 /\ c4 /\ c5)).
Proof. vm_compute. repeat split. Qed.

(** src/ubig.rs:773 *)
Example test_from_hex_str_decimal : holds (
  res <- from_str true D32 ([48; 120; 49; 50; 51; 52; 53; 54; 55; 56; 57; 48; 49; 50; 51; 52; 53; 54; 55; 56; 57; 48; 49; 50; 51; 52; 53; 54; 55; 56; 57; 48] : bytes) ;;
  let c1 := (match res with ROk _ => True | RErr _ => False end) in
  let c2 := (res = ROk ([743484560; 552814062; 687365475; 94522879] : digits)) in
  res <- from_str true D32 ([48; 120; 48; 48; 48; 48; 48; 48; 48; 48; 48; 48; 48; 48; 48; 48; 48; 48; 48; 48; 48; 49; 50; 51; 52; 53; 54; 55; 56; 57; 48; 49; 50; 51; 52; 53; 54; 55; 56; 57; 48; 49; 50; 51; 52; 53; 54; 55; 56; 57; 48] : bytes) ;;
  let c3 := (match res with ROk _ => True | RErr _ => False end) in
  let c4 := (res = ROk ([743484560; 552814062; 687365475; 94522879] : digits)) in
  res <- from_str true D32 ([48; 120; 49; 50; 51; 52; 53; 54; 55; 56; 57; 97; 98; 99; 100; 101; 102; 102; 101; 100; 99; 98; 97; 48; 57; 56; 55; 54; 53; 52; 51; 50; 49] : bytes) ;;
  let c5 := (match res with ROk _ => True | RErr _ => False end) in
  let c6 := (res = ROk ([789144865; 332354755; 204170947; 512366075; 1] : digits)) in
  res <- from_str true D32 ([48; 120; 49; 50; 51; 104; 101; 108; 108; 111] : bytes) ;;
  let c7 := (res = RErr InvalidNumber) in
  Ret (c1 /\ c2 /\ c3 /\ c4 /\ c5 /\ c6 /\ c7)).
Proof. vm_compute. repeat split. Qed.

(** src/ubig.rs:808 *)
Example test_lowerhex_binary : holds (
  n <- ubig_new ([] : digits) ;;
  let s := fmt_hex B32 false (mkFmt None 32 AUnknown false false false) n in
  let c1 := (s = ([48] : bytes)) in
  n <- ubig_new ([] : digits) ;;
  let s := fmt_hex B32 false (mkFmt None 32 AUnknown false true false) n in
  let c2 := (s = ([48; 120; 48] : bytes)) in
  n <- ubig_new ([] : digits) ;;
  let s := fmt_hex B32 false (mkFmt (Some 16%nat) 32 AUnknown false true true) n in
  let c3 := (s = ([48; 120; 48; 48; 48; 48; 48; 48; 48; 48; 48; 48; 48; 48; 48; 48] : bytes)) in
  n <- ubig_new ([523124044] : digits) ;;
  let s := fmt_hex B32 false (mkFmt None 32 AUnknown false false false) n in
  let c4 := (s = ([49; 102; 50; 101; 51; 100; 52; 99] : bytes)) in
  n <- ubig_new ([523124044] : digits) ;;
  let s := fmt_hex B32 false (mkFmt None 32 AUnknown false true false) n in
  let c5 := (s = ([48; 120; 49; 102; 50; 101; 51; 100; 52; 99] : bytes)) in
  n <- ubig_new ([523124044] : digits) ;;
  let s := fmt_hex B32 false (mkFmt (Some 16%nat) 32 AUnknown false true true) n in
  let c6 := (s = ([48; 120; 48; 48; 48; 48; 48; 48; 49; 102; 50; 101; 51; 100; 52; 99] : bytes)) in
  n <- ubig_new ([1; 2; 3] : digits) ;;
  let s := fmt_hex B8 false (mkFmt None 32 AUnknown false false false) n in
  let c7 := (s = ([51; 48; 50; 48; 49] : bytes)) in
  n <- ubig_new ([1; 2; 3] : digits) ;;
  let s := fmt_hex B8 false (mkFmt None 32 AUnknown false true false) n in
  let c8 := (s = ([48; 120; 51; 48; 50; 48; 49] : bytes)) in
  n <- ubig_new ([1; 2; 3] : digits) ;;
  let s := fmt_hex B8 false (mkFmt (Some 16%nat) 32 AUnknown false false false) n in
  let c9 := (s = ([32; 32; 32; 32; 32; 32; 32; 32; 32; 32; 32; 51; 48; 50; 48; 49] : bytes)) in
  n <- ubig_new ([1; 2; 3] : digits) ;;
  let s := fmt_hex B8 false (mkFmt (Some 16%nat) 32 AUnknown false true false) n in
  let c10 := (s = ([32; 32; 32; 32; 32; 32; 32; 32; 32; 48; 120; 51; 48; 50; 48; 49] : bytes)) in
  n <- ubig_new ([1; 2; 3] : digits) ;;
  let s := fmt_hex B8 false (mkFmt (Some 16%nat) 32 AUnknown false true true) n in
  let c11 := (s = ([48; 120; 48; 48; 48; 48; 48; 48; 48; 48; 48; 51; 48; 50; 48; 49] : bytes)) in
  Ret (c1 /\ c2 /\ c3 /\ c4 /\ c5 /\ c6 /\ c7 /\ c8 /\ c9 /\ c10 /\ c11)).
Proof. vm_compute. repeat split. Qed.

(** src/ubig.rs:855 *)
Example test_upperhex_binary : holds (
  n <- ubig_new ([] : digits) ;;
  let s := fmt_hex B32 true (mkFmt None 32 AUnknown false false false) n in
  let c1 := (s = ([48] : bytes)) in
  n <- ubig_new ([] : digits) ;;
  let s := fmt_hex B32 true (mkFmt None 32 AUnknown false true false) n in
  let c2 := (s = ([48; 120; 48] : bytes)) in
  n <- ubig_new ([] : digits) ;;
  let s := fmt_hex B32 true (mkFmt (Some 16%nat) 32 AUnknown false true true) n in
  let c3 := (s = ([48; 120; 48; 48; 48; 48; 48; 48; 48; 48; 48; 48; 48; 48; 48; 48] : bytes)) in
  n <- ubig_new ([523124044] : digits) ;;
  let s := fmt_hex B32 true (mkFmt None 32 AUnknown false false false) n in
  let c4 := (s = ([49; 70; 50; 69; 51; 68; 52; 67] : bytes)) in
  n <- ubig_new ([523124044] : digits) ;;
  let s := fmt_hex B32 true (mkFmt None 32 AUnknown false true false) n in
  let c5 := (s = ([48; 120; 49; 70; 50; 69; 51; 68; 52; 67] : bytes)) in
  n <- ubig_new ([523124044] : digits) ;;
  let s := fmt_hex B32 true (mkFmt (Some 16%nat) 32 AUnknown false true true) n in
  let c6 := (s = ([48; 120; 48; 48; 48; 48; 48; 48; 49; 70; 50; 69; 51; 68; 52; 67] : bytes)) in
  n <- ubig_new ([1; 2; 3] : digits) ;;
  let s := fmt_hex B8 true (mkFmt None 32 AUnknown false false false) n in
  let c7 := (s = ([51; 48; 50; 48; 49] : bytes)) in
  n <- ubig_new ([1; 2; 3] : digits) ;;
  let s := fmt_hex B8 true (mkFmt None 32 AUnknown false true false) n in
  let c8 := (s = ([48; 120; 51; 48; 50; 48; 49] : bytes)) in
  n <- ubig_new ([1; 2; 3] : digits) ;;
  let s := fmt_hex B8 true (mkFmt (Some 16%nat) 32 AUnknown false false false) n in
  let c9 := (s = ([32; 32; 32; 32; 32; 32; 32; 32; 32; 32; 32; 51; 48; 50; 48; 49] : bytes)) in
  n <- ubig_new ([1; 2; 3] : digits) ;;
  let s := fmt_hex B8 true (mkFmt (Some 16%nat) 32 AUnknown false true false) n in
  let c10 := (s = ([32; 32; 32; 32; 32; 32; 32; 32; 32; 48; 120; 51; 48; 50; 48; 49] : bytes)) in
  n <- ubig_new ([1; 2; 3] : digits) ;;
  let s := fmt_hex B8 true (mkFmt (Some 16%nat) 32 AUnknown false true true) n in
  let c11 := (s = ([48; 120; 48; 48; 48; 48; 48; 48; 48; 48; 48; 51; 48; 50; 48; 49] : bytes)) in
  Ret (c1 /\ c2 /\ c3 /\ c4 /\ c5 /\ c6 /\ c7 /\ c8 /\ c9 /\ c10 /\ c11)).
Proof. vm_compute. repeat split. Qed.

(** src/ubig.rs:902 *)
Example test_display_decimal : holds (
  n <- ubig_new ([] : digits) ;;
  let s := fmt_display_dec D32 (mkFmt None 32 AUnknown false false false) n in
  let c1 := (s = ([48] : bytes)) in
  n <- ubig_new ([123456789] : digits) ;;
  let s := fmt_display_dec D32 (mkFmt None 32 AUnknown false false false) n in
  let c2 := (s = ([49; 50; 51; 52; 53; 54; 55; 56; 57] : bytes)) in
  n <- ubig_new ([123456789; 987654321] : digits) ;;
  let s := fmt_display_dec D32 (mkFmt None 32 AUnknown false false false) n in
  let c3 := (s = ([57; 56; 55; 54; 53; 52; 51; 50; 49; 49; 50; 51; 52; 53; 54; 55; 56; 57] : bytes)) in
  n <- ubig_new ([123; 987654321] : digits) ;;
  let s := fmt_display_dec D32 (mkFmt None 32 AUnknown false false false) n in
  let c4 := (s = ([57; 56; 55; 54; 53; 52; 51; 50; 49; 48; 48; 48; 48; 48; 48; 49; 50; 51] : bytes)) in
  n <- ubig_new ([123456789; 987] : digits) ;;
  let s := fmt_display_dec D32 (mkFmt None 32 AUnknown false false false) n in
  let c5 := (s = ([57; 56; 55; 49; 50; 51; 52; 53; 54; 55; 56; 57] : bytes)) in
  n <- ubig_new ([1; 2; 3; 4] : digits) ;;
  let s := fmt_display_dec D16 (mkFmt None 32 AUnknown false false false) n in
  let c6 := (s = ([52; 48; 48; 48; 51; 48; 48; 48; 50; 48; 48; 48; 49] : bytes)) in
  n <- ubig_new ([1; 2; 3; 4] : digits) ;;
  let s := fmt_display_dec D16 (mkFmt (Some 20%nat) 32 AUnknown false false true) n in
  let c7 := (s = ([48; 48; 48; 48; 48; 48; 48; 52; 48; 48; 48; 51; 48; 48; 48; 50; 48; 48; 48; 49] : bytes)) in
  n <- ubig_new ([1; 2; 3; 4] : digits) ;;
  let s := fmt_display_dec D16 (mkFmt (Some 20%nat) 48 ALeft false false false) n in
  let c8 := (s = ([52; 48; 48; 48; 51; 48; 48; 48; 50; 48; 48; 48; 49; 48; 48; 48; 48; 48; 48; 48] : bytes)) in
  n <- ubig_new ([1; 2; 3; 4] : digits) ;;
  let s := fmt_display_dec D16 (mkFmt (Some 20%nat) 48 ACenter false false false) n in
  let c9 := (s = ([48; 48; 48; 52; 48; 48; 48; 51; 48; 48; 48; 50; 48; 48; 48; 49; 48; 48; 48; 48] : bytes)) in
  n <- ubig_new ([1] : digits) ;;
  let s := fmt_display_dec D16 (mkFmt (Some 20%nat) 95 ARight false false false) n in
  let c10 := (s = ([95; 95; 95; 95; 95; 95; 95; 95; 95; 95; 95; 95; 95; 95; 95; 95; 95; 95; 95; 49] : bytes)) in
  n <- ubig_new ([1; 2; 3; 4] : digits) ;;
  let s := fmt_display_dec D16 (mkFmt (Some 20%nat) 95 ARight false false false) n in
  let c11 := (s = ([95; 95; 95; 95; 95; 95; 95; 52; 48; 48; 48; 51; 48; 48; 48; 50; 48; 48; 48; 49] : bytes)) in
  Ret (c1 /\ c2 /\ c3 /\ c4 /\ c5 /\ c6 /\ c7 /\ c8 /\ c9 /\ c10 /\ c11)).
Proof. vm_compute. repeat split. Qed.

(** src/ubig.rs:949 *)
Example test_binary_to_decimal : holds (
  n <- ubig_new ([] : digits) ;;
  m <- to_decimal true B8 n ;;
  let c1 := (digits_of m = ([] : digits)) in
  n <- ubig_new ([75] : digits) ;;
  m <- to_decimal true B8 n ;;
  let c2 := (digits_of m = ([75] : digits)) in
  n <- ubig_new ([203] : digits) ;;
  m <- to_decimal true B8 n ;;
  let c3 := (digits_of m = ([3; 2] : digits)) in
  n <- ubig_new ([172; 18; 115] : digits) ;;
  m <- to_decimal true B8 n ;;
  let c4 := (digits_of m = ([20; 14; 54; 7] : digits)) in
  n <- ubig_new ([1; 2; 3] : digits) ;;
  m <- to_decimal true B64 n ;;
  let c5 := (digits_of m = ([7017310442723737601; 2084710076281539042; 10] : digits)) in
  n <- ubig_new ([3003812123615631789; 11506696941466022477; 16064045555540313380] : digits) ;;
  m <- to_decimal true B64 n ;;
  let c6 := (digits_of m = ([8816494390609385901; 6506631539302871684; 4663114439650396764; 5] : digits)) in
  Ret (c1 /\ c2 /\ c3 /\ c4 /\ c5 /\ c6)).
Proof. vm_compute. repeat split. Qed.
