(** * Forms: the by-value and by-reference operator forms of src/ubig/ops.rs.

    No proofs in this file.  [v] stands for an operand taken by value, [r] for
    one taken by reference; [add_vr x y] is [x + &y].  Moving and cloning a
    number keep its digit vector, so [self.clone()] is [self]; each definition
    forwards exactly as the impl it cites. *)
From Coq Require Import ZArith List Bool.
From Verif Require Import Base Digit Slice Mul Div UBig.
Import ListNotations.
Open Scope Z_scope.
Open Scope m_scope.

(** ** Big right operands: [impl Op<UBig<T>> for UBig<T>] and so on *)
Section Big.
Variable D : digit.

(** src/ubig/ops.rs:65-72, 156-165, 146-154, 167-175, 177-185 *)
Definition add_assign_v (self other : digits) : M digits := add_assign D self other.
Definition add_vr (self other : digits) : M digits := self <- add_assign D self other ;; Ret self.
Definition add_vv (self other : digits) : M digits := add_vr self other.
Definition add_rv (self other : digits) : M digits := add_vr self other.
Definition add_rr (self other : digits) : M digits := add_vr self other.

(** src/ubig/ops.rs:875-882, 969-978, 959-967, 980-988, 990-998 *)
Definition sub_assign_v (self other : digits) : M digits := sub_assign D self other.
Definition sub_vr (self other : digits) : M digits := self <- sub_assign D self other ;; Ret self.
Definition sub_vv (self other : digits) : M digits := sub_vr self other.
Definition sub_rv (self other : digits) : M digits := sub_vr self other.
Definition sub_rr (self other : digits) : M digits := sub_vr self other.

(** src/ubig/ops.rs:229-236, 323-332, 313-321, 334-342, 344-352 *)
Definition div_assign_v (self other : digits) : M digits := div_assign D self other.
Definition div_vr (self other : digits) : M digits := self <- div_assign D self other ;; Ret self.
Definition div_vv (self other : digits) : M digits := div_vr self other.
Definition div_rv (self other : digits) : M digits := div_vr self other.
Definition div_rr (self other : digits) : M digits := div_vr self other.

(** src/ubig/ops.rs:574-581, 670-679, 660-668, 681-689, 691-699 *)
Definition rem_assign_v (self other : digits) : M digits := rem_assign D self other.
Definition rem_vr (self other : digits) : M digits := self <- rem_assign D self other ;; Ret self.
Definition rem_vv (self other : digits) : M digits := rem_vr self other.
Definition rem_rv (self other : digits) : M digits := rem_vr self other.
Definition rem_rr (self other : digits) : M digits := rem_vr self other.

(** src/ubig/ops.rs:390-397, 501-509, 471-479, 481-489, 491-499; here the
    assigning form goes through the by-reference form *)
Definition mul_rr (self other : digits) : M digits := mul_big D self other.
Definition mul_assign_v (self other : digits) : M digits := mul_assign D self other.
Definition mul_vv (self other : digits) : M digits := mul_rr self other.
Definition mul_vr (self other : digits) : M digits := mul_rr self other.
Definition mul_rv (self other : digits) : M digits := mul_rr self other.

(** ** Digit right operands: [impl Op<T> for UBig<T>] *)

(** src/ubig/ops.rs:83-92, 94-102 *)
Definition add_v_d (self : digits) (digit : Z) : M digits := self <- add_assign_d D self digit ;; Ret self.
Definition add_r_d (self : digits) (digit : Z) : M digits := add_v_d self digit.

(** src/ubig/ops.rs:896-905, 907-915 *)
Definition sub_v_d (self : digits) (digit : Z) : M digits := self <- sub_assign_d D self digit ;; Ret self.
Definition sub_r_d (self : digits) (digit : Z) : M digits := sub_v_d self digit.

(** src/ubig/ops.rs:250-259, 261-269 *)
Definition div_v_d (self : digits) (digit : Z) : M digits := self <- div_assign_d D self digit ;; Ret self.
Definition div_r_d (self : digits) (digit : Z) : M digits := div_v_d self digit.

(** src/ubig/ops.rs:408-417, 419-427 *)
Definition mul_v_d (self : digits) (digit : Z) : M digits := self <- mul_assign_d D self digit ;; Ret self.
Definition mul_r_d (self : digits) (digit : Z) : M digits := mul_v_d self digit.

(** src/ubig/ops.rs:595-603, 605-617; not by way of [%=] *)
Definition rem_r_d (self : digits) (digit : Z) : M digits := rem_ref_d D self digit.
Definition rem_v_d (self : digits) (digit : Z) : M digits := rem_r_d self digit.

(** ** Powers: src/ubig/ops.rs:1031-1040 *)
Definition pow_r (self : digits) (exp : N) : M digits := pow D self exp.
End Big.

(** ** Machine-integer right operands, and shifts *)
Section Typed.
Variable dbg : bool.
Variable t : dty.
Let D := impl dbg t.

(** src/ubig/ops.rs:104-113, 115-123 (binary), 125-134, 136-144 (decimal) *)
Definition add_v_T (self : digits) (n : Z) : M digits := self <- add_assign_T dbg t self n ;; Ret self.
Definition add_r_T (self : digits) (n : Z) : M digits := add_v_T self n.

(** src/ubig/ops.rs:917-926, 928-936 (binary), 938-947, 949-957 (decimal) *)
Definition sub_v_T (self : digits) (n : Z) : M digits := self <- sub_assign_T dbg t self n ;; Ret self.
Definition sub_r_T (self : digits) (n : Z) : M digits := sub_v_T self n.

(** src/ubig/ops.rs:271-280, 282-290 (binary), 292-301, 303-311 (decimal) *)
Definition div_v_T (self : digits) (n : Z) : M digits := self <- div_assign_T dbg t self n ;; Ret self.
Definition div_r_T (self : digits) (n : Z) : M digits := div_v_T self n.

(** src/ubig/ops.rs:429-438, 440-448 (binary), 450-459, 461-469 (decimal) *)
Definition mul_v_T (self : digits) (n : Z) : M digits := self <- mul_assign_T dbg t self n ;; Ret self.
Definition mul_r_T (self : digits) (n : Z) : M digits := mul_v_T self n.

(** src/ubig/ops.rs:619-627, 629-637 (binary, by way of [&x % digit]),
    639-648, 650-658 (decimal, by way of [%=]) *)
Definition rem_v_T (self : digits) (n : Z) : M digits :=
  if is_binary t then rem_ref_d D self n
  else self <- rem_assign_T dbg t self n ;; Ret self.
Definition rem_r_T (self : digits) (n : Z) : M digits :=
  if is_binary t then rem_ref_d D self n else rem_v_T self n.

(** src/ubig/ops.rs:745-754, 756-764, 809-818, 820-828 *)
Definition shl_v (self : digits) (n : Z) : M digits := self <- shl_assign dbg t self n ;; Ret self.
Definition shl_r (self : digits) (n : Z) : M digits := shl_v self n.
Definition shr_v (self : digits) (n : Z) : M digits := self <- shr_assign dbg t self n ;; Ret self.
Definition shr_r (self : digits) (n : Z) : M digits := shr_v self n.
End Typed.
