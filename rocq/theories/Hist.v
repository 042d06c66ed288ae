(** * Hist: straight-line programs run by the modelled operators.

    No proofs in this file.  Each step calls one operator of src/ubig/ops.rs or
    src/ubig.rs on the registers; the first panic stops the program. *)
From Coq Require Import ZArith List Bool.
From Verif Require Import Base Digit Slice Mul Div UBig Spec SpecHist.
Import ListNotations.
Open Scope Z_scope.
Open Scope m_scope.

Definition regs := nat -> digits.

(** src/ubig/ops.rs:74-81, 884-894, 399-406, 1001-1029, 702-807, 31-63, 844-873,
    364-388, 200-227, 531-572; src/ubig.rs:184-199, 365-400 *)
Definition model_step (dbg : bool) (t : dty) (s : step) (r : regs) : M regs :=
  let D := impl dbg t in
  let put i e := v <- e ;; Ret (update r i v) in
  match s with
  | SAdd i j => put i (add_assign D (r i) (r j))
  | SSub i j => put i (sub_assign D (r i) (r j))
  | SMul i j => put i (mul_assign D (r i) (r j))
  | SDiv i j => put i (div_assign D (r i) (r j))
  | SRem i j => put i (rem_assign D (r i) (r j))
  | SSquare i => put i (square D (r i))
  | SPow i e => put i (pow D (r i) e)
  | SShl i n => put i (shl_assign dbg t (r i) n)
  | SShr i n => put i (shr_assign dbg t (r i) n)
  | SAddInt i n => put i (add_assign_T dbg t (r i) n)
  | SSubInt i n => put i (sub_assign_T dbg t (r i) n)
  | SMulInt i n => put i (mul_assign_T dbg t (r i) n)
  | SDivInt i n => put i (div_assign_T dbg t (r i) n)
  | SRemInt i n => put i (rem_assign_T dbg t (r i) n)
  | SCopy i j => put i (Ret (r j))
  | SSet i n => put i (Ret (from_T t n))
  end.
Fixpoint model_run (dbg : bool) (t : dty) (p : list step) (r : regs) : M regs :=
  match p with
  | [] => Ret r
  | s :: p => r <- model_step dbg t s r ;; model_run dbg t p r
  end.

(** every step of the run is calm; see [SpecHist.calm] *)
Fixpoint calm_run (dbg : bool) (t : dty) (p : list step) (r : regs) : Prop :=
  match p with
  | [] => True
  | s :: p => calm t s r /\ forall r', model_step dbg t s r = Ret r' -> calm_run dbg t p r'
  end.
