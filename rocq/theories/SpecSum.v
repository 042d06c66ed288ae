(** * SpecSum: the terms of a sum, the factors of a product. *)
From Coq Require Import ZArith List.
From Verif Require Import Base Digit Spec SpecMul SpecCount.
From Verif Require Import Expr SpecTally.
Import ListNotations.
Open Scope Z_scope.

(** without brackets *)
Fixpoint terms (e : expr) : list expr :=
  match e with Plus a b => terms a ++ terms b | _ => [e] end.
Fixpoint factors (e : expr) : list expr :=
  match e with Times a b => factors a ++ factors b | _ => [e] end.

Definition sum (l : list Z) : Z := fold_right Z.add 0 l.
Definition product (l : list Z) : Z := fold_right Z.mul 1 l.

(** As many digits as the longest term, or as the sum needs. *)
Definition sum_cell (t : dty) (l : list cell) : cell :=
  let v := sum (map worth l) in Cell (Nat.max (list_max (map width l)) (places (radix t) v)) v.
(** Two factors or more: no leading zeros. *)
Definition product_cell (t : dty) (l : list cell) : cell :=
  match l with
  | [c] => c
  | _ => let v := product (map worth l) in Cell (places (radix t) v) v
  end.

(** Each of these expressions has an outcome (SpecTally.v). *)
Definition known (t : dty) (l : list expr) : Prop := Forall (fun a => exists o, comes_to t a o) l.
(** These are the values. *)
Definition worths (t : dty) (l : list expr) (cs : list cell) : Prop := Forall2 (fun a c => comes_to t a (Value c)) l cs.
