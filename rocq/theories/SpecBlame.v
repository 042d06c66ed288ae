(** * SpecBlame: the part of an expression that is to blame for a panic.

    Nothing here mentions the modelled arithmetic. *)
From Coq Require Import ZArith NArith List Bool.
From Verif Require Import Base Digit Panics Spec SpecDiv SpecMul SpecToom SpecBz SpecHist SpecCount SpecCalc.
From Verif Require Import Expr SpecExpr SpecTally.
Open Scope Z_scope.

(** [s] is [e] or occurs in it. *)
Fixpoint part (e s : expr) : Prop :=
  s = e \/
  match e with
  | Lit _ => False
  | Plus a b | Minus a b | Times a b | Over a b | Modulo a b => part a s \/ part b s
  | Power a _ | ShiftL a _ | ShiftR a _ => part a s
  end.

(** The messages a part can print. *)
Definition family_of (e : expr) : family :=
  match e with Minus _ _ => Subtraction | Over _ _ => Division | Modulo _ _ => Remainder | _ => Another end.

(** The operands have values of which [P] holds. *)
Definition with_two (t : dty) (a b : expr) (P : cell -> cell -> Prop) : Prop :=
  exists c d, comes_to t a (Value c) /\ comes_to t b (Value d) /\ P c d.
Definition with_one (t : dty) (a : expr) (P : cell -> Prop) : Prop :=
  exists c, comes_to t a (Value c) /\ P c.

(** Why [e] itself stops with [w], its operands being numbers. *)
Definition at_fault (t : dty) (w : panic) (e : expr) : Prop :=
  let B := radix t in
  match e with
  | Minus a b => w = PExplicit Underflow
      /\ with_two t a b (fun c d => (width c < width d)%nat \/ worth c < worth d)
  | Times a b => w = PUnwrap Underflow
      /\ with_two t a b (fun c d => jam B (width c) (worth c) (width d) (worth d))
  | Over a b | Modulo a b => with_two t a b (fun c d => SpecCount.undivided c d = false
      /\ (w = PExplicit DivisionByZero /\ worth d = 0
          \/ w = PExplicit NoSpace /\ worth d <> 0 /\ no_room B c d
          \/ w = PUnwrap Underflow /\ worth d <> 0 /\ (20 <= width d)%nat
             /\ ~ written t c d (fun x y => ~ recursive_jam t x y)))
  | Power a n => w = PUnwrap Underflow
      /\ with_one t a (fun c => ~ ~ jam_raise B (width c) (worth c) (Z.of_N n))
  | ShiftL a n => w = PUnwrap Underflow /\ is_binary t = false /\ one_pass B n = false
      /\ with_one t a (fun c => ~ ~ (jam_power B 2 n \/ jam B (width c) (worth c) (places B (2 ^ n)) (2 ^ n)))
  | ShiftR a n => with_one t a (fun c =>
      w = PIndex /\ is_binary t = true /\ Z.of_nat (width c) < n / Z.log2 B
      \/ w = PUnimplemented /\ is_binary t = false /\ 4 * (Z.log2 B / 4) < n)
  | _ => False
  end.

(** Expressions in which nothing is subtracted, divided or shifted to the right. *)
Fixpoint growing (e : expr) : Prop :=
  match e with
  | Lit _ => True
  | Plus a b | Times a b => growing a /\ growing b
  | Power a _ | ShiftL a _ => growing a
  | _ => False
  end.

(** [s] is evaluated before anything else of [e]. *)
Fixpoint leads (e s : expr) : Prop :=
  s = e \/
  match e with
  | Lit _ => False
  | Plus a _ | Minus a _ | Times a _ | Over a _ | Modulo a _ => leads a s
  | Power a _ | ShiftL a _ | ShiftR a _ => leads a s
  end.
