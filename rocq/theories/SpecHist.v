(** * SpecHist: straight-line programs over registers, and what they compute over
    the integers.

    Nothing here mentions the modelled code. *)
From Coq Require Import ZArith List Bool.
From Verif Require Import Digit Spec SpecDiv.
Import ListNotations.
Open Scope Z_scope.

Inductive step :=
| SAdd (i j : nat)          (* r[i] += r[j] *)
| SSub (i j : nat)          (* r[i] -= r[j] *)
| SMul (i j : nat)          (* r[i] *= r[j] *)
| SDiv (i j : nat)          (* r[i] /= r[j] *)
| SRem (i j : nat)          (* r[i] %= r[j] *)
| SSquare (i : nat)         (* r[i] = r[i].square() *)
| SPow (i : nat) (e : N)    (* r[i] = r[i].pow(e) *)
| SShl (i : nat) (n : Z)    (* r[i] <<= n *)
| SShr (i : nat) (n : Z)    (* r[i] >>= n *)
| SAddInt (i : nat) (n : Z) (* r[i] += n, n a machine integer; likewise below *)
| SSubInt (i : nat) (n : Z)
| SMulInt (i : nat) (n : Z)
| SDivInt (i : nat) (n : Z)
| SRemInt (i : nat) (n : Z)
| SCopy (i j : nat)         (* r[i] = r[j].clone() *)
| SSet (i : nat) (n : Z).   (* r[i] = n.into() *)

Definition update {A} (r : nat -> A) (i : nat) (v : A) : nat -> A :=
  fun k => if Nat.eqb k i then v else r k.

(** One step over the integers. *)
Definition int_step (s : step) (r : nat -> Z) : nat -> Z :=
  match s with
  | SAdd i j => update r i (r i + r j)
  | SSub i j => update r i (r i - r j)
  | SMul i j => update r i (r i * r j)
  | SDiv i j => update r i (r i / r j)
  | SRem i j => update r i (r i mod r j)
  | SSquare i => update r i (r i * r i)
  | SPow i e => update r i (r i ^ Z.of_N e)
  | SShl i n => update r i (r i * 2 ^ n)
  | SShr i n => update r i (r i / 2 ^ n)
  | SAddInt i n => update r i (r i + n)
  | SSubInt i n => update r i (r i - n)
  | SMulInt i n => update r i (r i * n)
  | SDivInt i n => update r i (r i / n)
  | SRemInt i n => update r i (r i mod n)
  | SCopy i j => update r i (r j)
  | SSet i n => update r i n
  end.
Fixpoint int_run (p : list step) (r : nat -> Z) : nat -> Z :=
  match p with [] => r | s :: p => int_run p (int_step s r) end.

(** ** Well-typed steps: machine integers fit their type, shifts are not negative *)
Definition typed (t : dty) (s : step) : Prop :=
  match s with
  | SShl _ n | SShr _ n => 0 <= n
  | SAddInt _ n | SSubInt _ n | SMulInt _ n | SDivInt _ n | SRemInt _ n | SSet _ n => storage t n
  | _ => True
  end.
(** decimal divisors are single digits *)
Definition digit_division (t : dty) (s : step) : Prop :=
  match s with
  | SDivInt _ n | SRemInt _ n => n < radix t
  | SDiv _ _ | SRem _ _ => is_binary t = true
  | _ => True
  end.

(** Divisions that do not go wrong: of normalised numbers, without ties for a binary
    type, and by divisors that scale for a decimal type (SpecDiv.v). *)
Definition sound_division (t : dty) (x y : list Z) : Prop :=
  well_formed t x /\ well_formed t y
  /\ ((length y <= 1)%nat
      \/ if is_binary t then if (length y <? 20)%nat then ~ tie t x y else ~ recursive_tie t x y
         else scales t (length y) (num t y)).
(** Steps whose squarings, if any, stay within 1131 digits, whose machine subtrahends
    and divisors are single digits, and whose big divisions are sound.  [r] are the
    digits before the step. *)
Definition calm (t : dty) (s : step) (r : nat -> list Z) : Prop :=
  match s with
  | SDiv i j | SRem i j => sound_division t (r i) (r j)
  | SSquare i => (length (r i) <= 1131)%nat
  | SPow i e => (length (r i) <= 1131)%nat /\ num t (r i) ^ Z.of_N (e / 2) < radix t ^ 1131
  | SShl _ n => is_binary t = true \/ 2 ^ (n / 2) < radix t ^ 1131
  | SSubInt _ n | SDivInt _ n | SRemInt _ n => n < radix t
  | _ => True
  end.
(** Steps that are calm in every state: no squares, no powers, no big divisions. *)
Definition always_calm (t : dty) (s : step) : Prop :=
  match s with
  | SDiv _ _ | SRem _ _ | SSquare _ | SPow _ _ => False
  | SShl _ n => is_binary t = true \/ 2 ^ (n / 2) < radix t ^ 1131
  | SSubInt _ n | SDivInt _ n | SRemInt _ n => n < radix t
  | _ => True
  end.
