(** * SpecDec: how a long binary number is cut into pieces that are converted to
    decimal one by one, in terms of integers only.

    Nothing here mentions the modelled code. *)
From Coq Require Import ZArith List.
From Verif Require Import Digit Spec SpecDiv.
Import ListNotations.
Open Scope Z_scope.

(** decimal places in one decimal digit of the same width *)
Definition group_places (t : dty) : Z :=
  match t with B8 | D8 => 2 | B16 | D16 => 4 | B32 | D32 => 9 | B64 | D64 => 19 end.

(** estimated decimal places of a number of [n] binary digits: log10 256 is about 643 / 267 *)
Definition estimate (t : dty) (n : Z) : Z := n * (bits t / 8) * 643 / 267.

(** A number of 16 or more digits is cut in two by dividing it by a power of ten, whose
    exponent is [group_places] doubled until three times as much covers the estimate. *)
Definition cut (t : dty) (v S : Z) : Prop := exists n i,
  16 <= n /\ radix t ^ (n - 1) <= v < radix t ^ n /\ 0 <= i
  /\ estimate t n <= 3 * (group_places t * 2 ^ i)
  /\ (i = 0 \/ 3 * (group_places t * 2 ^ (i - 1)) < estimate t n)
  /\ S = 10 ^ (group_places t * 2 ^ i).

(** [w] is one of the pieces of [v] *)
Inductive piece (t : dty) (v : Z) : Z -> Prop :=
| piece_self : piece t v v
| piece_low w S : piece t v w -> cut t w S -> piece t v (w mod S)
| piece_high w S : piece t v w -> cut t w S -> piece t v (w / S).

(** Every lower piece fills its place: it needs no zero digits in front. *)
Definition filled (t : dty) (v : Z) : Prop :=
  forall w S, piece t v w -> cut t w S -> S <= 10 ^ group_places t * (w mod S).

(** No division that cuts off a piece meets a tie (SpecDiv.v). *)
Definition cut_smoothly (t : dty) (v : Z) : Prop :=
  forall x y, well_formed t x -> well_formed t y -> piece t v (num t x) -> cut t (num t x) (num t y) ->
  if (length y <? 20)%nat then ~ tie t x y else ~ recursive_tie t x y.
