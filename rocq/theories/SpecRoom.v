(** * SpecRoom: computations that never find a buffer too small. *)
From Verif Require Import Base.

(** None of the panics that report a buffer as too small: "Insufficient work
    space", "Not enough space to store the result", and the same as an error value
    that is unwrapped or reported. *)
Definition enough_room {A} (e : M A) : Prop :=
  e <> Panic PWork /\ e <> Panic PSpace
  /\ e <> Panic (PUnwrap NoSpace) /\ e <> Panic (PExplicit NoSpace).
