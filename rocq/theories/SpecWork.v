(** * SpecWork: what the caller of a multiplication in buffers gets to see. *)
From Coq Require Import ZArith List.
From Verif Require Import Base.
Open Scope Z_scope.

(** The routine returns the output buffer, the scratch space and the number of
    digits of the product; the product is that many digits of the output
    buffer.  A panic is kept as it is. *)
Definition product_of (e : M ((list Z * list Z) * nat)) : M (list Z) :=
  match e with Ret (pr, _, n) => Ret (firstn n pr) | Panic w => Panic w | NoFuel => NoFuel end.
