(** * Property C15, refuted: numbers of 1132 digits whose square is wrong.

    The result buffers of the third level of Toom-3 squaring hold leftovers of
    earlier products and are read before they are written.  By C15_partial every
    returned square of a number of at most 1131 digits is right, so 1132 is the
    exact limit. *)
From Coq Require Import ZArith List Bool.
From Verif Require Import Base Digit Slice Mul Div UBig Spec Witness.
Import ListNotations.
Open Scope Z_scope.

Theorem C15_refuted : forall dbg, exists x r, length x = 1132%nat /\ well_formed B8 x
  /\ square (impl dbg B8) x = Ret r /\ num B8 r <> num B8 x * num B8 x.
Proof.
  intros dbg. exists (square_bad B8). destruct dbg; apply wrong_square_ok; vm_compute; reflexivity.
Qed.
Print Assumptions C15_refuted.

Theorem C15_decimal_refuted : exists x r, length x = 1132%nat /\ well_formed D8 x
  /\ square (impl false D8) x = Ret r /\ num D8 r <> num D8 x * num D8 x.
Proof. exists (square_bad D8). apply wrong_square_ok. vm_compute. reflexivity. Qed.
Print Assumptions C15_decimal_refuted.
