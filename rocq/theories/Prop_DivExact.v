(** * Properties C18 and C44, divisors of 2 to 19 digits: exactly the divisions with a tie go wrong. *)
From Coq Require Import ZArith List Bool.
From Verif Require Import Base Digit Slice Mul Div UBig Spec SpecDiv Cases ClaimsDiv DivTie.
Import ListNotations.
Open Scope Z_scope.

(** [divided] (ClaimsDiv.v): both methods and both operators return, and the Euclidean
    equation holds.  [tie] (SpecDiv.v) is about integers only.  Full statement of C18:
    see Prop_Div.v; this one says precisely when it holds. *)
Theorem C18_exact_partial : forall dbg t, is_binary t = true -> forall x y,
  well_formed t x -> well_formed t y -> (2 <= length y < 20)%nat ->
  (divided dbg t x y <-> ~ tie t x y).
Proof. exact exact_claim. Qed.
Print Assumptions C18_exact_partial.

(** With a tie no quotient that is returned is right, in either build. *)
Theorem C18_tied_partial : forall dbg t, is_binary t = true -> forall x y q r,
  well_formed t x -> well_formed t y -> (2 <= length y < 20)%nat -> tie t x y ->
  div_assign_big (impl dbg t) x y = Ret (q, ROk r) -> num t q <> num t x / num t y.
Proof. exact tied_claim. Qed.
Print Assumptions C18_tied_partial.
Theorem C18_tied_operator_partial : forall dbg t, is_binary t = true -> forall x y q,
  well_formed t x -> well_formed t y -> (2 <= length y < 20)%nat -> tie t x y ->
  div_assign (impl dbg t) x y = Ret q -> num t q <> num t x / num t y.
Proof. exact tied_op_claim. Qed.
Print Assumptions C18_tied_operator_partial.

(** C44 is this part of C18 as a property of its own, here with the full condition spelled
    out: operators and methods, quotient and remainder, both directions. *)
Theorem C44_exact : forall dbg t, is_binary t = true -> forall x y,
  well_formed t x -> well_formed t y -> (2 <= length y < 20)%nat ->
  (~ tie t x y ->
     exists q r, div_assign_big (impl dbg t) x y = Ret (q, ROk r)
       /\ div_assign (impl dbg t) x y = Ret q /\ rem_assign (impl dbg t) x y = Ret r
       /\ num t q = num t x / num t y /\ num t r = num t x mod num t y
       /\ well_formed t q /\ well_formed t r)
  /\ (tie t x y -> forall q, div_assign (impl dbg t) x y = Ret q -> num t q <> num t x / num t y).
Proof. exact exact_explicit_claim. Qed.
Print Assumptions C44_exact.

(** 2^31 / 0x80ffff (three digits) and 2^31 / 0x80ff (two) *)
Example C18_tied_case : tie B8 [0; 0; 0; 128] [255; 255; 128]
  /\ div_assign (impl false B8) [0; 0; 0; 128] [255; 255; 128] = Ret []
  /\ num B8 [0; 0; 0; 128] / num B8 [255; 255; 128] = 254
  /\ tie B8 [0; 0; 0; 128] [255; 128]
  /\ match div_assign (impl false B8) [0; 0; 0; 128] [255; 128] with
     | Ret q => num B8 q <> 2 ^ 31 / num B8 [255; 128] | _ => False end.
Proof.
  split; [exists 0, 1%nat; split; [dfact|]; split; [cbn; split; repeat constructor|dfact]|].
  split; [dfact|]. split; [dfact|].
  split; [exists 0, 2%nat; split; [dfact|]; split; [cbn; split; repeat constructor|dfact]|].
  vm_compute. discriminate.
Qed.
