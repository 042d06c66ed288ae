(** * Properties C19 and C54: debug builds notice decimal divisors that do not scale. *)
From Coq Require Import ZArith List Bool Lia.
From Verif Require Import Base Digit Slice Mul Div UBig Spec SpecDiv Cases ClaimsDiv ClaimsDivBig DivDebug.
Import ListNotations.
Open Scope Z_scope.

(** [scales], [leading] and [recursive_open] (SpecDiv.v) are about integers only;
    [divided] (ClaimsDiv.v): both methods and both operators return, and the Euclidean
    equation holds; [stops] (ClaimsDivBig.v): all four panic in the given way. *)

(** C54: no divisor that gains a digit when scaled goes unnoticed.  Excepted is the
    leading digit 1 of the 16 and 64 bit types. *)
Theorem C54_noticed : forall t, is_binary t = false -> forall x y,
  well_formed t x -> well_formed t y -> (3 <= length y)%nat ->
  t = D8 \/ t = D32 \/ 2 <= leading t (length y) (num t y) ->
  ~ scales t (length y) (num t y) -> num t y <= num t x ->
  stops true t x y PDebug \/ t = D64 /\ stops true t x y POverflow.
Proof. exact debug_claim. Qed.
Print Assumptions C54_noticed.

(** Full statement of C19: see Prop_Div.v.  This is the exact condition in debug
    builds: in every other case the division stops.  Missing: release builds, the
    leading digit 1 of the 16 and 64 bit types, more than 80 digits. *)
Theorem C19_debug_exact_partial : forall t, is_binary t = false -> forall x y,
  well_formed t x -> well_formed t y -> (3 <= length y <= 80)%nat ->
  t = D8 \/ t = D32 \/ 2 <= leading t (length y) (num t y) ->
  ((num t x < num t y \/ scales t (length y) (num t y) /\ ((length y < 20)%nat \/ ~ recursive_open t x y))
   -> divided true t x y)
  /\ (~ (num t x < num t y \/ scales t (length y) (num t y) /\ ((length y < 20)%nat \/ ~ recursive_open t x y))
   -> stops true t x y PDebug \/ stops true t x y PIndex \/ t = D64 /\ stops true t x y POverflow).
Proof. exact debug_exact_claim. Qed.
Print Assumptions C19_debug_exact_partial.

Lemma no_scale_8 : ~ scales D8 3 19900.
Proof. intros H. specialize (H 6 ltac:(lia) eq_refl). vm_compute in H. discriminate H. Qed.

(** 10^8 / 19900: the debug build stops, the release build returns 23391 *)
Example C54_case : well_formed D8 [0; 0; 0; 0; 1] /\ well_formed D8 [0; 99; 1]
  /\ ~ scales D8 (length [0; 99; 1]) (num D8 [0; 99; 1]) /\ num D8 [0; 99; 1] <= num D8 [0; 0; 0; 0; 1]
  /\ div_assign (impl true D8) [0; 0; 0; 0; 1] [0; 99; 1] = Panic PDebug
  /\ div_assign (impl false D8) [0; 0; 0; 0; 1] [0; 99; 1] = Ret [91; 33; 2].
Proof. split; [dfact|]. split; [dfact|]. split; [exact no_scale_8|]. dfact. Qed.
(** the exception: with the leading digit 1 a debug build of the 16 bit type is wrong as well *)
Example C54_exception : let y := [0; 9999; 1] in
  well_formed D16 y /\ ~ scales D16 (length y) (num D16 y)
  /\ leading D16 (length y) (num D16 y) = 1 /\ div_assign (impl true D16) y y = Ret [2].
Proof.
  split; [dfact|]. split; [|dfact]. intros H. specialize (H 13 ltac:(lia) eq_refl).
  vm_compute in H. discriminate H.
Qed.
(** the 64 bit type may stop in a shift; the shape of this divisor makes its scaled
    leading digit zero *)
Example C54_overflow : let y := [0; 0; (10 ^ 38 + 2 ^ 62 - 1) / 2 ^ 62 - 2 * 10 ^ 19; 2] in
  well_formed D64 y /\ leading D64 (length y) (num D64 y) = 2 /\ ~ scales D64 (length y) (num D64 y)
  /\ div_assign (impl true D64) y y = Panic POverflow.
Proof.
  split; [dfact|]. split; [dfact|]. split; [|dfact]. intros H. specialize (H 62 ltac:(lia) eq_refl).
  vm_compute in H. discriminate H.
Qed.
