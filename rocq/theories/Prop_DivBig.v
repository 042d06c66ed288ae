(** * Properties C18 and C19 for divisors of 20 digits or more. *)
From Coq Require Import ZArith List Bool Lia.
From Verif Require Import Base Digit Slice Mul Div UBig Spec SpecDiv Cases ClaimsDiv ClaimsDivBig.
From Verif Require ClaimsBz.
Import ListNotations.
Open Scope Z_scope.

(** [divided] (ClaimsDiv.v): both methods and both operators return, and the Euclidean
    equation holds.  [stops … w] (ClaimsDivBig.v): all four panic with [w].
    Full statements: see Prop_Div.v.  Here, up to 80 digits of divisor: missing are
    divisions in which a partial remainder of some base case ties with its divisor
    ([recursive_tie], SpecDiv.v), and decimal divisors that gain a digit when scaled. *)
Theorem C18_mid_partial : forall dbg t x y, is_binary t = true -> well_formed t x ->
  well_formed t y -> (20 <= length y <= 80)%nat -> ~ recursive_tie t x y -> divided dbg t x y.
Proof. exact div_mid_binary_claim. Qed.
Print Assumptions C18_mid_partial.
Theorem C19_mid_partial : forall dbg t x y, is_binary t = false -> well_formed t x ->
  well_formed t y -> (20 <= length y <= 80)%nat -> scales t (length y) (num t y) ->
  ~ recursive_tie t x y -> divided dbg t x y.
Proof. exact div_mid_decimal_claim. Qed.
Print Assumptions C19_mid_partial.

(** With ties, a decimal division may panic, but never gives a wrong answer. *)
Theorem C19_mid_tied_partial : forall dbg t x y, is_binary t = false -> well_formed t x ->
  well_formed t y -> (20 <= length y <= 80)%nat -> scales t (length y) (num t y) ->
  divided dbg t x y \/ stops dbg t x y PIndex.
Proof. exact div_mid_tied_claim. Qed.
Print Assumptions C19_mid_tied_partial.

(** Divisors of any length from 20 digits: the multiplications inside may panic too. *)
Theorem C18_large_partial : forall dbg t x y, is_binary t = true -> well_formed t x ->
  well_formed t y -> (20 <= length y)%nat -> ~ recursive_tie t x y ->
  divided dbg t x y \/ stops dbg t x y (PUnwrap Underflow).
Proof. exact ClaimsBz.div_either_binary_claim. Qed.
Print Assumptions C18_large_partial.
Theorem C19_large_partial : forall dbg t x y, is_binary t = false -> well_formed t x ->
  well_formed t y -> (20 <= length y)%nat -> scales t (length y) (num t y) ->
  divided dbg t x y \/ stops dbg t x y PIndex \/ stops dbg t x y (PUnwrap Underflow).
Proof. exact ClaimsBz.div_either_scaling_claim. Qed.
Print Assumptions C19_large_partial.

(** 3^396 (79 digits) by 7^63 (23 digits, padded to 24) in base 256 *)
Definition big_x : digits :=
  [241; 169; 24; 30; 47; 1; 189; 89; 203; 254; 24; 192; 219; 147; 70; 111; 247; 67; 46; 167; 255;
   97; 156; 36; 78; 200; 246; 237; 216; 63; 144; 185; 203; 66; 74; 100; 151; 216; 57; 0; 185; 226;
   103; 201; 79; 116; 77; 231; 209; 242; 34; 137; 125; 48; 28; 34; 132; 0; 5; 41; 211; 60; 187;
   93; 169; 180; 196; 135; 139; 93; 237; 40; 225; 107; 176; 38; 223; 130; 12].
Definition big_y : digits :=
  [183; 199; 26; 64; 65; 186; 57; 40; 187; 153; 251; 54; 106; 90; 191; 103; 138; 50; 156; 182;
   187; 209; 1].
Definition tied_y : digits :=
  [145; 161; 193; 70; 69; 106; 134; 3; 233; 124; 0; 200; 51; 143; 118; 249; 221; 122; 159; 107;
   39; 130; 135; 220; 22].
Example C18_mid_case : well_formed B8 big_x /\ num B8 big_x = 3 ^ 396
  /\ well_formed B8 big_y /\ num B8 big_y = 7 ^ 63 /\ length big_y = 23%nat
  /\ ~ recursive_tie B8 big_x big_y
  /\ match div_assign_big (impl true B8) big_x big_y with
     | Ret (q, ROk r) => num B8 q = 3 ^ 396 / 7 ^ 63 /\ num B8 r = 3 ^ 396 mod 7 ^ 63
     | _ => False
     end.
Proof.
  split; [dfact|]. split; [dfact|]. split; [dfact|]. split; [dfact|]. split; [dfact|]. split; [|vm_compute; split; reflexivity].
  apply (recursive_tie_check B8 _ _ 7 24).
  - cbn. repeat constructor.
  - dfact.
  - dfact.
  - exists 12%nat, 1%nat. cbn. lia.
  - repeat constructor.
  - vm_compute. reflexivity.
Qed.

(** Without the condition the answer can be wrong: 3^396 / 7^70 (25 digits). *)
Theorem C18_large_refuted : exists x y q r, well_formed B8 x /\ well_formed B8 y
  /\ num B8 x = 3 ^ 396 /\ num B8 y = 7 ^ 70
  /\ div_assign_big (impl false B8) x y = Ret (q, ROk r) /\ num B8 q <> 3 ^ 396 / 7 ^ 70.
Proof.
  assert (H : match div_assign_big (impl false B8) big_x tied_y with
              | Ret (q, ROk _) => (num B8 q =? 3 ^ 396 / 7 ^ 70) = false
              | _ => False
              end) by (vm_compute; reflexivity).
  destruct (div_assign_big (impl false B8) big_x tied_y) as [[q [r|]]| |] eqn:E; try contradiction.
  exists big_x, tied_y, q, r. split; [dfact|]. split; [dfact|]. split; [dfact|]. split; [dfact|].
  split; [exact E|]. apply Z.eqb_neq. exact H.
Qed.
Print Assumptions C18_large_refuted.

(** 3^300 (72 digits) by 7^55 (24 digits) in base 100 *)
Definition dec_x : digits :=
  [1; 60; 56; 74; 57; 69; 65; 27; 73; 12; 35; 81; 42; 40; 99; 97; 5; 44; 84; 4; 25; 88; 13; 94;
   88; 56; 15; 6; 2; 80; 93; 65; 7; 99; 74; 17; 97; 89; 36; 78; 0; 19; 80; 14; 47; 36; 74; 33; 25;
   56; 69; 63; 64; 96; 15; 83; 8; 82; 73; 2; 26; 13; 99; 75; 83; 58; 58; 90; 47; 91; 68; 13].
Definition dec_y : digits :=
  [43; 19; 74; 65; 28; 61; 96; 40; 95; 83; 16; 5; 47; 82; 94; 55; 50; 77; 71; 19; 80; 26; 2; 3].
Example C19_mid_case : well_formed D8 dec_x /\ num D8 dec_x = 3 ^ 300
  /\ well_formed D8 dec_y /\ num D8 dec_y = 7 ^ 55 /\ length dec_y = 24%nat
  /\ scales D8 24 (num D8 dec_y)
  /\ match div_assign_big (impl true D8) dec_x dec_y with
     | Ret (q, ROk r) => num D8 q = 3 ^ 300 / 7 ^ 55 /\ num D8 r = 3 ^ 300 mod 7 ^ 55
     | _ => False
     end.
Proof.
  split; [dfact|]. split; [dfact|]. split; [dfact|]. split; [dfact|]. split; [dfact|]. split; [|vm_compute; split; reflexivity].
  apply (scales_check D8 24 _ 5); dfact.
Qed.

(** The panicking division of C18_panic_refuted has such a tie. *)
Example C18_large_tie : recursive_tie B64 (zeros 29 ++ [2 ^ 63]) (zeros 18 ++ [1; 2 ^ 63]).
Proof.
  exists 0, 20%nat, 0%nat. split; [dfact|]. split; [exists 20%nat, 0%nat; cbn; lia|].
  split; [cbn; repeat constructor|]. cbv zeta.
  apply (block_tie_half _ 10 _ _ (2 ^ 63 * (2 ^ 64) ^ 29)).
  - repeat constructor.
  - right. vm_compute. reflexivity.
  - vm_compute. reflexivity.
  - apply (block_tie_base _ 10 _ _ 10); [repeat constructor|split; repeat constructor|vm_compute; reflexivity].
Qed.
