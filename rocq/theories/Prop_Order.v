(** * Property C74: comparison operators, max, min, clamp and the debug text. *)
From Coq Require Import ZArith String List Bool.
From Verif Require Import Base Digit Slice UBig Order Spec SpecOrder Cases OrderProof.
Import ListNotations.
Open Scope Z_scope.

Theorem C74_operators : forall t x y, well_formed t x -> well_formed t y ->
  ubig_partial_cmp x y = Some (num t x ?= num t y)
  /\ ubig_lt x y = (num t x <? num t y) /\ ubig_le x y = (num t x <=? num t y)
  /\ ubig_gt x y = (num t y <? num t x) /\ ubig_ge x y = (num t y <=? num t x)
  /\ ubig_ne x y = negb (num t x =? num t y).
Proof. exact operators_claim. Qed.
Print Assumptions C74_operators.
(** With leading zeros allowed: first by length, and the operators still fit together. *)
Theorem C74_padded : forall t x y, valid t x -> valid t y ->
  (ubig_lt x y = true <-> (length x < length y)%nat \/ (length x = length y /\ num t x < num t y))
  /\ ubig_gt x y = ubig_lt y x /\ ubig_le x y = negb (ubig_lt y x) /\ ubig_ge x y = negb (ubig_lt x y)
  /\ ubig_ne x y = ubig_lt x y || ubig_lt y x.
Proof. exact operators_padded. Qed.
Print Assumptions C74_padded.
Theorem C74_max_min : forall t x y, well_formed t x -> well_formed t y ->
  well_formed t (ubig_max x y) /\ num t (ubig_max x y) = Z.max (num t x) (num t y)
  /\ well_formed t (ubig_min x y) /\ num t (ubig_min x y) = Z.min (num t x) (num t y).
Proof. exact max_min_claim. Qed.
Print Assumptions C74_max_min.
(** An empty range panics. *)
Theorem C74_clamp : forall t x lo hi, well_formed t x -> well_formed t lo -> well_formed t hi ->
  (num t lo <= num t hi -> exists r, ubig_clamp x lo hi = Ret r /\ well_formed t r
     /\ num t r = Z.max (num t lo) (Z.min (num t hi) (num t x)))
  /\ (num t hi < num t lo -> ubig_clamp x lo hi = Panic PAssert).
Proof. exact clamp_claim. Qed.
Print Assumptions C74_clamp.
Example C74_case : well_formed B8 [7; 1] /\ well_formed B8 [200] /\ num B8 [7; 1] = 263
  /\ ubig_lt [200] [7; 1] = true /\ ubig_ge [200] [7; 1] = false /\ ubig_ne [200] [7; 1] = true
  /\ ubig_max [200] [7; 1] = [7; 1] /\ ubig_min [200] [7; 1] = [200]
  /\ ubig_clamp [3] [200] [7; 1] = Ret [200] /\ ubig_clamp [3] [7; 1] [200] = Panic PAssert
  /\ valid B8 [2; 0] /\ ubig_gt [2; 0] [7] = true.
Proof. fact. Qed.

(** The debug text lists the digits, lowest first. *)
Theorem C74_debug : forall t x, Forall (Z.le 0) x ->
  exists e, entries (if is_binary t then "BinaryDigit" else "DecimalDigit") x e
    /\ fmt_debug t x = text_of "UBig { digits: [" ++ e ++ text_of "] }".
Proof. exact debug_claim. Qed.
Print Assumptions C74_debug.
(** It determines the digits, with the leading zeros, and the kind of digit. *)
Theorem C74_debug_unique : forall t t' x y, Forall (Z.le 0) x -> Forall (Z.le 0) y ->
  fmt_debug t x = fmt_debug t' y -> x = y /\ (x <> [] -> is_binary t = is_binary t').
Proof. exact debug_inj_claim. Qed.
Print Assumptions C74_debug_unique.
Example C74_debug_case :
  fmt_debug B8 [7; 0] = text_of "UBig { digits: [BinaryDigit(7), BinaryDigit(0)] }"
  /\ fmt_debug D16 [1234] = text_of "UBig { digits: [DecimalDigit(1234)] }"
  /\ fmt_debug D8 [] = text_of "UBig { digits: [] }".
Proof. repeat split; vm_compute; reflexivity. Qed.
(** The text over several lines, [{:#?}]; it determines the digits, too. *)
Theorem C74_pretty : forall t x, Forall (Z.le 0) x ->
  exists e, pretty_entries (if is_binary t then "BinaryDigit" else "DecimalDigit") x e
    /\ fmt_debug_pretty t x = pretty_text x e.
Proof. exact pretty_claim. Qed.
Print Assumptions C74_pretty.
Theorem C74_pretty_unique : forall t t' x y, Forall (Z.le 0) x -> Forall (Z.le 0) y ->
  fmt_debug_pretty t x = fmt_debug_pretty t' y -> x = y /\ (x <> [] -> is_binary t = is_binary t').
Proof. exact pretty_inj_claim. Qed.
Print Assumptions C74_pretty_unique.
Example C74_pretty_case :
  fmt_debug_pretty B8 [70; 0] = text_of "UBig {
    digits: [
        BinaryDigit(
            70,
        ),
        BinaryDigit(
            0,
        ),
    ],
}"
  /\ fmt_debug_pretty D8 [] = text_of "UBig {
    digits: [],
}".
Proof. split; vm_compute; reflexivity. Qed.
