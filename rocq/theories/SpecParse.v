(** * SpecParse: which strings a parser accepts that reads its input in groups of [k]
    characters, counted from the end, and takes each group for a numeral with an
    optional plus sign.  Nothing here mentions the modelled code. *)
From Coq Require Import ZArith List.
From Verif Require Import Spec.
Import ListNotations.
Open Scope Z_scope.

(** a group denotes [v] *)
Inductive group (base : Z) : list Z -> Z -> Prop :=
| group_plain c : numeral_of base c -> group base c (numeral_value base c)
| group_plus c : numeral_of base c -> group base (plus_char :: c) (numeral_value base c).

(** a string denotes [v]; only its first group may be shorter than [k] *)
Inductive grouped (base : Z) (k : nat) : list Z -> Z -> Prop :=
| grouped_none : grouped base k [] 0
| grouped_one c v : (length c <= k)%nat -> group base c v -> grouped base k c v
| grouped_more s u c v : s <> [] -> grouped base k s u -> length c = k -> group base c v ->
    grouped base k (s ++ c) (u * base ^ Z.of_nat k + v).

(** the widest group whose numerals all fit one digit *)
Definition group_width (t : Digit.dty) (base : Z) (k : nat) : Prop :=
  base ^ Z.of_nat k <= radix t < base ^ Z.of_nat (S k).
