(** * SpecCalc: texts of integers, independent of the model. *)
From Coq Require Import ZArith List.
From Verif Require Import Spec.
Import ListNotations.
Open Scope Z_scope.

(** [s] is a decimal numeral, or a hexadecimal one behind "0x", of the integer [v];
    leading zeros are allowed. *)
Definition literal (s : list Z) (v : Z) : Prop :=
  (numeral_of 10 s /\ numeral_value 10 s = v)
  \/ exists h, s = hex_prefix ++ h /\ numeral_of 16 h /\ numeral_value 16 h = v.

(** The one text of [v]: lower case, no superfluous zeros, decimal or hexadecimal. *)
Definition canonical (hexadecimal : bool) (s : list Z) (v : Z) : Prop :=
  if hexadecimal then exists h, s = hex_prefix ++ h /\ numeral_of 16 h /\ numeral_value 16 h = v
                       /\ minimal h /\ lower_case h
  else numeral_of 10 s /\ numeral_value 10 s = v /\ minimal s.

(** [s] is no text of an integer, and none of the strings that are taken for one all the
    same: "", "0x" and strings with a plus sign. *)
Definition no_literal (s : list Z) : Prop :=
  s <> [] /\ s <> hex_prefix /\ ~ In plus_char s /\ forall v, ~ literal s v.
