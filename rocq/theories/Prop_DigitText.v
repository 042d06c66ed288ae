(** * Property C36, continued: reading a digit from a text. *)
From Coq Require Import ZArith String List Bool.
From Verif Require Import Base Digit Spec SpecParse SpecOrder Cases CalcProof DigitText.
Import ListNotations.
Open Scope Z_scope.

(** A text of any length is read as a digit exactly if it is a numeral of a number below the
    base, with or without a plus sign ([group], SpecParse.v); otherwise it is refused. *)
Theorem C36_read : forall dbg t s base, base = 10 \/ base = 16 ->
  (forall v, group base s v -> v < radix t -> d_from_base_str (impl dbg t) s base = ROk v)
  /\ ((forall v, group base s v -> radix t <= v) -> d_from_base_str (impl dbg t) s base = RErr InvalidNumber).
Proof. exact read_claim. Qed.
Print Assumptions C36_read.
Example C36_read_case :
  group 10 (text_of "+00000000000000000000000099") 99 /\ 99 < radix D8
  /\ d_from_base_str (impl true D8) (text_of "+00000000000000000000000099") 10 = ROk 99
  /\ group 10 (text_of "100") 100
  /\ d_from_base_str (impl true D8) (text_of "100") 10 = RErr InvalidNumber
  /\ d_from_base_str (impl true B8) (text_of "fF") 16 = ROk 255
  /\ d_from_base_str (impl true B8) (text_of "+") 16 = RErr InvalidNumber.
Proof.
  split; [exact (group_plus 10 (text_of "00000000000000000000000099") ltac:(split; [discriminate|chars]))|].
  split; [reflexivity|]. split; [vm_compute; reflexivity|].
  split; [exact (group_plain 10 (text_of "100") ltac:(split; [discriminate|chars]))|].
  repeat split; vm_compute; reflexivity.
Qed.
