(** * SpecOrder: what the debug text of a number is, independent of the model. *)
From Coq Require Import ZArith String Ascii List.
From Verif Require Import Spec.
Import ListNotations.
Open Scope Z_scope.

Definition text_of (s : string) : list Z := map (fun c => Z.of_nat (nat_of_ascii c)) (list_ascii_of_string s).

(** [s] is the decimal numeral of [d] without superfluous zeros. *)
Definition plain_numeral (d : Z) (s : list Z) : Prop :=
  numeral_of 10 s /\ minimal s /\ numeral_value 10 s = d.

(** The digits one after the other, lowest first, each in the form Name(numeral). *)
Inductive entries (name : string) : list Z -> list Z -> Prop :=
| no_entry : entries name [] []
| one_entry d s : plain_numeral d s ->
    entries name [d] (text_of name ++ text_of "(" ++ s ++ text_of ")")
| more_entries d d' ds s e : plain_numeral d s -> entries name (d' :: ds) e ->
    entries name (d :: d' :: ds) (text_of name ++ text_of "(" ++ s ++ text_of "), " ++ e).

(** The same over several lines: a digit takes three lines, indented by 8, 12, 8 spaces. *)
Definition line (indent : nat) (s : list Z) : list Z := repeat 32 indent ++ s ++ [10].
Inductive pretty_entries (name : string) : list Z -> list Z -> Prop :=
| no_pretty : pretty_entries name [] []
| more_pretty d ds s e : plain_numeral d s -> pretty_entries name ds e ->
    pretty_entries name (d :: ds)
      (line 8 (text_of name ++ text_of "(") ++ line 12 (s ++ text_of ",") ++ line 8 (text_of "),") ++ e).
Definition pretty_text (ds e : list Z) : list Z :=
  line 0 (text_of "UBig {")
    ++ (match ds with
        | [] => line 4 (text_of "digits: [],")
        | _ => line 4 (text_of "digits: [") ++ e ++ line 4 (text_of "],")
        end) ++ text_of "}".
