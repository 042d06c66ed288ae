(** * Spec: what numbers and numerals mean, independent of the model.

    Nothing here mentions the modelled code. *)
From Coq Require Import ZArith List Bool.
From Verif Require Import Digit.
Import ListNotations.
Open Scope Z_scope.

(** The integer denoted by a little-endian digit list. *)
Fixpoint value (B : Z) (l : list Z) : Z :=
  match l with
  | [] => 0
  | d :: t => d + B * value B t
  end.

(** Every digit is below the base. *)
Definition below (B : Z) (l : list Z) : Prop := Forall (fun d => 0 <= d < B) l.

(** The most significant digit is not zero; the empty list is normal. *)
Definition normal (l : list Z) : Prop := forall t, l <> t ++ [0].

(** The bases of the eight digit types. *)
Definition radix (t : dty) : Z :=
  match t with
  | B8 => 256 | B16 => 65536 | B32 => 4294967296 | B64 => 18446744073709551616
  | D8 => 100 | D16 => 10000 | D32 => 1000000000 | D64 => 10000000000000000000
  end.

(** The values of the storage type of a digit type: u8, u16, u32, u64. *)
Definition storage (t : dty) (n : Z) : Prop :=
  0 <= n < match t with
           | B8 | D8 => 256 | B16 | D16 => 65536
           | B32 | D32 => 4294967296 | B64 | D64 => 18446744073709551616
           end.

(** [l] is a number of type [t] with value [v]. *)
Definition valid (t : dty) (l : list Z) : Prop := below (radix t) l.
Definition num (t : dty) (l : list Z) : Z := value (radix t) l.
Definition well_formed (t : dty) (l : list Z) : Prop := valid t l /\ normal l.

Definition of_bool (b : bool) : Z := if b then 1 else 0.

(** ** Numerals: strings are lists of character codes, most significant first. *)

(** 0-9 *)
Definition dec_char (c : Z) : Prop := 48 <= c <= 57.
(** 0-9, a-f, A-F *)
Definition hex_char (c : Z) : Prop := 48 <= c <= 57 \/ 97 <= c <= 102 \/ 65 <= c <= 70.
Definition char_of_base (base c : Z) : Prop :=
  (base = 10 /\ dec_char c) \/ (base = 16 /\ hex_char c).

Definition char_value (c : Z) : Z :=
  if c <=? 57 then c - 48 else if 97 <=? c then c - 87 else c - 55.

(** The integer denoted by a numeral. *)
Definition numeral_value (base : Z) (s : list Z) : Z :=
  fold_left (fun acc c => acc * base + char_value c) s 0.

Definition numeral_of (base : Z) (s : list Z) : Prop := s <> [] /\ Forall (char_of_base base) s.

(** No superfluous leading zero: "0" itself or a numeral that starts otherwise. *)
Definition minimal (s : list Z) : Prop := s = [48] \/ hd 48 s <> 48.

(** Letters of one case only. *)
Definition lower_case (s : list Z) : Prop := Forall (fun c => ~ 65 <= c <= 90) s.
Definition upper_case (s : list Z) : Prop := Forall (fun c => ~ 97 <= c <= 122) s.

(** "0x" and "+" *)
Definition hex_prefix : list Z := [48; 120].
Definition plus_char : Z := 43.
