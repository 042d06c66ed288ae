(** * Order: the comparison operators and the debug text of numbers.

    No proofs in this file.  Rust derives the operators from [partial_cmp] and [cmp]
    (standard library, modelled). *)
From Coq Require Import ZArith String Ascii List Bool.
From Verif Require Import Base Digit Slice UBig Text.
Import ListNotations.
Open Scope Z_scope.

(** src/ubig.rs:550-557 *)
Definition ubig_partial_cmp (self other : digits) : option comparison := Some (ubig_cmp self other).

(** the provided methods of [PartialOrd] and [PartialEq]: the operators [<], [<=], [>], [>=], [!=] *)
Definition ubig_lt (self other : digits) : bool :=
  match ubig_partial_cmp self other with Some Lt => true | _ => false end.
Definition ubig_le (self other : digits) : bool :=
  match ubig_partial_cmp self other with Some Lt | Some Eq => true | _ => false end.
Definition ubig_gt (self other : digits) : bool :=
  match ubig_partial_cmp self other with Some Gt => true | _ => false end.
Definition ubig_ge (self other : digits) : bool :=
  match ubig_partial_cmp self other with Some Gt | Some Eq => true | _ => false end.
Definition ubig_ne (self other : digits) : bool := negb (ubig_eqb self other).

(** the provided methods of [Ord] (src/ubig.rs:559-567): [max] prefers the second of two
    equal values, [min] the first; [clamp] asserts that its range is not empty *)
Definition ubig_max (self other : digits) : digits :=
  match ubig_cmp self other with Gt => self | _ => other end.
Definition ubig_min (self other : digits) : digits :=
  match ubig_cmp self other with Gt => other | _ => self end.
Definition ubig_clamp (self min max : digits) : M digits :=
  if ubig_le min max then
    Ret (if ubig_lt self min then min else if ubig_gt self max then max else self)
  else Panic PAssert.

(** ** Derived [Debug], src/ubig.rs:38 and src/digit.rs:134, 460, printed with [{:?}] *)
Definition ascii_bytes (s : string) : bytes :=
  map (fun c => Z.of_N (N_of_ascii c)) (list_ascii_of_string s).

(** src/digit.rs:135, 461 *)
Definition digit_name (t : dty) : bytes :=
  ascii_bytes (if is_binary t then "BinaryDigit" else "DecimalDigit").
Definition debug_digit (t : dty) (d : Z) : bytes :=
  digit_name t ++ ascii_bytes "(" ++ numeral 10 false d ++ ascii_bytes ")".

Fixpoint debug_entries (t : dty) (ds : digits) : bytes :=
  match ds with
  | [] => []
  | [d] => debug_digit t d
  | d :: ds => debug_digit t d ++ ascii_bytes ", " ++ debug_entries t ds
  end.

(** src/ubig.rs:39-43 *)
Definition fmt_debug (t : dty) (self : digits) : bytes :=
  ascii_bytes "UBig { digits: [" ++ debug_entries t self ++ ascii_bytes "] }".

(** ** The same printed with [{:#?}]

    [PadAdapter] of the standard library: four spaces in front of every line *)
Fixpoint pad_lines (on_newline : bool) (s : bytes) : bytes :=
  match s with
  | [] => []
  | c :: s => (if on_newline then repeat 32 4 else []) ++ c :: pad_lines (c =? 10) s
  end.
Definition pretty_digit (t : dty) (d : Z) : bytes :=
  digit_name t ++ ascii_bytes "(" ++ [10] ++ pad_lines true (numeral 10 false d ++ ascii_bytes "," ++ [10]) ++ ascii_bytes ")".
Definition pretty_list (t : dty) (ds : digits) : bytes :=
  ascii_bytes "[" ++ (match ds with [] => [] | _ => [10] end)
    ++ flat_map (fun d => pad_lines true (pretty_digit t d ++ ascii_bytes "," ++ [10])) ds ++ ascii_bytes "]".

(** src/ubig.rs:38-43, src/digit.rs:134-135, 460-461 *)
Definition fmt_debug_pretty (t : dty) (self : digits) : bytes :=
  ascii_bytes "UBig {" ++ [10]
    ++ pad_lines true (ascii_bytes "digits: " ++ pretty_list t self ++ ascii_bytes "," ++ [10]) ++ ascii_bytes "}".
