(** * SpecCount: programs on digit counts and values.

    A machine whose registers hold the number of digits of a number, leading zeros
    included, and its value.  Nothing here mentions the modelled code. *)
From Coq Require Import ZArith NArith List Bool.
From Verif Require Import Base Digit Spec SpecMul SpecToom SpecDiv SpecBz SpecHist.
Import ListNotations.
Open Scope Z_scope.

Record cell := Cell { width : nat; worth : Z }.
Definition cells := nat -> cell.

(** The digits of a register, and those of all registers, as such numbers. *)
Definition fits (t : dty) (x : list Z) (c : cell) : Prop :=
  valid t x /\ length x = width c /\ num t x = worth c.
Definition shows (t : dty) (r : nat -> list Z) (c : cells) : Prop := forall k, fits t (r k) (c k).

(** no leading zeros *)
Definition tight (B : Z) (c : cell) : Prop := width c = places B (worth c).

(** The length kept when a single digit is subtracted: one digit goes when the first
    digit borrows from a power of the base. *)
Definition kept (B : Z) (c : cell) (d : Z) : nat :=
  if ((worth c mod B <? d) && (worth c / B =? B ^ (Z.of_nat (width c) - 2)))%bool
  then (width c - 1)%nat else width c.

(** Subtraction of a machine number of two digits, low one first; the length kept for
    the digits above the first is taken for the length of the whole. *)
Definition kept2 (B : Z) (c : cell) (n : Z) : nat :=
  let low := n mod B in
  kept B (Cell (kept B c low - 1) ((worth c - low) / B)) (n / B).

(** Powers of a number [v] of [m] digits: the first power is the number itself, the
    others have no leading zeros.  v^(2^i) is multiplied by itself as long as
    2^(i+1) <= e, and for each binary digit i >= 1 of e that is one, v^(e mod 2^i) is
    multiplied by v^(2^i); one of these multiplications stops. *)
Definition raised (B : Z) (m : nat) (v k : Z) : nat := if k =? 1 then m else places B (v ^ k).
Definition jam_raise (B : Z) (m : nat) (v e : Z) : Prop := exists i,
  0 <= i /\ 2 ^ (i + 1) <= e
    /\ jam B (raised B m v (2 ^ i)) (v ^ 2 ^ i) (raised B m v (2 ^ i)) (v ^ 2 ^ i)
  \/ 1 <= i /\ Z.testbit e i = true
    /\ jam B (raised B m v (e mod 2 ^ i)) (v ^ (e mod 2 ^ i)) (raised B m v (2 ^ i)) (v ^ 2 ^ i).

(** Decimal left shifts are done in one pass over the digits up to this many bits. *)
Definition one_pass (B n : Z) : bool := n <=? 4 * (Z.log2 B / 4).

(** Something about the digits of [c] and [d]. *)
Definition written (t : dty) (c d : cell) (P : list Z -> list Z -> Prop) : Prop :=
  forall x y, fits t x c -> fits t y d -> P x y.
(** In a division, the dividend is taken to be smaller than the divisor: it has fewer
    digits, or as many and is smaller.  Nothing is divided then. *)
Definition undivided (c d : cell) : bool := precedes (width c) (worth c) (width d) (worth d).
(** A divisor of one digit and a leading zero; the quotient has to fit into one digit
    less than the dividend has. *)
Definition thin (B : Z) (d : cell) : bool := ((width d =? 2)%nat && (worth d <? B))%bool.
Definition no_room (B : Z) (c d : cell) : Prop :=
  thin B d = true /\ (width c <= places B (worth c / worth d))%nat.
(** Divisions whose outcome is known (SpecDiv.v): by a single digit; by fewer than
    twenty digits, without ties in a binary type, or by a divisor that scales in a
    decimal type; by more digits likewise, without ties at the start of a block. *)
Definition known_division (t : dty) (x y : list Z) : Prop :=
  (length y <= 1)%nat
  \/ ((length y < 20)%nat /\ divides t x y)
  \/ ((20 <= length y)%nat
      /\ if is_binary t then ~ recursive_tie t x y
         else scales t (length y) (num t y) /\ ~ recursive_open t x y).

(** Steps whose outcome is known: squares and powers of at most 1131 digits, machine
    divisors of one digit or that scale; divisions by numbers without leading zeros,
    or of one digit and a leading zero, and those that divide nothing. *)
Definition charted (t : dty) (s : step) (c : cells) : Prop :=
  match s with
  | SDiv i j | SRem i j => undivided (c i) (c j) = true
      \/ thin (radix t) (c j) = true
      \/ tight (radix t) (c j) /\ written t (c i) (c j) (known_division t)
  | SSquare i => (width (c i) <= 1131)%nat
  | SPow i e => forall k, 0 <= k -> 2 ^ (k + 1) <= Z.of_N e ->
      (raised (radix t) (width (c i)) (worth (c i)) (2 ^ k) <= 1131)%nat
  | SShl _ n => is_binary t = true \/ one_pass (radix t) n = true
      \/ forall k, 0 <= k -> 2 ^ (k + 1) <= n -> 2 ^ 2 ^ k < radix t ^ 1131
  | SDivInt _ n | SRemInt _ n => n < radix t \/ scales t 2 n
  | _ => True
  end.

(** Steps that do not panic.  A binary digit has [Z.log2 (radix t)] bits; a decimal
    number can be shifted to the right by as many bits as a digit has hexadecimal
    places. *)
Definition goes (t : dty) (s : step) (c : cells) : Prop :=
  match s with
  | SSub i j => (width (c j) <= width (c i))%nat /\ worth (c j) <= worth (c i)
  | SMul i j => ~ jam (radix t) (width (c i)) (worth (c i)) (width (c j)) (worth (c j))
  | SSquare i => ~ jam (radix t) (width (c i)) (worth (c i)) (width (c i)) (worth (c i))
  | SPow i e => ~ jam_raise (radix t) (width (c i)) (worth (c i)) (Z.of_N e)
  | SShl i n => is_binary t = true \/ one_pass (radix t) n = true
      \/ ~ (jam_power (radix t) 2 n
            \/ jam (radix t) (width (c i)) (worth (c i)) (places (radix t) (2 ^ n)) (2 ^ n))
  | SShr i n => if is_binary t then n / Z.log2 (radix t) <= Z.of_nat (width (c i))
                else n <= 4 * (Z.log2 (radix t) / 4)
  | SDiv i j | SRem i j => undivided (c i) (c j) = true
      \/ worth (c j) <> 0 /\ ~ no_room (radix t) (c i) (c j)
         /\ written t (c i) (c j) (fun x y => (20 <= length y)%nat -> ~ recursive_jam t x y)
  | SSubInt i n => n <= worth (c i)
  | SDivInt _ n | SRemInt _ n => n <> 0
  | _ => True
  end.

(** What a step that panics says. *)
Definition says (t : dty) (s : step) (c : cells) : panic :=
  match s with
  | SSub _ _ => PExplicit Underflow
  | SSubInt i n => if ((radix t <=? n) && (Z.of_nat (width (c i)) =? 0) && (n mod radix t =? 0))%bool
                   then PIndex else PExplicit Underflow
  | SDiv _ j | SRem _ j => if worth (c j) =? 0 then PExplicit DivisionByZero
                           else if thin (radix t) (c j) then PExplicit NoSpace else PUnwrap Underflow
  | SDivInt _ _ | SRemInt _ _ => PExplicit DivisionByZero
  | SShr _ _ => if is_binary t then PIndex else PUnimplemented
  | _ => PUnwrap Underflow
  end.

(** The registers after a step that does not panic. *)
Definition after (t : dty) (s : step) (c : cells) : cells :=
  let B := radix t in
  let norm v := Cell (places B v) v in
  match s with
  | SAdd i j => let v := worth (c i) + worth (c j) in
      update c i (Cell (wide B (Nat.max (width (c i)) (width (c j))) v) v)
  | SSub i j => update c i (Cell (left_over B (width (c i)) (worth (c i)) (width (c j)) (worth (c j)))
                                 (worth (c i) - worth (c j)))
  | SMul i j => update c i (norm (worth (c i) * worth (c j)))
  | SDiv i j => update c i (if undivided (c i) (c j) then Cell 0 0 else norm (worth (c i) / worth (c j)))
  | SRem i j => update c i (if undivided (c i) (c j) then c i else norm (worth (c i) mod worth (c j)))
  | SSquare i => update c i (norm (worth (c i) * worth (c i)))
  | SPow i e => update c i (Cell (raised B (width (c i)) (worth (c i)) (Z.of_N e)) (worth (c i) ^ Z.of_N e))
  | SShl i n => update c i (
      if is_binary t
      then Cell (Z.to_nat (n / Z.log2 B) + wide B (width (c i)) (worth (c i) * 2 ^ (n mod Z.log2 B)))
                (worth (c i) * 2 ^ n)
      else if one_pass B n then Cell (wide B (width (c i)) (worth (c i) * 2 ^ n)) (worth (c i) * 2 ^ n)
      else norm (worth (c i) * 2 ^ n))
  | SShr i n => update c i (
      if (is_binary t && (n mod Z.log2 B =? 0))%bool
      then Cell (width (c i) - Z.to_nat (n / Z.log2 B)) (worth (c i) / 2 ^ n)
      else norm (worth (c i) / 2 ^ n))
  | SAddInt i n => let v := worth (c i) + n in
      update c i (Cell (wide B (if n <? B then width (c i) else Nat.max 2 (width (c i))) v) v)
  | SSubInt i n => update c i (
      if n <? B then Cell (kept B (c i) n) (worth (c i) - n)
      else Cell (kept2 B (c i) n) ((worth (c i) - n) mod B ^ Z.of_nat (kept2 B (c i) n)))
  | SMulInt i n => let v := worth (c i) * n in
      update c i (if n =? 0 then Cell 0 0
                  else if n <? B then Cell (wide B (width (c i)) v) v else norm v)
  | SDivInt i n => update c i (norm (worth (c i) / n))
  | SRemInt i n => update c i (norm (worth (c i) mod n))
  | SCopy i j => update c i (c j)
  | SSet i n => update c i (norm n)
  end.

(** Steps whose outcome is known in every state. *)
Definition plain (t : dty) (s : step) : Prop :=
  match s with
  | SDiv _ _ | SRem _ _ | SSquare _ => False
  | SPow _ e => (e <= 1)%N
  | SShl _ n => is_binary t = true \/ one_pass (radix t) n = true
  | SDivInt _ n | SRemInt _ n => n < radix t
  | _ => True
  end.

(** Programs. *)
Fixpoint charted_run (t : dty) (p : list step) (c : cells) : Prop :=
  match p with
  | [] => True
  | s :: p => charted t s c /\ (goes t s c -> charted_run t p (after t s c))
  end.
Fixpoint all_go (t : dty) (p : list step) (c : cells) : Prop :=
  match p with [] => True | s :: p => goes t s c /\ all_go t p (after t s c) end.
Fixpoint final (t : dty) (p : list step) (c : cells) : cells :=
  match p with [] => c | s :: p => final t p (after t s c) end.
(** The first step that panics says [w]. *)
Fixpoint stop_says (t : dty) (p : list step) (c : cells) (w : panic) : Prop :=
  match p with
  | [] => False
  | s :: p => (~ goes t s c /\ w = says t s c) \/ (goes t s c /\ stop_says t p (after t s c) w)
  end.
