(** * Text: model of the parsing and formatting impls of src/ubig.rs.

    No proofs in this file.  A string is its list of bytes.  The standard
    library pieces used (rchunks, strip_prefix, Formatter::pad_integral and the
    integer Display/LowerHex/UpperHex impls) are modelled here as well. *)
From Coq Require Import ZArith List Bool.
From Verif Require Import Base Digit Slice Mul Div UBig.
Import ListNotations.
Open Scope Z_scope.
Open Scope m_scope.

Definition bytes := list Z.

(** [s.as_bytes().rchunks(k)]: chunks of length [k] counted from the end, the
    last one (the most significant) possibly shorter *)
Fixpoint chunks (fuel k : nat) (l : bytes) : list bytes :=
  match fuel, l with
  | O, _ => []
  | _, [] => []
  | S f, _ => firstn k l :: chunks f k (skipn k l)
  end.
Definition rchunks (k : nat) (l : bytes) : list bytes :=
  map (@rev Z) (chunks (length l) k (rev l)).

Definition is_ascii (s : bytes) : bool := forallb (fun c => c <? 128) s.

(** [s.strip_prefix("0x")] *)
Definition strip_0x (s : bytes) : option bytes :=
  match s with 48 :: 120 :: r => Some r | _ => None end.

Section Parse.
Variable dbg : bool.
Variable t : dty.
Let D := impl dbg t.

(** push one digit per chunk, src/ubig.rs:416-420 and 465-469 *)
Fixpoint push_digits (base : Z) (parts : list bytes) : result digits :=
  match parts with
  | [] => ROk []
  | p :: ps =>
      match d_from_base_str D p base with
      | RErr e => RErr e
      | ROk d => match push_digits base ps with
                 | RErr e => RErr e
                 | ROk ds => ROk (d :: ds)
                 end
      end
  end.

(** multiply-and-add one chunk at a time, src/ubig.rs:429-433 and 455-459 *)
Fixpoint mul_add_parts (base scale : Z) (parts : list bytes) (res : digits)
  : M (result digits) :=
  match parts with
  | [] => Ret (ROk res)
  | p :: ps =>
      match d_from_base_str D p base with
      | RErr e => Ret (RErr e)
      | ROk d =>
          res <- ubig_mul_add_assign_digit D res scale d ;;
          mul_add_parts base scale ps res
      end
  end.

Definition new_result (r : result digits) : M (result digits) :=
  match r with
  | RErr e => Ret (RErr e)
  | ROk ds => n <- ubig_new ds ;; Ret (ROk n)
  end.

(** src/ubig.rs:402-437 (binary); [ten.pow(..)] is written as [10 ^ k] checked
    against the storage width *)
Definition from_str_bin (s : bytes) : M (result digits) :=
  if negb (is_ascii s) then Ret (RErr InvalidNumber)
  else match strip_0x s with
  | Some s => new_result (push_digits 16 (rchunks (NR_HEX_PLACES t) s))
  | None =>
      scale <- checked dbg (bits t) (10 ^ Z.of_nat (MAX_DECIMAL_PLACES t)) ;;
      mul_add_parts 10 scale (rev (rchunks (MAX_DECIMAL_PLACES t) s)) ubig_zero
  end.

(** src/ubig.rs:439-473 (decimal) *)
Definition from_str_dec (s : bytes) : M (result digits) :=
  if negb (is_ascii s) then Ret (RErr InvalidNumber)
  else match strip_0x s with
  | Some s =>
      scale <- w_shl dbg (bits t) 1 (4 * Z.of_nat (MAX_HEX_PLACES t)) ;;
      mul_add_parts 16 scale (rev (rchunks (MAX_HEX_PLACES t) s)) ubig_zero
  | None => new_result (push_digits 10 (rchunks (NR_DECIMAL_PLACES t) s))
  end.

Definition from_str (s : bytes) : M (result digits) :=
  if is_binary t then from_str_bin s else from_str_dec s.
End Parse.

(** ** Formatting *)

Inductive align := AUnknown | ALeft | ARight | ACenter.

(** [core::fmt::Formatter] options; [f_width = None] when no width is given *)
Record fmt := mkFmt {
  f_width : option nat;
  f_fill : Z;          (* a character *)
  f_align : align;
  f_plus : bool;       (* {:+} *)
  f_alt : bool;        (* {:#} *)
  f_zero : bool        (* {:0} *)
}.

Definition plain : fmt := mkFmt None 32 AUnknown false false false.

(** Formatter::pad_integral with is_nonnegative = true; [prefix] is "0x" or "" *)
Definition pad_integral (f : fmt) (prefix buf : bytes) : bytes :=
  let sign := if f_plus f then [43] else [] in
  let pre := if f_alt f then prefix else [] in
  let head := sign ++ pre in
  let width := (length buf + length head)%nat in
  match f_width f with
  | None => head ++ buf
  | Some min =>
      if (min <=? width)%nat then head ++ buf
      else
        let pad := (min - width)%nat in
        if f_zero f then head ++ repeat 48 pad ++ buf
        else
          let '(l, r) := match f_align f with
                         | ALeft => (0, pad)
                         | AUnknown | ARight => (pad, 0)
                         | ACenter => (pad / 2, (pad + 1) / 2)
                         end%nat in
          repeat (f_fill f) l ++ head ++ buf ++ repeat (f_fill f) r
  end.

(** digits of [n] in base [base], most significant first, at least one *)
Definition digit_char (upper : bool) (d : Z) : Z :=
  if d <? 10 then 48 + d else if upper then 65 + (d - 10) else 97 + (d - 10).

Fixpoint numeral_fuel (fuel : nat) (base : Z) (upper : bool) (n : Z) (acc : bytes) : bytes :=
  match fuel with
  | O => acc
  | S f =>
      let acc := digit_char upper (n mod base) :: acc in
      if n <? base then acc else numeral_fuel f base upper (n / base) acc
  end.
Definition numeral (base : Z) (upper : bool) (n : Z) : bytes :=
  numeral_fuel (S (Z.to_nat (Z.log2 n))) base upper n [].

(** the integer impls of Display, LowerHex, UpperHex *)
Definition fmt_int (base : Z) (upper : bool) (f : fmt) (n : Z) : bytes :=
  pad_integral f (if base =? 16 then [48; 120] else []) (numeral base upper n).

(** [write!(s, "{:0width$x}", d)] *)
Definition fmt_padded (base : Z) (upper : bool) (width : nat) (n : Z) : bytes :=
  fmt_int base upper (mkFmt (Some width) 32 AUnknown false false true) n.

(** src/ubig.rs:480-493, 502-515, 533-546: the three impls have the same shape *)
Definition fmt_ubig (base : Z) (upper : bool) (places : nat) (f : fmt) (self : digits) : bytes :=
  match rev self with
  | [] => fmt_int base upper f 0
  | [d] => fmt_int base upper f d
  | top :: rest =>
      let s := fmt_int base upper plain top
               ++ concat (map (fmt_padded base upper places) rest) in
      pad_integral f (if base =? 16 then [48; 120] else []) s
  end.

(** src/ubig.rs:475-495, 497-517 *)
Definition fmt_hex (t : dty) (upper : bool) (f : fmt) (self : digits) : bytes :=
  fmt_ubig 16 upper (NR_HEX_PLACES t) f self.

(** src/ubig.rs:528-548 *)
Definition fmt_display_dec (t : dty) (f : fmt) (self : digits) : bytes :=
  fmt_ubig 10 false (NR_DECIMAL_PLACES t) f self.

(** src/ubig.rs:519-526 *)
Definition fmt_display_bin (dbg : bool) (t : dty) (f : fmt) (self : digits) : M bytes :=
  ds <- to_decimal dbg t self ;; Ret (fmt_display_dec t f ds).
