(** * Digit: model of src/digit.rs (digit types and their arithmetic).

    No proofs in this file.  A digit is the storage integer inside
    [BinaryDigit(_)] / [DecimalDigit(_)], as a [Z].  Machine arithmetic is
    modelled by the [w]-bit operations below; [dbg] selects a debug build
    (overflow and shift checks panic) or a release build (wrapping). *)
From Coq Require Import ZArith List Bool.
From Verif Require Import Base.
Import ListNotations.
Open Scope Z_scope.
Open Scope m_scope.

(** ** Machine words *)
Section Word.
Variable dbg : bool.
Variable w : Z.   (* width in bits *)

Definition wrap (x : Z) : Z := x mod 2 ^ w.
Definition checked (x : Z) : M Z :=
  if (0 <=? x) && (x <? 2 ^ w) then Ret x
  else if dbg then Panic POverflow else Ret (wrap x).
(** Rust [+], [-], [*] *)
Definition w_add (a b : Z) : M Z := checked (a + b).
Definition w_sub (a b : Z) : M Z := checked (a - b).
Definition w_mul (a b : Z) : M Z := checked (a * b).
(** Rust [<<] and [>>]: the shift amount is checked in debug builds and taken
    modulo the width in release builds; bits shifted out are lost. *)
Definition w_shl (a s : Z) : M Z :=
  if (0 <=? s) && (s <? w) then Ret (wrap (Z.shiftl a s))
  else if dbg then Panic POverflow else Ret (wrap (Z.shiftl a (s mod w))).
Definition w_shr (a s : Z) : M Z :=
  if (0 <=? s) && (s <? w) then Ret (Z.shiftr a s)
  else if dbg then Panic POverflow else Ret (Z.shiftr a (s mod w)).
(** Rust [/] and [%] *)
Definition w_div (a b : Z) : M Z := if b =? 0 then Panic PDivZero else Ret (a / b).
Definition w_rem (a b : Z) : M Z := if b =? 0 then Panic PDivZero else Ret (a mod b).
(** [overflowing_add], [overflowing_sub], [wrapping_sub] *)
Definition o_add (a b : Z) : Z * bool := (wrap (a + b), 2 ^ w <=? a + b).
Definition o_sub (a b : Z) : Z * bool := (wrap (a - b), a <? b).
Definition leading_zeros (a : Z) : Z := if a =? 0 then w else w - 1 - Z.log2 a.
Definition b2z (b : bool) : Z := if b then 1 else 0.
End Word.

(** ** The digit trait, src/digit.rs:50-132, as a record of operations.
    A method taking [&mut self] returns the new digit next to its result. *)
Record digit := mkDigit {
  d_dbg : bool;                                  (* build profile, for debug_assert! *)
  d_MAX : Z;
  d_from_base_str : list Z -> Z -> result Z;     (* bytes, base *)
  d_max_shift : Z -> M Z;
  d_inc : Z -> M (Z * bool);
  d_dec : Z -> M (Z * bool);
  d_add_carry : Z -> Z -> bool -> M (Z * bool);
  d_sub_carry : Z -> Z -> bool -> M (Z * bool);
  d_shl_carry : Z -> Z -> Z -> M (Z * Z);        (* self, shift, carry *)
  d_shr_carry : Z -> Z -> Z -> M (Z * Z);
  d_double_carry : Z -> bool -> M (Z * bool);
  d_mul_carry : Z -> Z -> Z -> M (Z * Z);        (* self, fac, carry *)
  d_rem_carry : Z -> Z -> Z -> M Z;
  d_div_carry : Z -> Z -> Z -> M (Z * Z);
  d_div3_carry : Z -> Z -> M (Z * Z);
  d_add_prod_carry : Z -> Z -> Z -> Z -> M (Z * Z); (* self, fac0, fac1, carry *)
  d_sub_prod_carry : Z -> Z -> Z -> Z -> M (Z * Z)
}.

(** src/digit.rs:59-62 from_bit *)
Definition from_bit (b : bool) : Z := if b then 1 else 0.

(** ** Rust's [uN::from_str_radix] (standard library, modelled):
    optional leading '+', then at least one digit valid in the base; error on
    anything else and on overflow of [w] bits. *)
Definition char_digit (base c : Z) : option Z :=
  let v := if (48 <=? c) && (c <=? 57) then c - 48
           else if (97 <=? c) && (c <=? 122) then c - 97 + 10
           else if (65 <=? c) && (c <=? 90) then c - 65 + 10
           else base in
  if v <? base then Some v else None.

Fixpoint radix_acc (w base : Z) (acc : Z) (s : list Z) : option Z :=
  match s with
  | [] => Some acc
  | c :: t => match char_digit base c with
              | None => None
              | Some v => if acc * base + v <? 2 ^ w then radix_acc w base (acc * base + v) t
                          else None
              end
  end.

Definition from_str_radix (w base : Z) (s : list Z) : option Z :=
  match s with
  | [] => None
  | [43] => None
  | 43 :: t => radix_acc w base 0 t
  | _ => radix_acc w base 0 s
  end.

(** ** Binary digits *)
Section Binary.
Variable dbg : bool.
Variable w : Z.     (* NR_BITS, src/digit.rs:140 *)
(* the wide type ($wdt) has 2*w bits: u8/u16, u16/u32, u32/u64 in the macro at
   src/digit.rs:154-286, u64/u128 in the impl at 288-412 *)
Let W := 2 * w.

(** src/digit.rs:159, 290 *)
Definition bin_MAX : Z := 2 ^ w - 1.

(** src/digit.rs:161-166, 292-297 *)
Definition bin_from_base_str (s : list Z) (base : Z) : result Z :=
  match from_str_radix w base s with Some d => ROk d | None => RErr InvalidNumber end.

(** src/digit.rs:168-172, 299-303 *)
Definition bin_max_shift (d : Z) : M Z := Ret (leading_zeros w d).

(** src/digit.rs:174-180, 305-311 *)
Definition bin_inc (d : Z) : M (Z * bool) := Ret (o_add w d 1).

(** src/digit.rs:182-188, 313-319 *)
Definition bin_dec (d : Z) : M (Z * bool) := Ret (o_sub w d 1).

(** src/digit.rs:190-197, 321-328 *)
Definition bin_add_carry (d other : Z) (carry : bool) : M (Z * bool) :=
  let '(n, overflow0) := o_add w d other in
  let '(n, overflow1) := o_add w n (b2z carry) in
  Ret (n, overflow0 || overflow1).

(** src/digit.rs:199-206, 330-337 *)
Definition bin_sub_carry (d other : Z) (carry : bool) : M (Z * bool) :=
  let '(n, underflow0) := o_sub w d other in
  let '(n, underflow1) := o_sub w n (b2z carry) in
  Ret (n, underflow0 || underflow1).

(** src/digit.rs:208-214, 339-345 *)
Definition bin_shl_carry (d shift carry : Z) : M (Z * Z) :=
  new_carry <- w_shr dbg w d (w - shift) ;;
  h <- w_shl dbg w d shift ;;
  Ret (Z.lor h carry, new_carry).

(** src/digit.rs:216-223, 347-354 *)
Definition bin_shr_carry (d shift carry : Z) : M (Z * Z) :=
  b1 <- w_shl dbg w 1 (shift - 1) ;;
  b2 <- w_shl dbg w 1 (shift - 1) ;;
  b2 <- w_sub dbg w b2 1 ;;
  let mask := Z.lor b1 b2 in
  let new_carry := Z.land d mask in
  h <- w_shl dbg w carry (w - shift) ;;
  l <- w_shr dbg w d shift ;;
  Ret (Z.lor h l, new_carry).

(** src/digit.rs:225-231, 356-362 *)
Definition bin_double_carry (d : Z) (carry : bool) : M (Z * bool) :=
  top <- w_shl dbg w 1 (w - 1) ;;
  let overflow := negb (Z.land d top =? 0) in
  h <- w_shl dbg w d 1 ;;
  Ret (Z.lor h (b2z carry), overflow).

(** src/digit.rs:233-239, 364-370 *)
Definition bin_mul_carry (d fac carry : Z) : M (Z * Z) :=
  p <- w_mul dbg W d fac ;;
  tmp <- w_add dbg W p carry ;;
  hi <- w_shr dbg W tmp w ;;
  Ret (wrap w (Z.land tmp bin_MAX), wrap w hi).

(** src/digit.rs:241-246, 372-377 *)
Definition bin_rem_carry (d fac carry : Z) : M Z :=
  h <- w_shl dbg W carry w ;;
  let tmp := Z.lor h d in
  r <- w_rem tmp fac ;;
  Ret (wrap w r).

(** src/digit.rs:248-254, 379-385; the casts "as $dt" truncate *)
Definition bin_div_carry (d fac carry : Z) : M (Z * Z) :=
  h <- w_shl dbg W carry w ;;
  let tmp := Z.lor h d in
  q <- w_div tmp fac ;;
  r <- w_rem tmp fac ;;
  Ret (wrap w q, wrap w r).

(** src/digit.rs:256-262 (u8, u16, u32) *)
Definition bin_div3_carry (d carry : Z) : M (Z * Z) :=
  h <- w_shl dbg W carry w ;;
  let tmp := Z.lor h d in
  Ret (wrap w (tmp / 3), wrap 8 (tmp mod 3)).

(** src/digit.rs:387-394 (u64) *)
Definition bin64_div3_carry (d carry : Z) : M (Z * Z) :=
  let BASE_DIV_3 := bin_MAX / 3 in
  let rem := d mod 3 in
  a <- w_mul dbg w carry BASE_DIV_3 ;;
  b <- w_add dbg w (d / 3) a ;;
  c <- w_add dbg w carry rem ;;
  d' <- w_add dbg w b (c / 3) ;;
  r <- w_add dbg 8 (wrap 8 carry) (wrap 8 rem) ;;
  Ret (d', r mod 3).

(** src/digit.rs:264-270, 396-402 *)
Definition bin_add_prod_carry (d fac0 fac1 carry : Z) : M (Z * Z) :=
  p <- w_mul dbg W fac0 fac1 ;;
  tmp <- w_add dbg W d p ;;
  tmp <- w_add dbg W tmp carry ;;
  hi <- w_shr dbg W tmp w ;;
  Ret (wrap w (Z.land tmp bin_MAX), wrap w hi).

(** src/digit.rs:272-279, 404-411 *)
Definition bin_sub_prod_carry (d fac0 fac1 carry : Z) : M (Z * Z) :=
  p <- w_mul dbg W fac0 fac1 ;;
  tmp <- w_add dbg W p carry ;;
  let '(n, underflow) := o_sub w d (wrap w (Z.land tmp bin_MAX)) in
  hi <- w_shr dbg W tmp w ;;
  c <- w_add dbg w (wrap w hi) (b2z underflow) ;;
  Ret (n, c).

Definition bin_digit (is64 : bool) : digit := {|
  d_dbg := dbg;
  d_MAX := bin_MAX;
  d_from_base_str := bin_from_base_str;
  d_max_shift := bin_max_shift;
  d_inc := bin_inc;
  d_dec := bin_dec;
  d_add_carry := bin_add_carry;
  d_sub_carry := bin_sub_carry;
  d_shl_carry := bin_shl_carry;
  d_shr_carry := bin_shr_carry;
  d_double_carry := bin_double_carry;
  d_mul_carry := bin_mul_carry;
  d_rem_carry := bin_rem_carry;
  d_div_carry := bin_div_carry;
  d_div3_carry := if is64 then bin64_div3_carry else bin_div3_carry;
  d_add_prod_carry := bin_add_prod_carry;
  d_sub_prod_carry := bin_sub_prod_carry |}.
End Binary.

(** ** Decimal digits *)
Section Decimal.
Variable dbg : bool.
Variable w : Z.       (* storage width *)
Variable R : Z.       (* DECIMAL_RADIX, src/digit.rs:29-47 *)
Let W := 2 * w.

(** src/digit.rs:520, 692 *)
Definition dec_MAX : Z := R - 1.

(** src/digit.rs:522-534, 694-706 *)
Definition dec_from_base_str (s : list Z) (base : Z) : result Z :=
  match from_str_radix w base s with
  | Some d => if d <? R then ROk d else RErr InvalidNumber
  | None => RErr InvalidNumber
  end.

(** src/digit.rs:536-541, 708-713 (u32 arithmetic on the shift) *)
Definition dec_max_shift (d : Z) : M Z :=
  shift <- w_sub dbg 32 (leading_zeros w d) (leading_zeros w dec_MAX) ;;
  s <- w_shl dbg w d shift ;;
  if s <=? dec_MAX then Ret shift else w_sub dbg 32 shift 1.

(** src/digit.rs:543-556, 715-728 *)
Definition dec_inc (d : Z) : M (Z * bool) :=
  if d =? R - 1 then Ret (0, true)
  else d <- w_add dbg w d 1 ;; Ret (d, false).

(** src/digit.rs:558-571, 730-743 *)
Definition dec_dec (d : Z) : M (Z * bool) :=
  if d =? 0 then Ret (R - 1, true)
  else d <- w_sub dbg w d 1 ;; Ret (d, false).

(** src/digit.rs:573-586 (u8, u16, u32) *)
Definition dec_add_carry (d other : Z) (carry : bool) : M (Z * bool) :=
  o <- w_add dbg w other (b2z carry) ;;
  d <- w_add dbg w d o ;;
  if R <=? d then d <- w_sub dbg w d R ;; Ret (d, true) else Ret (d, false).

(** src/digit.rs:745-759 (u64) *)
Definition dec64_add_carry (d other : Z) (carry : bool) : M (Z * bool) :=
  o <- w_add dbg w other (b2z carry) ;;
  let '(sum, overflow) := o_add w d o in
  if overflow || (R <=? sum) then Ret (wrap w (sum - R), true) else Ret (sum, false).

(** src/digit.rs:588-602, 761-775 *)
Definition dec_sub_carry (d other : Z) (carry : bool) : M (Z * bool) :=
  diff <- w_add dbg w other (b2z carry) ;;
  if d <? diff
  then x <- w_sub dbg w R diff ;; d <- w_add dbg w d x ;; Ret (d, true)
  else d <- w_sub dbg w d diff ;; Ret (d, false).

(** src/digit.rs:493-512 div_rem_base (u64 only) *)
Definition SCALE_LOW : Z := 6225051964306646475.
Definition SCALE_HIGH : Z := 15581492618384294730.
Definition div_rem_base (n : Z) : M (Z * Z) :=
  let n_low := Z.land n (2 ^ 64 - 1) in
  n_high <- w_shr dbg 128 n 64 ;;
  c <- w_mul dbg 128 SCALE_LOW n_low ;;
  carry <- w_shr dbg 128 c 64 ;;
  a <- w_mul dbg 128 SCALE_LOW n_high ;;
  b <- w_mul dbg 128 SCALE_HIGH n_low ;;
  a <- w_add dbg 128 a b ;;
  a <- w_add dbg 128 a carry ;;
  carry <- w_shr dbg 128 a 64 ;;
  a <- w_mul dbg 128 SCALE_HIGH n_high ;;
  a <- w_add dbg 128 a carry ;;
  a <- w_add dbg 128 a n_low ;;
  a <- w_shr dbg 128 a 64 ;;
  quot <- w_add dbg 128 a n_high ;;
  p <- w_mul dbg 128 quot R ;;
  rem <- w_sub dbg 128 n p ;;
  Ret (wrap 64 quot, wrap 64 rem).

(** Splitting a wide intermediate into (high, low) digit: [tmp / R], [tmp % R]
    in the macro, div_rem_base for u64. *)
Definition dec_split_wide (tmp : Z) : M (Z * Z) :=
  Ret (wrap w (tmp / R), wrap w (tmp mod R)).

Section WithSplit.
Variable split_wide : Z -> M (Z * Z).

(** src/digit.rs:604-610, 777-784 *)
Definition dec_shl_carry (d shift carry : Z) : M (Z * Z) :=
  h <- w_shl dbg W d shift ;;
  tmp <- w_add dbg W h carry ;;
  '(q, r) <- split_wide tmp ;;
  Ret (r, q).

(** src/digit.rs:636-642, 811-818 *)
Definition dec_mul_carry (d fac carry : Z) : M (Z * Z) :=
  p <- w_mul dbg W d fac ;;
  tmp <- w_add dbg W p carry ;;
  '(q, r) <- split_wide tmp ;;
  Ret (r, q).

(** src/digit.rs:667-673, 845-852 *)
Definition dec_add_prod_carry (d fac0 fac1 carry : Z) : M (Z * Z) :=
  p <- w_mul dbg W fac0 fac1 ;;
  tmp <- w_add dbg W d p ;;
  tmp <- w_add dbg W tmp carry ;;
  '(q, r) <- split_wide tmp ;;
  Ret (r, q).

(** src/digit.rs:675-681, 854-861 *)
Definition dec_sub_prod_carry (d fac0 fac1 carry : Z) : M (Z * Z) :=
  p <- w_mul dbg W fac0 fac1 ;;
  tmp <- w_add dbg W p carry ;;
  '(q, r) <- split_wide tmp ;;
  '(d, underflow) <- dec_sub_carry d r false ;;
  c <- w_add dbg w q (b2z underflow) ;;
  Ret (d, c).
End WithSplit.

(** src/digit.rs:612-619, 786-793 *)
Definition dec_shr_carry (d shift carry : Z) : M (Z * Z) :=
  b1 <- w_shl dbg W 1 (shift - 1) ;;
  b2 <- w_shl dbg W 1 (shift - 1) ;;
  b2 <- w_sub dbg W b2 1 ;;
  let mask := Z.lor b1 b2 in
  p <- w_mul dbg W carry R ;;
  tmp <- w_add dbg W p d ;;
  l <- w_shr dbg W tmp shift ;;
  Ret (wrap w l, wrap w (Z.land tmp mask)).

(** src/digit.rs:621-634 (u8, u16, u32) *)
Definition dec_double_carry (d : Z) (carry : bool) : M (Z * bool) :=
  h <- w_shl dbg w d 1 ;;
  let d := Z.lor h (b2z carry) in
  if R <=? d then d <- w_sub dbg w d R ;; Ret (d, true) else Ret (d, false).

(** src/digit.rs:795-809 (u64) *)
Definition dec64_double_carry (d : Z) (carry : bool) : M (Z * bool) :=
  top <- w_shl dbg w 1 63 ;;
  let overflow := negb (Z.land d top =? 0) in
  h <- w_shl dbg w d 1 ;;
  let d := Z.lor h (b2z carry) in
  if overflow || (R <=? d) then Ret (wrap w (d - R), true) else Ret (d, false).

(** src/digit.rs:644-649, 820-825 *)
Definition dec_rem_carry (d fac carry : Z) : M Z :=
  p <- w_mul dbg W carry R ;;
  tmp <- w_add dbg W p d ;;
  r <- w_rem tmp fac ;;
  Ret (wrap w r).

(** src/digit.rs:651-657, 827-833 *)
Definition dec_div_carry (d fac carry : Z) : M (Z * Z) :=
  p <- w_mul dbg W carry R ;;
  tmp <- w_add dbg W p d ;;
  q <- w_div tmp fac ;;
  r <- w_rem tmp fac ;;
  Ret (wrap w q, wrap w r).

(** src/digit.rs:659-665 (u8, u16, u32) *)
Definition dec_div3_carry (d carry : Z) : M (Z * Z) :=
  p <- w_mul dbg W carry R ;;
  tmp <- w_add dbg W p d ;;
  Ret (wrap w (tmp / 3), wrap 8 (tmp mod 3)).

(** src/digit.rs:835-843 (u64) *)
Definition dec64_div3_carry (d carry : Z) : M (Z * Z) :=
  let BASE_DIV_3 := dec_MAX / 3 in
  d <- w_add dbg w d carry ;;
  let rem := d mod 3 in
  a <- w_mul dbg w carry BASE_DIV_3 ;;
  d <- w_add dbg w (d / 3) a ;;
  Ret (d, wrap 8 rem).

Definition dec_digit (is64 : bool) : digit :=
  let split_wide := if is64 then div_rem_base else dec_split_wide in {|
  d_dbg := dbg;
  d_MAX := dec_MAX;
  d_from_base_str := dec_from_base_str;
  d_max_shift := dec_max_shift;
  d_inc := dec_inc;
  d_dec := dec_dec;
  d_add_carry := if is64 then dec64_add_carry else dec_add_carry;
  d_sub_carry := dec_sub_carry;
  d_shl_carry := dec_shl_carry split_wide;
  d_shr_carry := dec_shr_carry;
  d_double_carry := if is64 then dec64_double_carry else dec_double_carry;
  d_mul_carry := dec_mul_carry split_wide;
  d_rem_carry := dec_rem_carry;
  d_div_carry := dec_div_carry;
  d_div3_carry := if is64 then dec64_div3_carry else dec_div3_carry;
  d_add_prod_carry := dec_add_prod_carry split_wide;
  d_sub_prod_carry := dec_sub_prod_carry split_wide |}.
End Decimal.

(** ** The eight digit types, src/digit.rs:284-288, 686-690 *)
Inductive dty := B8 | B16 | B32 | B64 | D8 | D16 | D32 | D64.

Definition is_binary (t : dty) : bool :=
  match t with B8 | B16 | B32 | B64 => true | _ => false end.

(** storage width in bits *)
Definition bits (t : dty) : Z :=
  match t with B8 | D8 => 8 | B16 | D16 => 16 | B32 | D32 => 32 | B64 | D64 => 64 end.

Definition is64 (t : dty) : bool := match t with B64 | D64 => true | _ => false end.

(** src/digit.rs:29-47 DECIMAL_RADIX of the storage type *)
Definition decimal_radix (t : dty) : Z :=
  match t with
  | B8 | D8 => 100
  | B16 | D16 => 10000
  | B32 | D32 => 1000000000
  | B64 | D64 => 10000000000000000000
  end.

Definition impl (dbg : bool) (t : dty) : digit :=
  if is_binary t then bin_digit dbg (bits t) (is64 t)
  else dec_digit dbg (bits t) (decimal_radix t) (is64 t).

(** size_of::<T>() *)
Definition size_of (t : dty) : nat :=
  match t with B8 | D8 => 1 | B16 | D16 => 2 | B32 | D32 => 4 | B64 | D64 => 8 end.
(** src/digit.rs:140-151: BinaryDigit constants *)
Definition NR_HEX_PLACES (t : dty) : nat := 2 * size_of t.
Definition MAX_DECIMAL_PLACES (t : dty) : nat :=
  Z.to_nat (Z.of_nat (size_of t) * 643 / 267).
Definition nr_decimal_places (t : dty) (nr_digits : nat) : nat :=
  Z.to_nat (Z.of_nat nr_digits * Z.of_nat (size_of t) * 643 / 267).
(** src/digit.rs:466-468: DecimalDigit constants *)
Definition NR_DECIMAL_PLACES (t : dty) : nat :=
  Z.to_nat (8 * Z.of_nat (size_of t) * 4004 / 13301).
Definition MAX_HEX_PLACES (t : dty) : nat := 2 * size_of t - 1.

(** src/digit.rs:470-482 fits_single, split (here split_dec; returns (high, low)) *)
Definition fits_single (t : dty) (d : Z) : bool := d <? decimal_radix t.
Definition split_dec (t : dty) (d : Z) : Z * Z := (d / decimal_radix t, d mod decimal_radix t).
