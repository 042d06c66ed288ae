(** * UBig: model of src/ubig.rs (arithmetic part) and src/ubig/ops.rs.

    No proofs in this file.  A [UBig<T>] is its digit vector, a [list Z].
    Compound assignment [x op= y] returns the new [x]; the by-value and
    by-reference operator forms in ops.rs forward to these after moving or
    cloning the operand (ops.rs:83-185, 250-352, 408-509, 595-699, 745-764,
    809-828, 896-998) and are modelled in Forms.v. *)
From Coq Require Import ZArith List Bool.
From Verif Require Import Base Digit Slice Mul Div.
Import ListNotations.
Open Scope Z_scope.
Open Scope m_scope.

(** src/ubig.rs:33 *)
Definition TO_DEC_DIV_CUTOFF : nat := 16.

(** [match r { Ok(n) => .., Err(err) => panic!("Failed to ...: {}", err) }] *)
Definition or_panic {A} (r : result A) : M A :=
  match r with ROk a => Ret a | RErr e => Panic (PExplicit e) end.

(** src/ubig.rs:70-79 *)
Definition ubig_drop_leading_zeros (self : digits) : M digits :=
  let cur_n := length self in
  new_n <- drop_leading_zeros self cur_n ;;
  Ret (if (new_n <? cur_n)%nat then truncate new_n self else self).

(** src/ubig.rs:49-55 *)
Definition ubig_new (ds : digits) : M digits := ubig_drop_leading_zeros ds.

(** src/ubig.rs:345-348, 350-353, 359-362 *)
Definition ubig_zero : digits := [].
Definition ubig_is_zero (self : digits) : bool := match self with [] => true | _ => false end.
Definition ubig_one : digits := [1].

(** derived [PartialEq], src/ubig.rs:38 *)
Fixpoint ubig_eqb (x y : digits) : bool :=
  match x, y with
  | [], [] => true
  | a :: x, b :: y => (a =? b) && ubig_eqb x y
  | _, _ => false
  end.

(** src/ubig.rs:550-567 *)
Definition ubig_cmp (x y : digits) : comparison := num_cmp x y.

Section WithDigit.
Variable D : digit.

(** src/ubig.rs:82-109 *)
Definition add_assign_big_at_offset (self other : digits) (offset : nat) : M digits :=
  let n0 := length self in
  let n1 := length other in
  if (n0 <=? offset)%nat then Ret (self ++ zeros (offset - n0) ++ other)
  else if (n1 <=? n0 - offset)%nat then
    '(self, c) <- with_suffix self offset (fun s => add_assign_big D s other) ;;
    Ret (if c : bool then self ++ [1] else self)
  else
    hi <- suffix other (n0 - offset) ;;
    lo <- prefix other (n0 - offset) ;;
    let self := self ++ hi in
    '(self, c) <- with_suffix self offset (fun s => add_assign_big D s lo) ;;
    Ret (if c : bool then self ++ [1] else self).

(** src/ubig.rs:113-126; on error the digits stay as mutated so far *)
Definition sub_assign_big_at_offset (self other : digits) (offset : nat)
  : M (digits * result unit) :=
  if (length self <? offset)%nat then Ret (self, RErr Underflow)
  else
    '(self, r) <- with_suffix self offset (fun s => sub_assign_big D s other) ;;
    match r with
    | RErr e => Ret (self, RErr e)
    | ROk n0 => Ret (truncate n0 self, ROk tt)
    end.

(** src/ubig.rs:129-145 *)
Definition ubig_mul_add_assign_digit (self : digits) (fac offset : Z) : M digits :=
  '(self, carry) <- (if fac =? 0 then Ret ([], offset)
                     else mul_add_assign_digit D self fac offset) ;;
  Ret (if carry =? 0 then self else self ++ [carry]).

(** src/ubig.rs:149-162 *)
Definition ubig_mul_pair_add_assign_digit (self : digits) (fac_low fac_high offset : Z)
  : M digits :=
  '(self, (carry0, carry1)) <- mul_pair_add_assign_digit D self fac_low fac_high offset ;;
  let self :=
    if negb (carry0 =? 0) || negb (carry1 =? 0) then
      if carry1 =? 0 then self ++ [carry0] else self ++ [carry0] ++ [carry1]
    else self in
  ubig_drop_leading_zeros self.

(** src/ubig.rs:165-181 *)
Definition mul_big (self other : digits) : M digits :=
  if ubig_is_zero self || ubig_is_zero other then Ret ubig_zero
  else
    '(ds, n) <- mul_big_into D self other (zeros (length self + length other)) ;;
    Ret (truncate n ds).

(** src/ubig.rs:184-199 *)
Definition square (self : digits) : M digits :=
  if ubig_is_zero self then Ret ubig_zero
  else
    '(ds, n) <- square_into D self (zeros (2 * length self)) ;;
    Ret (truncate n ds).

(** src/ubig.rs:203-212 *)
Definition ubig_div_assign_digit (self : digits) (fac : Z) : M (digits * result Z) :=
  '(self, r) <- div_assign_digit D self fac ;;
  match r with
  | RErr e => Ret (self, RErr e)
  | ROk (nquot, rem) =>
      Ret (if (nquot <? length self)%nat then truncate nquot self else self, ROk rem)
  end.

(** src/ubig.rs:217-226 *)
Definition ubig_div_assign_digit_pair (self : digits) (fac_low fac_high : Z)
  : M (digits * result (Z * Z)) :=
  '(self, r) <- div_assign_digit_pair D self fac_low fac_high ;;
  match r with
  | RErr e => Ret (self, RErr e)
  | ROk (nquot, rem_low, rem_high) =>
      Ret (if (nquot <? length self)%nat then truncate nquot self else self,
           ROk (rem_low, rem_high))
  end.

(** src/ubig.rs:230-249: (new self, remainder) *)
Definition div_assign_big (self other : digits) : M (digits * result digits) :=
  let nnum := length self in
  let nden := length other in
  if (nnum <? nden)%nat then
    r <- ubig_new self ;; Ret ([], ROk r)
  else
    '((rem, self), r) <- div_big D self other (zeros (nnum - nden + 1)) ;;
    match r with
    | RErr e => Ret (self, RErr e)
    | ROk (nquot, nrem) =>
        r <- ubig_new (truncate nrem rem) ;; Ret (truncate nquot self, ROk r)
    end.

(** src/ubig.rs:261-273 *)
Definition rem_assign_big (self other : digits) : M (digits * result unit) :=
  let nnum := length self in
  let nden := length other in
  if (nden <=? nnum)%nat then
    '((self, _), r) <- div_big D self other (zeros (nnum - nden + 1)) ;;
    match r with
    | RErr e => Ret (self, RErr e)
    | ROk (_, nrem) => Ret (truncate nrem self, ROk tt)
    end
  else Ret (self, ROk tt).

(** ** ops.rs, generic digit and big operands *)

(** src/ubig/ops.rs:19-29  [x += T] with T a digit *)
Definition add_assign_d (self : digits) (digit : Z) : M digits :=
  '(self, c) <- add_assign_digit D self digit ;;
  Ret (match c with Some carry => self ++ [carry] | None => self end).

(** src/ubig/ops.rs:74-81 *)
Definition add_assign (self other : digits) : M digits :=
  add_assign_big_at_offset self other 0.

(** src/ubig/ops.rs:188-198 *)
Definition div_assign_d (self : digits) (digit : Z) : M digits :=
  '(self, r) <- ubig_div_assign_digit self digit ;; _ <- or_panic r ;; Ret self.

(** src/ubig/ops.rs:238-248 *)
Definition div_assign (self other : digits) : M digits :=
  '(self, r) <- div_assign_big self other ;; _ <- or_panic r ;; Ret self.

(** src/ubig/ops.rs:355-362 *)
Definition mul_assign_d (self : digits) (digit : Z) : M digits :=
  ubig_mul_add_assign_digit self digit 0.

(** src/ubig/ops.rs:399-406, 501-509 *)
Definition mul_assign (self other : digits) : M digits := mul_big self other.

(** src/ubig/ops.rs:512-529 *)
Definition rem_assign_d (self : digits) (digit : Z) : M digits :=
  r <- rem_digit D self digit ;;
  rem <- or_panic r ;;
  Ret (if rem =? 0 then [] else [rem]).

(** src/ubig/ops.rs:605-617  [&x % digit] *)
Definition rem_ref_d (self : digits) (digit : Z) : M digits :=
  r <- rem_digit D self digit ;;
  rem <- or_panic r ;;
  ubig_new [rem].

(** src/ubig/ops.rs:583-593 *)
Definition rem_assign (self other : digits) : M digits :=
  '(self, r) <- rem_assign_big self other ;; _ <- or_panic r ;; Ret self.

(** src/ubig/ops.rs:831-842 *)
Definition sub_assign_d (self : digits) (digit : Z) : M digits :=
  '(self, r) <- sub_assign_digit D self digit ;;
  nd <- or_panic r ;;
  Ret (truncate nd self).

(** src/ubig/ops.rs:884-894 *)
Definition sub_assign (self other : digits) : M digits :=
  '(self, r) <- sub_assign_big_at_offset self other 0 ;;
  _ <- or_panic r ;;
  Ret self.

(** src/ubig/ops.rs:1016-1024; [n] is a positive usize, [n % 2], [n >>= 1] *)
Fixpoint pow_loop (n : positive) (result power : digits) : M digits :=
  power <- square power ;;
  match n with
  | xH => mul_assign result power
  | xO n' => pow_loop n' result power
  | xI n' => result <- mul_assign result power ;; pow_loop n' result power
  end.

(** src/ubig/ops.rs:1001-1029 *)
Definition pow (self : digits) (exp : N) : M digits :=
  match exp with
  | 0%N => Ret ubig_one
  | 1%N => Ret self
  | 2%N => square self
  | _ =>
      let result := if N.even exp then ubig_one else self in
      match (exp / 2)%N with
      | N0 => Ret result
      | Npos n => pow_loop n result self
      end
  end.

End WithDigit.

(** ** Operations that differ between binary and decimal digits *)
Section Typed.
Variable dbg : bool.
Variable t : dty.
Let D := impl dbg t.

(** src/ubig.rs:365-400 *)
Definition from_T (n : Z) : digits :=
  if n =? 0 then ubig_zero
  else if is_binary t then [n]
  else if fits_single t n then [n]
  else let '(high, low) := split_dec t n in [low; high].

(** src/ubig/ops.rs:31-63 *)
Definition add_assign_T (self : digits) (n : Z) : M digits :=
  if is_binary t then add_assign_d D self n
  else if fits_single t n then add_assign_d D self n
  else
    let '(high, low) := split_dec t n in
    self <- add_assign_d D self low ;;
    let self := if ubig_is_zero self then [0] else self in
    '(self, c) <- with_suffix self 1 (fun s => add_assign_digit D s high) ;;
    Ret (match c with Some carry => self ++ [carry] | None => self end).

(** src/ubig/ops.rs:200-227 *)
Definition div_assign_T (self : digits) (n : Z) : M digits :=
  if is_binary t then div_assign_d D self n
  else if fits_single t n then div_assign_d D self n
  else
    let '(high, low) := split_dec t n in
    '(self, r) <- ubig_div_assign_digit_pair D self low high ;;
    _ <- or_panic r ;; Ret self.

(** src/ubig/ops.rs:364-388 *)
Definition mul_assign_T (self : digits) (n : Z) : M digits :=
  if is_binary t then mul_assign_d D self n
  else if fits_single t n then mul_assign_d D self n
  else
    let '(high, low) := split_dec t n in
    ubig_mul_pair_add_assign_digit D self low high 0.

(** src/ubig/ops.rs:531-572 *)
Definition rem_assign_T (self : digits) (n : Z) : M digits :=
  if is_binary t then rem_assign_d D self n
  else if fits_single t n then rem_assign_d D self n
  else
    let '(high, low) := split_dec t n in
    '(_, r) <- ubig_div_assign_digit_pair D self low high ;;
    '(rem_low, rem_high) <- or_panic r ;;
    Ret (if negb (rem_high =? 0) then [rem_low; rem_high]
         else if negb (rem_low =? 0) then [rem_low] else []).

(** src/ubig/ops.rs:844-873 *)
Definition sub_assign_T (self : digits) (n : Z) : M digits :=
  if is_binary t then sub_assign_d D self n
  else if fits_single t n then sub_assign_d D self n
  else
    let '(high, low) := split_dec t n in
    self <- sub_assign_d D self low ;;
    '(self, r) <- with_suffix self 1 (fun s => sub_assign_digit D s high) ;;
    nd <- or_panic r ;;
    Ret (truncate nd self).

(** src/ubig/ops.rs:702-743; [n] is the shift (a usize, any non-negative [Z]) *)
Definition shl_assign (self : digits) (n : Z) : M digits :=
  if is_binary t then
    let high := n / bits t in
    let low := n mod bits t in
    self <- (if low =? 0 then Ret self
             else '(self, carry) <- shl_carry_assign_within_digit D self low 0 ;;
                  Ret (if carry =? 0 then self else self ++ [carry])) ;;
    Ret (if high =? 0 then self else zeros (Z.to_nat high) ++ self)
  else if n <=? 4 * Z.of_nat (MAX_HEX_PLACES t) then
    '(self, carry) <- shl_carry_assign_within_digit D self n 0 ;;
    Ret (if carry =? 0 then self else self ++ [carry])
  else
    two <- add_assign D ubig_one ubig_one ;;
    scale <- pow D two (Z.to_N n) ;;
    mul_assign D self scale.

(** src/ubig/ops.rs:767-807 *)
Definition shr_assign (self : digits) (n : Z) : M digits :=
  if is_binary t then
    let high := n / bits t in
    let low := n mod bits t in
    self <- (if high =? 0 then Ret self
             else if Z.of_nat (length self) <? high then Panic PIndex
             else Ret (skipn (Z.to_nat high) self)) ;;
    if low =? 0 then Ret self
    else
      '(self, (nd, _)) <- shr_carry_assign_within_digit D self low 0 ;;
      Ret (if (nd <? length self)%nat then truncate nd self else self)
  else if n <=? 4 * Z.of_nat (MAX_HEX_PLACES t) then
    '(self, (nd, _)) <- shr_carry_assign_within_digit D self n 0 ;;
    Ret (if (nd <? length self)%nat then truncate nd self else self)
  else Panic PUnimplemented.

End Typed.

(** ** Conversion from binary to decimal, src/ubig.rs:279-339 *)
Section ToDecimal.
Variable dbg : bool.
Variable t : dty.          (* a binary digit type *)

(** DecimalDigit<T> for the same storage type T *)
Definition decimal_of (t : dty) : dty :=
  match t with B8 | D8 => D8 | B16 | D16 => D16 | B32 | D32 => D32 | B64 | D64 => D64 end.

(** src/ubig.rs:313-322: loop over [self.digits[..n-1].iter().rev()] *)
Fixpoint build_small (ds : digits) (top : digits) : M digits :=
  match ds with
  | [] => Ret top
  | d :: ds =>
      res <- build_small ds top ;;
      res <- shl_assign dbg (decimal_of t) res (bits t / 2) ;;
      res <- shl_assign dbg (decimal_of t) res (bits t / 2) ;;
      add_assign_T dbg (decimal_of t) res d
  end.

(** src/ubig.rs:324-331: index of the scale to divide by *)
Fixpoint scale_index (fuel : nat) (tot_nr_dec idx nr_dec : nat) : M nat :=
  match fuel with
  | O => NoFuel
  | S f => if (3 * nr_dec <? tot_nr_dec)%nat
           then scale_index f tot_nr_dec (S idx) (2 * nr_dec) else Ret idx
  end.

(** src/ubig.rs:307-339 *)
Fixpoint build_decimal (fuel : nat) (self : digits) (scales : list digits) : M digits :=
  match fuel with
  | O => NoFuel
  | S f =>
      let n := length self in
      if (n =? 0)%nat then Ret []
      else if (n <? TO_DEC_DIV_CUTOFF)%nat then
        top <- get self (n - 1) ;;
        ds <- prefix self (n - 1) ;;
        build_small ds (from_T (decimal_of t) top)
      else
        let tot_nr_dec := nr_decimal_places t n in
        idx <- scale_index (S tot_nr_dec) tot_nr_dec 0 (NR_DECIMAL_PLACES t) ;;
        scale <- match nth_error scales idx with Some s => Ret s | None => Panic PIndex end ;;
        '(self, r) <- div_assign_big (impl dbg t) self scale ;;
        low <- unwrap r ;;
        res <- build_decimal f low scales ;;
        high_dec <- build_decimal f self scales ;;
        Ret (res ++ high_dec)
  end.

(** src/ubig.rs:289-299 *)
Fixpoint build_scales (fuel : nat) (tot_nr_dec nr_dec : nat) (scale : digits)
  : M (list digits) :=
  match fuel with
  | O => NoFuel
  | S f =>
      if (3 * nr_dec <? tot_nr_dec)%nat then
        scale_sq <- square (impl dbg t) scale ;;
        rest <- build_scales f tot_nr_dec (2 * nr_dec) scale_sq ;;
        Ret (scale :: rest)
      else Ret [scale]
  end.

(** src/ubig.rs:279-302 *)
Definition to_decimal (self : digits) : M digits :=
  let fuel := S (length self) in
  if (length self <? TO_DEC_DIV_CUTOFF)%nat then build_decimal fuel self []
  else
    let tot_nr_dec := nr_decimal_places t (length self) in
    scales <- build_scales (S tot_nr_dec) tot_nr_dec (NR_DECIMAL_PLACES t)
                (from_T t (decimal_radix t)) ;;
    build_decimal fuel self scales.
End ToDecimal.
