(** * Div: model of src/ubig/div.rs and src/ubig/div/{long,bz}.rs.

    No proofs in this file. *)
From Coq Require Import ZArith List Bool.
From Verif Require Import Base Digit Slice Mul.
Import ListNotations.
Open Scope Z_scope.
Open Scope m_scope.

(** src/ubig/div.rs:23 *)
Definition BZ_CUTOFF : nat := 20.

Section WithDigit.
Variable D : digit.

Fixpoint rem_loop (nr : digits) (fac carry : Z) : M Z :=
  match nr with
  | [] => Ret carry
  | d :: t => c <- rem_loop t fac carry ;; d_rem_carry D d fac c
  end.

(** src/ubig/div.rs:27-39; the method src/ubig.rs:253-257 forwards to it *)
Definition rem_digit (nr : digits) (fac : Z) : M (result Z) :=
  if fac =? 0 then Ret (RErr DivisionByZero)
  else r <- rem_loop nr fac 0 ;; Ret (ROk r).

Fixpoint div_loop (nr : digits) (fac carry : Z) : M (digits * Z) :=
  match nr with
  | [] => Ret ([], carry)
  | d :: t =>
      '(t, c) <- div_loop t fac carry ;;
      '(d, c) <- d_div_carry D d fac c ;;
      Ret (d :: t, c)
  end.

(** src/ubig/div.rs:56-69 *)
Definition div_assign_digit (nr : digits) (fac : Z) : M (digits * result (nat * Z)) :=
  if fac =? 0 then Ret (nr, RErr DivisionByZero)
  else
    '(nr, rem) <- div_loop nr fac 0 ;;
    nquot <- drop_leading_zeros nr (length nr) ;;
    Ret (nr, ROk (nquot, rem)).

(** [a > b] on arrays: lexicographic *)
Definition array_gt (a b : digits) : bool :=
  match lex_cmp a b with Gt => true | _ => false end.

(** One round of the loop of src/ubig/div.rs:100-131.  Returns the quotient
    digit and the new (rem_high, rem_low). *)
Definition div_pair_step (den_low den_high digit rem_high rem_low : Z)
  : M (Z * (Z * Z)) :=
  '(quot, _) <- d_div_carry D rem_low den_high rem_high ;;
  '(d1, c1) <- d_mul_carry D den_low quot 0 ;;
  '(d2, d3) <- d_mul_carry D den_high quot c1 ;;
  '(quot, d1, d2) <-
    (if array_gt [d3; d2; d1] [rem_high; rem_low; digit] then
       '(quot, _) <- d_dec D quot ;;
       '(d1, carry) <- d_sub_carry D d1 den_low false ;;
       '(d2, u) <- d_sub_carry D d2 den_high carry ;;
       d3 <- (if u then '(x, _) <- d_dec D d3 ;; Ret x else Ret d3) ;;
       if array_gt [d3; d2; d1] [rem_high; rem_low; digit] then
         '(quot, _) <- d_dec D quot ;;
         '(d1, carry) <- d_sub_carry D d1 den_low false ;;
         '(d2, _) <- d_sub_carry D d2 den_high carry ;;
         Ret (quot, d1, d2)
       else Ret (quot, d1, d2)
     else Ret (quot, d1, d2)) ;;
  '(digit, carry) <- d_sub_carry D digit d1 false ;;
  '(rem_low, _) <- d_sub_carry D rem_low d2 carry ;;
  Ret (quot, (rem_low, digit)).

Fixpoint div_pair_loop (nr : digits) (den_low den_high rem_high rem_low : Z)
  : M (digits * (Z * Z)) :=
  match nr with
  | [] => Ret ([], (rem_high, rem_low))
  | d :: t =>
      '(t, (rh, rl)) <- div_pair_loop t den_low den_high rem_high rem_low ;;
      '(q, r) <- div_pair_step den_low den_high d rh rl ;;
      Ret (q :: t, r)
  end.

(** src/ubig/div.rs:74-144; the result is (nquot, rem_low, rem_high) *)
Definition div_assign_digit_pair (nr : digits) (fac_low fac_high : Z)
  : M (digits * result (nat * Z * Z)) :=
  if fac_high =? 0 then
    '(nr, r) <- div_assign_digit nr fac_low ;;
    Ret (nr, match r with ROk (nq, rem) => ROk (nq, rem, 0) | RErr e => RErr e end)
  else match nr with
  | [] => Ret (nr, ROk (0%nat, 0, 0))
  | [d] => Ret ([0], ROk (0%nat, d, 0))
  | _ =>
      let n := length nr in
      shift <- d_max_shift D fac_high ;;
      '(nr, den_low, den_high, rem_high) <-
        (if 0 <? shift then
           '(den_low, carry) <- d_shl_carry D fac_low shift 0 ;;
           '(den_high, _) <- d_shl_carry D fac_high shift carry ;;
           '(nr, rem_high) <- shl_carry_assign_within_digit D nr shift 0 ;;
           Ret (nr, den_low, den_high, rem_high)
         else Ret (nr, fac_low, fac_high, 0)) ;;
      rem_low <- get nr (n - 1) ;;
      nr <- set nr (n - 1) 0 ;;
      '(nr, (rem_high, rem_low)) <- with_prefix nr (n - 1)
          (fun s => div_pair_loop s den_low den_high rem_high rem_low) ;;
      '(rem_high, rem_low) <-
        (if 0 <? shift then
           '(rem_high, carry) <- d_shr_carry D rem_high shift 0 ;;
           '(rem_low, _) <- d_shr_carry D rem_low shift carry ;;
           Ret (rem_high, rem_low)
         else Ret (rem_high, rem_low)) ;;
      nquot <- drop_leading_zeros nr n ;;
      Ret (nr, ROk (nquot, rem_low, rem_high))
  end.

(** ** div/long.rs *)

(** src/ubig/div/long.rs:20-23 *)
Definition calc_div_long_work_size (nden : nat) : nat := (nden + 1)%nat.

(** [let _ = sub_assign_big(..)]: the error is ignored, the mutation stays *)
Definition sub_ignore (nr0 nr1 : digits) : M digits :=
  '(nr0, _) <- sub_assign_big D nr0 nr1 ;; Ret nr0.

(** The condition of src/ubig/div/long.rs:85-86 and 90-91 *)
Definition first_too_big (num den qden : digits) (num_msd : Z) : M bool :=
  let nnum := length num in
  let nden := length den in
  top <- get qden nden ;;
  if num_msd <? top then Ret true
  else if top =? num_msd then
    s <- suffix num (nnum - nden) ;;
    p <- prefix qden nden ;;
    Ret (num_lt s p)
  else Ret false.

(** src/ubig/div/long.rs:75-100: the first quotient digit.
    Returns (num, quot, qden, nquot). *)
Definition div_long_first (num : digits) (num_msd : Z) (den quot qden : digits)
  : M (digits * digits * digits * nat) :=
  let nnum := length num in
  let nden := length den in
  msd <- get den (nden - 1) ;;
  let nquot := (nnum - nden + 1)%nat in
  q <- get num (nnum - 1) ;;
  '(q, _) <- d_div_carry D q msd num_msd ;;
  if q =? 0 then Ret (num, quot, qden, (nquot - 1)%nat)
  else
    qden <- mul_digit_into D den q qden ;;
    big <- first_too_big num den qden num_msd ;;
    '(q, qden) <-
      (if big : bool then
         '(q, _) <- d_dec D q ;;
         qden <- sub_ignore qden den ;;
         big <- first_too_big num den qden num_msd ;;
         if big : bool then
           '(q, _) <- d_dec D q ;;
           qden <- sub_ignore qden den ;;
           Ret (q, qden)
         else Ret (q, qden)
       else Ret (q, qden)) ;;
    p <- prefix qden nden ;;
    '(num, _) <- with_suffix num (nnum - nden)
                   (fun s => s <- sub_ignore s p ;; Ret (s, tt)) ;;
    quot <- set quot (nquot - 1) q ;;
    Ret (num, quot, qden, nquot).

(** One round of src/ubig/div/long.rs:103-125 *)
Definition div_long_step (iq : nat) (num den quot qden : digits)
  : M (digits * digits * digits) :=
  let nden := length den in
  msd <- get den (nden - 1) ;;
  q <- get num (iq + nden - 1) ;;
  c <- get num (iq + nden) ;;
  '(q, _) <- d_div_carry D q msd c ;;
  '(num, qden, q) <-
    (if q =? 0 then Ret (num, qden, q)
     else
       qden <- mul_digit_into D den q qden ;;
       w <- sub_slice num iq (iq + nden + 1) ;;
       '(q, qden) <-
         (if num_lt w qden then
            '(q, _) <- d_dec D q ;;
            qden <- sub_ignore qden den ;;
            if num_lt w qden then
              '(q, _) <- d_dec D q ;;
              qden <- sub_ignore qden den ;;
              Ret (q, qden)
            else Ret (q, qden)
          else Ret (q, qden)) ;;
       '(num, _) <- with_slice num iq (iq + nden + 1)
                      (fun s => s <- sub_ignore s qden ;; Ret (s, tt)) ;;
       Ret (num, qden, q)) ;;
  quot <- set quot iq q ;;
  Ret (num, quot, qden).

Fixpoint div_long_loop (iq : nat) (num den quot qden : digits)
  : M (digits * digits * digits) :=
  match iq with
  | O => Ret (num, quot, qden)
  | S iq =>
      '(num, quot, qden) <- div_long_step iq num den quot qden ;;
      div_long_loop iq num den quot qden
  end.

(** src/ubig/div/long.rs:62-131; returns (num, quot, work) and (nquot, nrem) *)
Definition div_big_long_scaled (num : digits) (num_msd : Z) (den quot work : digits)
  : M ((digits * digits * digits) * (nat * nat)) :=
  let nnum := length num in
  let nden := length den in
  msd <- get den (nden - 1) ;;
  s <- (if d_dbg D then d_max_shift D msd else Ret 0) ;;
  debug_assert (d_dbg D) (s =? 0) ;;;
  qden <- prefix work (nden + 1) ;;
  '(num, quot, qden, nquot) <- div_long_first num num_msd den quot qden ;;
  '(num, quot, qden) <- div_long_loop (nnum - nden) num den quot qden ;;
  nquot <- drop_leading_zeros quot nquot ;;
  nrem <- drop_leading_zeros num nden ;;
  Ret (num, quot, qden ++ skipn (nden + 1) work, (nquot, nrem)).

(** src/ubig/div/long.rs:30-60 *)
Definition div_big_long (num den quot work : digits)
  : M ((digits * digits * digits) * (nat * nat)) :=
  let nnum := length num in
  let nden := length den in
  debug_assert (d_dbg D) (2 <? nden)%nat ;;;
  debug_assert (d_dbg D) (nden <=? nnum)%nat ;;;
  debug_assert (d_dbg D)
    ((nnum - nden + 1 <=? length quot)%nat
     || ((nnum - nden <=? length quot)%nat && num_lt (skipn (nnum - nden) num) den)) ;;;
  debug_work (d_dbg D) (calc_div_long_work_size nden <=? length work)%nat ;;;
  top <- get den (nden - 1) ;;
  shift <- d_max_shift D top ;;
  if shift =? 0 then div_big_long_scaled num 0 den quot work
  else
    '(scaled_den, _) <- shl_carry_assign_within_digit D den shift 0 ;;
    '(num, num_msd) <- shl_carry_assign_within_digit D num shift 0 ;;
    qden <- prefix work (nden + 1) ;;
    '((num, quot, qden), (nquot, nrem)) <-
       div_big_long_scaled num num_msd scaled_den quot qden ;;
    '(num, (nrem, _)) <- with_prefix num nrem
       (fun s => shr_carry_assign_within_digit D s shift 0) ;;
    Ret (num, quot, qden ++ skipn (nden + 1) work, (nquot, nrem)).

(** ** div.rs: div_big_with_work, src/ubig/div.rs:176-258.
    [bz] is the Burnikel-Ziegler routine of line 256; Burnikel-Ziegler itself
    calls this function only with denominators below the cutoff, where [bz] is
    not reached. *)
Definition div_fn := digits -> digits -> digits -> digits
  -> M ((digits * digits * digits) * (nat * nat)).

(** [l[..n].copy_from_slice(src[..n])] *)
Definition copy_prefix (dst src : digits) (n : nat) : M digits :=
  s <- prefix src n ;; copy_into dst 0 n s.

Definition div_big_with_work_gen (bz : div_fn) (num den quot work : digits)
  : M ((digits * digits * digits) * result (nat * nat)) :=
  let nnum := length num in
  let nden := length den in
  if (nden =? 0)%nat then Ret (num, quot, work, RErr DivisionByZero)
  else if num_lt num den then Ret (num, quot, work, ROk (0%nat, nnum))
  else if (length quot <? nnum - nden + 1)%nat
          && ((length quot <? nnum - nden)%nat
              || negb (num_lt (skipn (nnum - nden) num) den))
  then Ret (num, quot, work, RErr NoSpace)
  else if (nden =? 1)%nat then
    d0 <- get den 0 ;;
    '(num, r) <- div_assign_digit num d0 ;;
    match r with
    | RErr e => Ret (num, quot, work, RErr e)
    | ROk (nquot, rem) =>
        if (length quot <? nquot)%nat then Ret (num, quot, work, RErr NoSpace)
        else
          quot <- copy_prefix quot num nquot ;;
          let num := zeros (length num) in
          if rem =? 0 then Ret (num, quot, work, ROk (nquot, 0%nat))
          else num <- set num 0 rem ;; Ret (num, quot, work, ROk (nquot, 1%nat))
    end
  else if (nden =? 2)%nat then
    d0 <- get den 0 ;;
    d1 <- get den 1 ;;
    '(num, r) <- div_assign_digit_pair num d0 d1 ;;
    match r with
    | RErr e => Ret (num, quot, work, RErr e)
    | ROk (nquot, rem_low, rem_high) =>
        if (length quot <? nquot)%nat then Ret (num, quot, work, RErr NoSpace)
        else
          quot <- copy_prefix quot num nquot ;;
          let num := zeros (length num) in
          if rem_high =? 0 then
            if rem_low =? 0 then Ret (num, quot, work, ROk (nquot, 0%nat))
            else num <- set num 0 rem_low ;; Ret (num, quot, work, ROk (nquot, 1%nat))
          else
            num <- set num 0 rem_low ;;
            num <- set num 1 rem_high ;;
            Ret (num, quot, work, ROk (nquot, 2%nat))
    end
  else if (nden <? BZ_CUTOFF)%nat then
    debug_work (d_dbg D) (calc_div_long_work_size nden <=? length work)%nat ;;;
    '(s, r) <- div_big_long num den quot work ;; Ret (s, ROk r)
  else
    '(s, r) <- bz num den quot work ;; Ret (s, ROk r).

(** ** div/bz.rs *)

(** src/ubig/div/bz.rs:18-24; [64 - leading_zeros x] is the bit length of x *)
Definition block_size (nden : nat) : nat :=
  let x := (Z.of_nat nden - 1) / Z.of_nat BZ_CUTOFF in
  let mshift := if x =? 0 then 0 else Z.log2 x + 1 in
  let m := 2 ^ mshift in
  let j := (Z.of_nat nden + m - 1) / m in
  Z.to_nat (j * m).

(** src/ubig/div/bz.rs:26-30 *)
Definition calc_div_bz_work_size (nden : nat) : nat :=
  let n := block_size nden in
  (3 * n / 2 + 1 + calc_mul_work_size (n / 2))%nat.

Definition no_bz : div_fn := fun _ _ _ _ => NoFuel.

(** [dec_assign(&mut quot[..nquot]).unwrap()] *)
Definition dec_prefix (quot : digits) (nquot : nat) : M (digits * nat) :=
  with_prefix quot nquot (fun s => unwrap_with (dec_assign D s)).

(** The debug assertion [x.max_shift() == 0] *)
Definition debug_max_shift_zero (d : Z) : M unit :=
  s <- (if d_dbg D then d_max_shift D d else Ret 0) ;;
  debug_assert (d_dbg D) (s =? 0).

(** src/ubig/div/bz.rs:97-143; [rec] is div_big_bz_2n_n *)
Definition div_big_bz_3n_2n (rec : div_fn) : div_fn := fun num den quot work =>
  let n := (length den / 2)%nat in
  debug_assert (d_dbg D) (length num =? 3 * n)%nat ;;;
  debug_assert (d_dbg D) (length den =? 2 * n)%nat ;;;
  debug_assert (d_dbg D) (length quot =? n)%nat ;;;
  top <- (if d_dbg D then get den (2 * n - 1) else Ret 1) ;;
  debug_max_shift_zero top ;;;
  debug_work (d_dbg D) (3 * n + 1 <=? length work)%nat ;;;
  '(b2, b1) <- split_at den n ;;
  a12 <- suffix num n ;;
  a1 <- suffix a12 n ;;
  '(a12, quot, work, nquot) <-
    (if num_lt a1 b1 then
       '((a12, quot, work), (nquot, _)) <- rec a12 b1 quot work ;;
       Ret (a12, quot, work, nquot)
     else
       let quot := repeat (d_MAX D) (length quot) in
       '(a12, _) <- with_suffix a12 n (fun s => s <- sub_ignore s b1 ;; Ret (s, tt)) ;;
       '(a12, _) <- add_assign_big D a12 b1 ;;
       _ <- drop_leading_zeros a12 (length a12) ;;
       Ret (a12, quot, work, n)) ;;
  let num := firstn n num ++ a12 in
  nb2 <- drop_leading_zeros b2 (length b2) ;;
  '(qden, mul_work) <- split_at work (3 * n + 1) ;;
  x <- prefix quot nquot ;;
  y <- prefix b2 nb2 ;;
  '(qden, mul_work, nqden) <- mul_big_into_with_work D x y qden mul_work ;;
  debug_assert (d_dbg D) (nqden <=? 3 * n)%nat ;;;
  let work := qden ++ mul_work in
  qden <- prefix qden nqden ;;
  nnum <- drop_leading_zeros num (length num) ;;
  p <- prefix num nnum ;;
  '(num, quot, nquot) <-
    (if num_lt p qden then
       '(num, _) <- add_assign_big D num den ;;
       '(quot, nquot) <- dec_prefix quot nquot ;;
       nnum <- drop_leading_zeros num (length num) ;;
       p <- prefix num nnum ;;
       if num_lt p qden then
         '(num, _) <- add_assign_big D num den ;;
         '(quot, nquot) <- dec_prefix quot nquot ;;
         Ret (num, quot, nquot)
       else Ret (num, quot, nquot)
     else Ret (num, quot, nquot)) ;;
  '(num, nrem) <- unwrap_with (sub_assign_big D num qden) ;;
  Ret (num, quot, work, (nquot, nrem)).

(** src/ubig/div/bz.rs:70-95 *)
Definition div_big_bz_2n_n_step (rec : div_fn) : div_fn := fun num den quot work =>
  let n := length den in
  debug_assert (d_dbg D) ((n <? BZ_CUTOFF)%nat || Nat.even n) ;;;
  debug_assert (d_dbg D) (length num =? 2 * n)%nat ;;;
  debug_assert (d_dbg D) (length quot =? n)%nat ;;;
  top <- (if d_dbg D then get den (n - 1) else Ret 1) ;;
  debug_max_shift_zero top ;;;
  if (n <? BZ_CUTOFF)%nat then
    nnum <- drop_leading_zeros num (length num) ;;
    p <- prefix num nnum ;;
    '((p, quot, work), r) <- div_big_with_work_gen no_bz p den quot work ;;
    r <- unwrap r ;;
    Ret (p ++ skipn nnum num, quot, work, r)
  else
    let hn := (n / 2)%nat in
    hi <- suffix num hn ;;
    qhi <- suffix quot hn ;;
    '((hi, qhi, work), _) <- div_big_bz_3n_2n rec hi den qhi work ;;
    let num := firstn hn num ++ hi in
    let quot := firstn hn quot ++ qhi in
    lo <- prefix num (3 * hn) ;;
    qlo <- prefix quot hn ;;
    '((lo, qlo, work), _) <- div_big_bz_3n_2n rec lo den qlo work ;;
    let num := lo ++ skipn (3 * hn) num in
    let quot := qlo ++ skipn hn quot in
    nquot <- drop_leading_zeros quot n ;;
    nrem <- drop_leading_zeros num n ;;
    Ret (num, quot, work, (nquot, nrem)).

Fixpoint bz_fuel (fuel : nat) : div_fn :=
  match fuel with
  | O => fun _ _ _ _ => NoFuel
  | S f => div_big_bz_2n_n_step (bz_fuel f)
  end.

(** Fuel: each level halves the denominator. *)
Definition div_big_bz_2n_n : div_fn := fun num den quot work =>
  bz_fuel (S (length den)) num den quot work.

(** src/ubig/div/bz.rs:56-59 *)
Fixpoint bz_blocks (i n : nat) (snum sden q work : digits) : M (digits * digits * digits) :=
  match i with
  | O => Ret (snum, q, work)
  | S i =>
      s <- sub_slice snum (i * n) ((i + 2) * n) ;;
      qs <- sub_slice q (i * n) ((i + 1) * n) ;;
      '((s, qs, work), _) <- div_big_bz_2n_n s sden qs work ;;
      let snum := firstn (i * n) snum ++ s ++ skipn ((i + 2) * n) snum in
      let q := firstn (i * n) q ++ qs ++ skipn ((i + 1) * n) q in
      bz_blocks i n snum sden q work
  end.

(** src/ubig/div/bz.rs:32-68 *)
Definition div_big_bz : div_fn := fun num den quot work =>
  let nnum := length num in
  let nden := length den in
  debug_assert (d_dbg D) (2 <? nden)%nat ;;;
  debug_assert (d_dbg D) (negb (num_lt num den)) ;;;
  debug_assert (d_dbg D) (nnum - nden + 1 <=? length quot)%nat ;;;
  debug_work (d_dbg D) (calc_div_bz_work_size nden <=? length work)%nat ;;;
  let n := block_size nden in
  sden <- copy_into (zeros n) (n - nden) n den ;;
  top <- get sden (n - 1) ;;
  shift <- d_max_shift D top ;;
  '(sden, _) <- shl_carry_assign_within_digit D sden shift 0 ;;
  let t := (2 + (nnum - nden) / n)%nat in
  snum <- copy_into (zeros (t * n)) (n - nden) (n - nden + nnum) num ;;
  '(snum, _) <- with_slice snum (n - nden) (n - nden + nnum + 1)
                  (fun s => shl_carry_assign_within_digit D s shift 0) ;;
  '(snum, q, work) <- bz_blocks (t - 1) n snum sden (zeros ((t - 1) * n)) work ;;
  '(snum, (nrem, _)) <- with_slice snum (n - nden) n
                          (fun s => shr_carry_assign_within_digit D s shift 0) ;;
  nquot <- drop_leading_zeros q (length q) ;;
  quot <- copy_prefix quot q nquot ;;
  r <- sub_slice snum (n - nden) (n - nden + nrem) ;;
  num <- copy_into num 0 nrem r ;;
  Ret (num, quot, work, (nquot, nrem)).

(** src/ubig/div.rs:176-258, with the debug assertion of line 255 *)
Definition div_big_with_work (num den quot work : digits)
  : M ((digits * digits * digits) * result (nat * nat)) :=
  div_big_with_work_gen
    (fun num den quot work =>
       debug_work (d_dbg D) (calc_div_bz_work_size (length den) <=? length work)%nat ;;;
       div_big_bz num den quot work)
    num den quot work.

(** src/ubig/div.rs:150-170; returns (num, quot) and the two lengths *)
Definition div_big (num den quot : digits)
  : M ((digits * digits) * result (nat * nat)) :=
  let nden := length den in
  let work :=
    if (nden <=? 2)%nat || num_lt num den then []
    else if (nden <? BZ_CUTOFF)%nat then zeros BZ_CUTOFF
    else zeros (calc_div_bz_work_size nden) in
  '((num, quot, _), r) <- div_big_with_work num den quot work ;;
  Ret (num, quot, r).

End WithDigit.
