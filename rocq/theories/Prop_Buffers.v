(** * Property C39: what the buffers of a multiplication contain does not matter. *)
From Coq Require Import ZArith List Bool.
From Verif Require Import Base Digit Slice Mul Div UBig Spec SpecWork WorkSize Cases Witness WorkExact BufSquare.
Import ListNotations.
Open Scope Z_scope.

(** Two calls on the same operands with buffers of the same sizes but any
    contents end alike: the same product, or the same panic. *)
Theorem C39_mul_outcome : forall dbg t x y out work out' work', valid t x -> valid t y ->
  valid t out -> valid t work -> valid t out' -> valid t work' ->
  (length x + length y <= length out)%nat -> length out' = length out ->
  (need (length x) (length y) <= length work)%nat -> length work' = length work ->
  product_of (mul_big_into_with_work (impl dbg t) x y out work)
  = product_of (mul_big_into_with_work (impl dbg t) x y out' work').
Proof. exact mul_outcome_all. Qed.
Print Assumptions C39_mul_outcome.
Definition C39_x : list Z := repeat 7 20 ++ repeat 9 20.
Example C39_case : valid D8 C39_x /\ (need 40 40 <= 120)%nat
  /\ product_of (mul_big_into_with_work (impl true D8) C39_x C39_x (repeat 99 80) (repeat 99 120))
     = product_of (mul_big_into_with_work (impl true D8) C39_x C39_x (zeros 80) (zeros 120))
  /\ product_of (mul_big_into_with_work (impl true D8) C39_x C39_x (zeros 80) (zeros 120)) <> Ret [].
Proof. split; [fact|]. split; [now apply Nat.leb_le|]. split; [fact|]. vm_compute. discriminate. Qed.

(** The scratch space by itself, for all lists of numbers as operands and
    buffers, of any lengths: the whole output buffer is left the same. *)
Theorem C39_scratch_only : forall dbg t x y out work work', length work' = length work ->
  let run w := mul_big_into_with_work (impl dbg t) x y out w in
  product_of (run work) = product_of (run work')
  /\ forall pr wk n, run work = Ret (pr, wk, n) ->
     exists wk', run work' = Ret (pr, wk', n) /\ length wk' = length wk.
Proof. exact scratch_same. Qed.
Print Assumptions C39_scratch_only.
Example C39_scratch_case :
  let run w := mul_big_into_with_work (impl true D8) C39_x C39_x (zeros 80) w in
  match run (repeat 99 120), run (zeros 120) with
  | Ret (pr, _, n), Ret (pr', _, n') => (if list_eq_dec Z.eq_dec pr pr' then Nat.eqb n n' else false) = true
  | _, _ => False
  end.
Proof. fact. Qed.

(** Below 128 digits neither the contents nor the lengths of the buffers
    matter, as long as they are large enough, and the same holds of squaring. *)
Theorem C39_mul_short : forall dbg t x y out work out' work', valid t x -> valid t y ->
  valid t out -> valid t work -> valid t out' -> valid t work' ->
  (length x < 128 \/ length y < 128)%nat ->
  (length x + length y <= length out)%nat -> (length x + length y <= length out')%nat ->
  (need (length x) (length y) <= length work)%nat -> (need (length x) (length y) <= length work')%nat ->
  product_of (mul_big_into_with_work (impl dbg t) x y out work)
  = product_of (mul_big_into_with_work (impl dbg t) x y out' work').
Proof. exact mul_outcome_claim. Qed.
Print Assumptions C39_mul_short.
Example C39_mul_short_case : (need 40 40 <= 120)%nat /\ (need 40 40 <= 200)%nat
  /\ product_of (mul_big_into_with_work (impl true D8) C39_x C39_x (repeat 99 80) (repeat 99 120))
     = product_of (mul_big_into_with_work (impl true D8) C39_x C39_x (repeat 5 95) (zeros 200)).
Proof. split; [now apply Nat.leb_le|]. split; [now apply Nat.leb_le|]. fact. Qed.

Theorem C39_square_partial : forall dbg t x out work out' work', valid t x ->
  valid t out -> valid t work -> valid t out' -> valid t work' -> (length x < 128)%nat ->
  (2 * length x <= length out)%nat -> (2 * length x <= length out')%nat ->
  (need (length x) (length x) <= length work)%nat -> (need (length x) (length x) <= length work')%nat ->
  square_with_work dbg t x out work = square_with_work dbg t x out' work'.
Proof. exact square_outcome_claim. Qed.
Print Assumptions C39_square_partial.
Example C39_square_case :
  square_with_work true D8 C39_x (repeat 99 80) (repeat 99 120)
  = square_with_work true D8 C39_x (repeat 5 95) (zeros 200)
  /\ square_with_work true D8 C39_x (repeat 99 80) (repeat 99 120) <> Ret [].
Proof. split; [fact|]. vm_compute. discriminate. Qed.

(** From 128 digits on squaring reads its buffers.  With a cleared output the
    contents of the scratch space do not matter up to 378 digits, and with
    cleared scratch space too the outcome is the same up to 1131 digits. *)
Theorem C39_square_clean_partial : forall dbg t x out work out' work', valid t x ->
  valid t out -> valid t work -> valid t out' -> valid t work' ->
  num t out = 0 -> num t out' = 0 ->
  (length x <= 378 \/ (length x <= 1131 /\ num t work = 0%Z /\ num t work' = 0%Z))%nat ->
  (2 * length x <= length out)%nat -> (2 * length x <= length out')%nat ->
  (need (length x) (length x) <= length work)%nat -> (need (length x) (length x) <= length work')%nat ->
  square_with_work dbg t x out work = square_with_work dbg t x out' work'.
Proof. exact square_clean_claim. Qed.
Print Assumptions C39_square_clean_partial.
Example C39_square_clean_case : valid B8 toom_dirty /\ (need 128 128 <= 430)%nat
  /\ square_with_work true B8 toom_dirty (zeros 256) (repeat 99 430)
  = square_with_work true B8 toom_dirty (zeros 300) (zeros 500)
  /\ square_with_work true B8 toom_dirty (zeros 256) (repeat 99 430) <> Ret [].
Proof. split; [fact|]. split; [now apply Nat.leb_le|]. split; [fact|]. vm_compute. discriminate. Qed.

(** 378 digits is the limit: the scratch space sways the square of this number of 379. *)
Theorem C39_square_scratch_refuted : exists x out work work', length x = 379%nat /\ well_formed B8 x
  /\ valid B8 out /\ num B8 out = 0 /\ valid B8 work /\ valid B8 work' /\ length work' = length work
  /\ (2 * length x <= length out)%nat /\ (need (length x) (length x) <= length work)%nat
  /\ exists r r', square_with_work true B8 x out work = Ret r
       /\ square_with_work true B8 x out work' = Ret r' /\ num B8 r <> num B8 r'.
Proof.
  exists scratch_dirty, (zeros 758), (zeros (calc_toom3_work_size 379)), (repeat 1 (calc_toom3_work_size 379)).
  do 7 (split; [fact|]). split; [now apply Nat.leb_le|]. split; [now apply Nat.leb_le|].
  apply swayed_ok. fact.
Qed.
Print Assumptions C39_square_scratch_refuted.
