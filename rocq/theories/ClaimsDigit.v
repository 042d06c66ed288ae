(** * ClaimsDigit: the digit contracts in the form of the property statements. *)
From Coq Require Import ZArith List Bool Lia.
From Verif Require Import Base Digit Spec Hoare DigitOK.
Import ListNotations.
Open Scope Z_scope.

Lemma div_rem_base_claim dbg n : 0 <= n < 10 ^ 19 * (10 ^ 19 + 2) ->
  div_rem_base dbg (decimal_radix D64) n = Ret (n / 10 ^ 19, n mod 10 ^ 19).
Proof. exact (div_rem_base_ok dbg n). Qed.

Lemma total_pair {A B} (e : M (A * B)) (Q : A * B -> Prop) : total e Q ->
  exists a b, e = Ret (a, b) /\ Q (a, b).
Proof. intros H. apply total_inv in H. destruct H as [[a b] H]. eauto. Qed.

Section Kernel.
Variables (dbg : bool) (t : dty).
Let OK := impl_ok dbg t.

Lemma kernel_add_sub_claim d o (c : bool) : 0 <= d < radix t -> 0 <= o < radix t ->
  (exists r k, d_inc (impl dbg t) d = Ret (r, k)
     /\ 0 <= r < radix t /\ r + radix t * of_bool k = d + 1)
  /\ (exists r k, d_dec (impl dbg t) d = Ret (r, k)
     /\ 0 <= r < radix t /\ r - radix t * of_bool k = d - 1)
  /\ (exists r k, d_add_carry (impl dbg t) d o c = Ret (r, k)
     /\ 0 <= r < radix t /\ r + radix t * of_bool k = d + o + of_bool c)
  /\ (exists r k, d_sub_carry (impl dbg t) d o c = Ret (r, k)
     /\ 0 <= r < radix t /\ r - radix t * of_bool k = d - o - of_bool c)
  /\ (exists r k, d_double_carry (impl dbg t) d c = Ret (r, k)
     /\ 0 <= r < radix t /\ r + radix t * of_bool k = 2 * d + of_bool c).
Proof.
  intros Hd Ho.
  split; [exact (total_pair _ _ (ok_inc _ _ OK d Hd))|].
  split; [exact (total_pair _ _ (ok_dec _ _ OK d Hd))|].
  split; [exact (total_pair _ _ (ok_add _ _ OK d o c Hd Ho))|].
  split; [exact (total_pair _ _ (ok_sub _ _ OK d o c Hd Ho))|].
  exact (total_pair _ _ (ok_double _ _ OK d c Hd)).
Qed.

Lemma kernel_shift_claim d s c : 0 <= d < radix t -> 1 <= s -> 2 ^ s < radix t ->
  0 <= c < 2 ^ s ->
  (exists r k, d_shl_carry (impl dbg t) d s c = Ret (r, k)
     /\ 0 <= r < radix t /\ 0 <= k < 2 ^ s /\ r + radix t * k = d * 2 ^ s + c)
  /\ (exists r k, d_shr_carry (impl dbg t) d s c = Ret (r, k)
     /\ 0 <= r < radix t /\ 0 <= k < 2 ^ s /\ r * 2 ^ s + k = d + radix t * c).
Proof.
  intros Hd Hs Hp Hc.
  split; [exact (total_pair _ _ (ok_shl _ _ OK d s c Hd Hs Hp Hc))|].
  exact (total_pair _ _ (ok_shr _ _ OK d s c Hd Hs Hp Hc)).
Qed.

Lemma kernel_max_shift_claim d : 0 < d < radix t ->
  exists s, d_max_shift (impl dbg t) d = Ret s /\ 0 <= s /\ d * 2 ^ s < radix t <= d * 2 ^ (s + 1).
Proof. intros Hd. exact (total_inv _ _ (ok_max_shift _ _ OK d Hd)). Qed.

Lemma kernel_mul_claim d f g c : 0 <= d < radix t -> 0 <= f < radix t ->
  0 <= g < radix t -> 0 <= c < radix t ->
  (exists r k, d_mul_carry (impl dbg t) d f c = Ret (r, k)
     /\ 0 <= r < radix t /\ 0 <= k < radix t /\ r + radix t * k = d * f + c)
  /\ (exists r k, d_add_prod_carry (impl dbg t) d f g c = Ret (r, k)
     /\ 0 <= r < radix t /\ 0 <= k < radix t /\ r + radix t * k = d + f * g + c)
  /\ (exists r k, d_sub_prod_carry (impl dbg t) d f g c = Ret (r, k)
     /\ 0 <= r < radix t /\ 0 <= k < radix t /\ r - radix t * k = d - f * g - c).
Proof.
  intros Hd Hf Hg Hc.
  split; [exact (total_pair _ _ (ok_mul _ _ OK d f c Hd Hf Hc))|].
  split; [exact (total_pair _ _ (ok_addprod _ _ OK d f g c Hd Hf Hg Hc))|].
  exact (total_pair _ _ (ok_subprod _ _ OK d f g c Hd Hf Hg Hc)).
Qed.

Lemma kernel_div_claim d f c : 0 <= d < radix t -> 0 < f < radix t -> 0 <= c < f ->
  d_rem_carry (impl dbg t) d f c = Ret ((d + radix t * c) mod f)
  /\ d_div_carry (impl dbg t) d f c = Ret ((d + radix t * c) / f, (d + radix t * c) mod f)
  /\ (c < 3 -> d_div3_carry (impl dbg t) d c
               = Ret ((d + radix t * c) / 3, (d + radix t * c) mod 3)).
Proof.
  intros Hd Hf Hc. split; [|split].
  - destruct (total_inv _ _ (ok_rem _ _ OK d f c Hd Hf Hc)) as (r & -> & ->). reflexivity.
  - destruct (total_pair _ _ (ok_div _ _ OK d f c Hd Hf Hc)) as (q & r & -> & Hq & Hr & E).
    do 2 f_equal; [apply Z.div_unique with r|apply Z.mod_unique with q]; lia.
  - intros H3. destruct (total_pair _ _ (ok_div3 _ _ OK d c Hd ltac:(lia))) as (q & r & -> & Hq & Hr & E).
    do 2 f_equal; [apply Z.div_unique with r|apply Z.mod_unique with q]; lia.
Qed.
End Kernel.
