(** * Sizes: the constants relating digits, decimal places and hexadecimal places. *)
From Coq Require Import ZArith List Bool Lia.
From Verif Require Import Base Digit Spec ListLemmas TypedProof.
Import ListNotations.
Open Scope Z_scope.

(** a lower bound of 5^p with a 64 bit mantissa: (a, e) stands for a * 2^e *)
Definition cut64 (a e : Z) : Z * Z :=
  let k := Z.log2 a - 63 in
  if k <=? 0 then (a, e) else (a / 2 ^ k, e + k).
Fixpoint low5 (q : positive) : Z * Z :=
  match q with
  | xH => (5, 0)
  | xO q => let '(a, e) := low5 q in cut64 (a * a) (2 * e)
  | xI q => let '(a, e) := low5 q in cut64 (5 * (a * a)) (2 * e)
  end.

Lemma cut64_low a e x : 0 <= a -> 0 <= e -> a * 2 ^ e <= x ->
  let '(b, f) := cut64 a e in 0 <= b /\ 0 <= f /\ b * 2 ^ f <= x.
Proof.
  intros Ha He H. unfold cut64. destruct (Z.leb_spec (Z.log2 a - 63) 0) as [Hk|Hk]; [auto|].
  set (k := Z.log2 a - 63) in *. clearbody k.
  assert (0 < 2 ^ k) by (apply Z.pow_pos_nonneg; lia).
  split; [apply Z.div_pos; lia|]. split; [lia|].
  rewrite Z.pow_add_r by lia. pose proof (Z.mul_div_le a (2 ^ k) ltac:(lia)) as Hd.
  assert (0 < 2 ^ e) by (apply Z.pow_pos_nonneg; lia).
  assert (2 ^ k * (a / 2 ^ k) * 2 ^ e <= a * 2 ^ e) by (apply Z.mul_le_mono_nonneg_r; lia). lia.
Qed.

Lemma low5_low q : let '(a, e) := low5 q in 0 <= a /\ 0 <= e /\ a * 2 ^ e <= 5 ^ Z.pos q.
Proof.
  induction q as [q IH|q IH|]; cbn [low5]; [| |cbn; lia]; destruct (low5 q) as [a e]; destruct IH as (Ha & He & H);
    assert (0 < 2 ^ e) by (apply Z.pow_pos_nonneg; lia);
    assert (Hs : (a * 2 ^ e) * (a * 2 ^ e) <= 5 ^ Z.pos q * 5 ^ Z.pos q)
      by (apply Z.square_le_mono_nonneg; [apply Z.mul_nonneg_nonneg; lia|exact H]);
    assert (E2 : 2 ^ (2 * e) = 2 ^ e * 2 ^ e) by (rewrite <- Z.pow_add_r by lia; f_equal; lia).
  - apply cut64_low; [apply Z.mul_nonneg_nonneg; [lia|apply Z.mul_nonneg_nonneg; lia]|lia|].
    replace (Z.pos q~1) with (Z.pos q + Z.pos q + 1) by lia.
    rewrite !Z.pow_add_r, E2 by lia. change (5 ^ 1) with 5. lia.
  - apply cut64_low; [apply Z.mul_nonneg_nonneg; lia|lia|].
    replace (Z.pos q~0) with (Z.pos q + Z.pos q) by lia.
    rewrite !Z.pow_add_r, E2 by lia. lia.
Qed.

Lemma low5_gt q d : (let '(a, e) := low5 q in (0 <=? d - e) && (2 ^ (d - e) <? a))%bool = true ->
  2 ^ d < 5 ^ Z.pos q.
Proof.
  intros E. pose proof (low5_low q) as H. destruct (low5 q) as [a e]. destruct H as (Ha & He & H).
  apply andb_prop in E. destruct E as [E1 E2]. apply Z.leb_le in E1. apply Z.ltb_lt in E2.
  apply Z.lt_le_trans with (a * 2 ^ e); [|exact H].
  replace d with (d - e + e) by lia. rewrite Z.pow_add_r by lia.
  apply Z.mul_lt_mono_pos_r; [apply Z.pow_pos_nonneg; lia|exact E2].
Qed.

Lemma pow_256_10 Q P : 0 <= P <= 8 * Q -> 2 ^ (8 * Q - P) < 5 ^ P -> 256 ^ Q < 10 ^ P.
Proof.
  intros H1 H2. change 256 with (2 ^ 8). change 10 with (5 * 2).
  rewrite Z.pow_mul_l, <- Z.pow_mul_r by lia.
  replace (8 * Q) with (8 * Q - P + P) by lia. rewrite Z.pow_add_r by lia.
  apply Z.mul_lt_mono_pos_r; [apply Z.pow_pos_nonneg; lia|exact H2].
Qed.

(** 33961 / 14102 is above log10 256, and 643 / 267 below *)
Lemma above_256 : 256 ^ 14102 < 10 ^ 33961.
Proof.
  apply pow_256_10; [split; vm_compute; discriminate|]. apply low5_gt. vm_compute. reflexivity.
Qed.
Lemma below_256 : 10 ^ 643 < 256 ^ 267.
Proof. vm_compute. reflexivity. Qed.

Lemma pow_ratio a b P Q k m : 0 <= a -> 1 < b -> 0 <= P -> 0 < Q -> a ^ Q < b ^ P ->
  0 <= k -> 0 < m -> P * m <= Q * k -> a ^ m < b ^ k.
Proof.
  intros Ha Hb HP HQ H Hk Hm Hr. apply Z.nle_gt. intros Hc.
  assert (HQ0 : 0 <= Q) by (apply Z.lt_le_incl, HQ). assert (Hm0 : 0 <= m) by (apply Z.lt_le_incl, Hm).
  assert (Hb0 : 0 <= b) by (clear - Hb; lia).
  assert (H1 : (b ^ k) ^ Q <= (a ^ m) ^ Q)
    by (apply Z.pow_le_mono_l; split; [apply Z.pow_nonneg; exact Hb0|exact Hc]).
  rewrite <- (Z.pow_mul_r b k Q), <- (Z.pow_mul_r a m Q), (Z.mul_comm m Q), (Z.pow_mul_r a Q m) in H1 by assumption.
  assert (H2 : b ^ (P * m) <= b ^ (k * Q)).
  { apply Z.pow_le_mono_r; [clear - Hb; lia|rewrite (Z.mul_comm k Q); exact Hr]. }
  rewrite (Z.pow_mul_r b P m) in H2 by assumption.
  assert (H3 : (a ^ Q) ^ m < (b ^ P) ^ m).
  { apply Z.pow_lt_mono_l; [exact Hm|]. split; [apply Z.pow_nonneg; exact Ha|exact H]. }
  exact (Z.lt_irrefl _ (Z.le_lt_trans _ _ _ (Z.le_trans _ _ _ H2 H1) H3)).
Qed.

(** k places fit in m bytes when k / m is at most 643 / 267 *)
Lemma fits_bytes k m : 0 <= k -> 0 < m -> 267 * k <= 643 * m -> 10 ^ k < 256 ^ m.
Proof.
  intros Hk Hm H. destruct (Z.eq_dec k 0) as [->|Hne].
  - rewrite Z.pow_0_r. apply Z.pow_gt_1; lia.
  - apply (pow_ratio 10 256 267 643); [lia|lia|lia|lia|exact below_256|lia|lia|lia].
Qed.

(** one place more never fits, below 14369 bytes *)
Lemma exceeds_bytes k m : 0 <= k -> 0 < m -> m < 14369 -> 643 * m < 267 * k -> 256 ^ m < 10 ^ k.
Proof.
  intros Hk Hm Hs H.
  apply (pow_ratio 256 10 33961 14102); [lia|lia|lia|lia|exact above_256|assumption|assumption|lia].
Qed.

Section Sizes.
Variable t : dty.
Hypothesis Hb : is_binary t = true.

Lemma radix_bytes n : radix t ^ Z.of_nat n = 256 ^ (Z.of_nat n * Z.of_nat (size_of t)).
Proof.
  rewrite Z.mul_comm, Z.pow_mul_r by lia. f_equal. destruct t; try discriminate Hb; reflexivity.
Qed.
Lemma size_pos : (0 < size_of t)%nat.
Proof. destruct t; cbn; lia. Qed.

Lemma places_low n : (0 < n)%nat -> 10 ^ Z.of_nat (nr_decimal_places t n) < radix t ^ Z.of_nat n.
Proof.
  intros Hn. pose proof size_pos as Hs. rewrite radix_bytes. unfold nr_decimal_places.
  set (m := Z.of_nat n * Z.of_nat (size_of t)).
  assert (0 < m) by (apply Z.mul_pos_pos; lia).
  rewrite Z2Nat.id by (apply Z.div_pos; lia).
  apply fits_bytes; [apply Z.div_pos; lia|assumption|]. pose proof (Z.mul_div_le (m * 643) 267 ltac:(lia)). lia.
Qed.

Lemma places_high n : (0 < n)%nat -> Z.of_nat n * Z.of_nat (size_of t) < 14369 ->
  radix t ^ Z.of_nat n < 10 ^ Z.of_nat (S (nr_decimal_places t n)).
Proof.
  intros Hn Hm. pose proof size_pos as Hs. rewrite radix_bytes. unfold nr_decimal_places.
  rewrite Nat2Z.inj_succ.
  set (m := Z.of_nat n * Z.of_nat (size_of t)) in *.
  assert (0 < m) by (apply Z.mul_pos_pos; lia).
  rewrite Z2Nat.id by (apply Z.div_pos; lia).
  apply exceeds_bytes; [pose proof (Z.div_pos (m * 643) 267); lia|assumption|assumption|].
  pose proof (Z.mul_succ_div_gt (m * 643) 267 ltac:(lia)). lia.
Qed.

Lemma max_digits n : num t (repeat (radix t - 1) n) = radix t ^ Z.of_nat n - 1.
Proof.
  induction n as [|n IH]; [reflexivity|]. cbn [repeat]. unfold num in *. cbn [value]. rewrite IH.
  rewrite Nat2Z.inj_succ, Z.pow_succ_r by lia. lia.
Qed.
Lemma max_wf n : well_formed t (repeat (radix t - 1) n).
Proof.
  pose proof (radix_gt t) as HB. split.
  - apply Forall_forall. intros d Hd. apply repeat_spec in Hd. subst d. lia.
  - intros q E. assert (H : In 0 (repeat (radix t - 1) n)) by (rewrite E; apply in_or_app; right; left; reflexivity).
    apply repeat_spec in H. lia.
Qed.

Lemma too_short n : (0 < n)%nat -> exists x, well_formed t x /\ length x = n
  /\ 10 ^ Z.of_nat (nr_decimal_places t n) <= num t x.
Proof.
  intros Hn. exists (repeat (radix t - 1) n). split; [apply max_wf|]. split; [apply repeat_length|].
  rewrite max_digits. pose proof (places_low n Hn). lia.
Qed.

Lemma one_more n x : (0 < n)%nat -> Z.of_nat n * Z.of_nat (size_of t) < 14369 -> valid t x -> (length x <= n)%nat ->
  num t x < 10 ^ Z.of_nat (S (nr_decimal_places t n)).
Proof.
  intros Hn Hm V HL. pose proof (value_bound (radix t) (radix_gt t) x V) as Hb'. unfold num, pw in *.
  assert (radix t ^ Z.of_nat (length x) <= radix t ^ Z.of_nat n).
  { apply Z.pow_le_mono_r; [pose proof (radix_gt t)|]; lia. }
  pose proof (places_high n Hn Hm). lia.
Qed.
End Sizes.

(** an upper bound of 5^p with a 64 bit mantissa *)
Definition cut64_up (a e : Z) : Z * Z :=
  let k := Z.log2 a - 63 in
  if k <=? 0 then (a, e) else (a / 2 ^ k + 1, e + k).
Fixpoint high5 (q : positive) : Z * Z :=
  match q with
  | xH => (5, 0)
  | xO q => let '(a, e) := high5 q in cut64_up (a * a) (2 * e)
  | xI q => let '(a, e) := high5 q in cut64_up (5 * (a * a)) (2 * e)
  end.

Lemma cut64_up_high a e x : 0 <= a -> 0 <= e -> x <= a * 2 ^ e ->
  let '(b, f) := cut64_up a e in 0 <= b /\ 0 <= f /\ x <= b * 2 ^ f.
Proof.
  intros Ha He H. unfold cut64_up. destruct (Z.leb_spec (Z.log2 a - 63) 0) as [Hk|Hk]; [auto|].
  set (k := Z.log2 a - 63) in *. clearbody k.
  assert (0 < 2 ^ k) by (apply Z.pow_pos_nonneg; lia).
  pose proof (Z.div_pos a (2 ^ k) Ha ltac:(lia)).
  split; [lia|]. split; [lia|].
  rewrite Z.pow_add_r by lia. pose proof (Z.mul_succ_div_gt a (2 ^ k) ltac:(lia)) as Hd.
  assert (0 < 2 ^ e) by (apply Z.pow_pos_nonneg; lia).
  assert (a * 2 ^ e <= 2 ^ k * Z.succ (a / 2 ^ k) * 2 ^ e) by (apply Z.mul_le_mono_nonneg_r; lia). lia.
Qed.

Lemma high5_high q : let '(a, e) := high5 q in 0 <= a /\ 0 <= e /\ 5 ^ Z.pos q <= a * 2 ^ e.
Proof.
  induction q as [q IH|q IH|]; cbn [high5]; [| |cbn; lia]; destruct (high5 q) as [a e]; destruct IH as (Ha & He & H);
    assert (0 < 2 ^ e) by (apply Z.pow_pos_nonneg; lia);
    assert (Hs : 5 ^ Z.pos q * 5 ^ Z.pos q <= (a * 2 ^ e) * (a * 2 ^ e))
      by (apply Z.square_le_mono_nonneg; [apply Z.pow_nonneg; lia|exact H]);
    assert (E2 : 2 ^ (2 * e) = 2 ^ e * 2 ^ e) by (rewrite <- Z.pow_add_r by lia; f_equal; lia).
  - apply cut64_up_high; [apply Z.mul_nonneg_nonneg; [lia|apply Z.mul_nonneg_nonneg; lia]|lia|].
    replace (Z.pos q~1) with (Z.pos q + Z.pos q + 1) by lia.
    rewrite !Z.pow_add_r, E2 by lia. change (5 ^ 1) with 5. lia.
  - apply cut64_up_high; [apply Z.mul_nonneg_nonneg; lia|lia|].
    replace (Z.pos q~0) with (Z.pos q + Z.pos q) by lia.
    rewrite !Z.pow_add_r, E2 by lia. lia.
Qed.

Lemma high5_lt q d : (let '(a, e) := high5 q in (0 <=? d - e) && (a <? 2 ^ (d - e)))%bool = true ->
  5 ^ Z.pos q < 2 ^ d.
Proof.
  intros E. pose proof (high5_high q) as H. destruct (high5 q) as [a e]. destruct H as (Ha & He & H).
  apply andb_prop in E. destruct E as [E1 E2]. apply Z.leb_le in E1. apply Z.ltb_lt in E2.
  apply Z.le_lt_trans with (a * 2 ^ e); [exact H|].
  replace d with (d - e + e) by lia. rewrite Z.pow_add_r by lia.
  apply Z.mul_lt_mono_pos_r; [apply Z.pow_pos_nonneg; lia|exact E2].
Qed.

Lemma pow_10_256 Q P : 0 <= P <= 8 * Q -> 5 ^ P < 2 ^ (8 * Q - P) -> 10 ^ P < 256 ^ Q.
Proof.
  intros H1 H2. change 256 with (2 ^ 8). change 10 with (5 * 2).
  rewrite Z.pow_mul_l, <- Z.pow_mul_r by lia.
  replace (8 * Q) with (8 * Q - P + P) by lia. rewrite (Z.pow_add_r 2 (8 * Q - P)) by lia.
  apply Z.mul_lt_mono_pos_r; [apply Z.pow_pos_nonneg; lia|exact H2].
Qed.

(** 34604 / 14369 is below log10 256, and above 643 / 267 *)
Lemma between_256 : 10 ^ 34604 < 256 ^ 14369.
Proof.
  apply pow_10_256; [split; vm_compute; discriminate|]. apply high5_lt. vm_compute. reflexivity.
Qed.

(** every 267 * 14369 bytes the estimate falls back by another place *)
Lemma falls_back t n k j : is_binary t = true -> Z.of_nat n * Z.of_nat (size_of t) = 14369 * j -> 0 < j ->
  267 * (k - 1) < j -> 0 <= k ->
  10 ^ (Z.of_nat (nr_decimal_places t n) + k) < radix t ^ Z.of_nat n.
Proof.
  intros Hb E Hj Hk Hk0. rewrite (radix_bytes t Hb), E. unfold nr_decimal_places. rewrite E.
  rewrite Z2Nat.id by (apply Z.div_pos; lia).
  assert (HD : 14369 * j * 643 / 267 + k <= 34604 * j).
  { pose proof (Z.mul_div_le (14369 * j * 643) 267 ltac:(lia)). lia. }
  apply Z.le_lt_trans with (10 ^ (34604 * j)); [apply Z.pow_le_mono_r; [lia|exact HD]|].
  rewrite !Z.pow_mul_r by lia. apply Z.pow_lt_mono_l; [exact Hj|].
  split; [apply Z.pow_nonneg; lia|exact between_256].
Qed.

Lemma never_enough t k : is_binary t = true -> exists x, well_formed t x
  /\ 10 ^ Z.of_nat (nr_decimal_places t (length x) + k) <= num t x.
Proof.
  intros Hb. pose proof (size_pos t Hb) as Hs. set (s := Z.of_nat (size_of t)).
  assert (Hs1 : 1 <= s) by (unfold s; lia).
  set (n := Z.to_nat (14369 * (267 * Z.of_nat k + 1))).
  assert (Hn : Z.of_nat n = 14369 * (267 * Z.of_nat k + 1)) by (unfold n; apply Z2Nat.id; lia). clearbody n.
  exists (repeat (radix t - 1) n). split; [apply max_wf|]. rewrite repeat_length, max_digits, Nat2Z.inj_add.
  assert (H : 10 ^ (Z.of_nat (nr_decimal_places t n) + Z.of_nat k) < radix t ^ Z.of_nat n); [|lia].
  assert (Hk : 1 <= 267 * Z.of_nat k + 1) by lia.
  assert (Hj : 267 * Z.of_nat k + 1 <= (267 * Z.of_nat k + 1) * s).
  { rewrite <- (Z.mul_1_r (267 * Z.of_nat k + 1)) at 1. apply Z.mul_le_mono_nonneg_l; [lia|exact Hs1]. }
  apply (falls_back t n (Z.of_nat k) ((267 * Z.of_nat k + 1) * s) Hb); [|lia|lia|lia].
  fold s. rewrite Hn. ring.
Qed.

Lemma first_miss : exists x, well_formed B8 x /\ Z.of_nat (length x) = 14369
  /\ 10 ^ Z.of_nat (S (nr_decimal_places B8 (length x))) <= num B8 x.
Proof.
  set (n := Z.to_nat 14369). assert (Hn : Z.of_nat n = 14369) by (unfold n; apply Z2Nat.id; lia).
  clearbody n. exists (repeat (radix B8 - 1) n). split; [apply max_wf|]. rewrite repeat_length, max_digits.
  split; [exact Hn|]. rewrite Nat2Z.inj_succ.
  assert (H : 10 ^ (Z.of_nat (nr_decimal_places B8 n) + 1) < radix B8 ^ Z.of_nat n); [|unfold Z.succ; lia].
  apply (falls_back B8 n 1 1 eq_refl); [rewrite Hn; reflexivity|lia|lia|lia].
Qed.

Lemma constants t :
  (is_binary t = true -> 16 ^ Z.of_nat (NR_HEX_PLACES t) = radix t
     /\ 10 ^ Z.of_nat (MAX_DECIMAL_PLACES t) <= radix t < 10 ^ (Z.of_nat (MAX_DECIMAL_PLACES t) + 1))
  /\ (is_binary t = false -> 10 ^ Z.of_nat (NR_DECIMAL_PLACES t) = radix t
     /\ 16 ^ Z.of_nat (MAX_HEX_PLACES t) <= radix t < 16 ^ (Z.of_nat (MAX_HEX_PLACES t) + 1)).
Proof.
  destruct t; split; intros H; try discriminate H; (split; [reflexivity|split; vm_compute; congruence]).
Qed.
