(** * TypedProof: operations that depend on the digit type (section [Typed] of UBig.v). *)
From Coq Require Import ZArith List Bool Lia.
From Verif Require Import Base Digit Slice Mul Div UBig Spec Hoare DigitOK ListLemmas SliceProof
  MulProof UBigProof DivProof.
Import ListNotations.
Open Scope Z_scope.
Open Scope m_scope.

(** ** Facts about the eight types *)
Lemma radix_gt t : 1 < radix t.
Proof. destruct t; reflexivity. Qed.
Lemma radix_ge t : 100 <= radix t.
Proof. destruct t; cbn; lia. Qed.
Lemma radix_dec t : is_binary t = false -> decimal_radix t = radix t.
Proof. destruct t; intros H; try discriminate; reflexivity. Qed.
Lemma radix_bin t : is_binary t = true -> radix t = 2 ^ bits t.
Proof. destruct t; intros H; try discriminate; reflexivity. Qed.
Lemma bits_pos t : 0 < bits t.
Proof. destruct t; reflexivity. Qed.
Lemma storage_bin t n : is_binary t = true -> storage t n -> 0 <= n < radix t.
Proof. destruct t; intros H; try discriminate; intros S; exact S. Qed.
Lemma storage_nonneg t n : storage t n -> 0 <= n.
Proof. unfold storage. lia. Qed.
Lemma storage_single t n : is_binary t = false -> storage t n -> fits_single t n = true ->
  0 <= n < radix t.
Proof.
  intros Hb S H. unfold fits_single in H. apply Z.ltb_lt in H. rewrite radix_dec in H by assumption.
  apply storage_nonneg in S. lia.
Qed.
Lemma storage_pair t n : is_binary t = false -> storage t n -> fits_single t n = false ->
  let '(h, l) := split_dec t n in
  0 < h < radix t /\ 0 <= l < radix t /\ n = l + radix t * h.
Proof.
  intros Hb S H. unfold split_dec. unfold fits_single in H. apply Z.ltb_ge in H.
  rewrite radix_dec in * by assumption.
  pose proof (radix_gt t) as Hr.
  pose proof (Z.mod_pos_bound n (radix t) ltac:(lia)).
  pose proof (Z.div_mod n (radix t) ltac:(lia)).
  split; [|split; [assumption|lia]].
  split; [apply Z.div_str_pos; lia|].
  apply Z.div_lt_upper_bound; [lia|]. unfold storage in S. destruct t; try discriminate; cbn in *; lia.
Qed.
Lemma hex_places_dec t n : is_binary t = false -> 0 <= n <= 4 * Z.of_nat (MAX_HEX_PLACES t) ->
  2 ^ n < radix t.
Proof.
  intros Hb Hn. apply Z.le_lt_trans with (2 ^ (4 * Z.of_nat (MAX_HEX_PLACES t))).
  - apply Z.pow_le_mono_r; lia.
  - destruct t; try discriminate; reflexivity.
Qed.

Section Typed.
Variable dbg : bool.
Variable t : dty.
Notation B := (radix t).
Notation D := (impl dbg t).
Notation val := (value B).
Notation digs := (below B).
Notation p n := (pw B n).
Let OK : digit_ok B D := impl_ok dbg t.
Let HB : 1 < B := radix_gt t.

Lemma from_T_ok n : storage t n -> digs (from_T t n) /\ normal (from_T t n) /\ val (from_T t n) = n.
Proof.
  intros S. unfold from_T. destruct (Z.eqb_spec n 0) as [->|Hn].
  { conj; auto using below_nil, normal_nil. }
  assert (single : 0 <= n < B -> digs [n] /\ normal [n] /\ val [n] = n).
  { intros H. conj; [apply below_cons; auto using below_nil|apply normal_single; auto|cbn [value]; lia]. }
  destruct (is_binary t) eqn:Hb; [apply single, storage_bin; auto|].
  destruct (fits_single t n) eqn:Hf; [apply single, storage_single; auto|].
  pose proof (storage_pair t n Hb S Hf) as H. destruct (split_dec t n) as [h l].
  destruct H as (H1 & H2 & ->). conj.
  - rewrite !below_cons. conj; auto using below_nil; lia.
  - apply (normal_snoc [l] h). lia.
  - cbn [value]. lia.
Qed.

Lemma skipn_normal_tail n l : normal l -> normal (skipn n l).
Proof. apply normal_skipn. Qed.

Lemma add_assign_T_ok self n : digs self -> storage t n ->
  total (add_assign_T dbg t self n) (fun r =>
    digs r /\ val r = val self + n /\ (normal self -> normal r)).
Proof.
  intros Hs S. unfold add_assign_T.
  destruct (is_binary t) eqn:Hb; [apply (add_assign_d_ok B D OK); auto using storage_bin|].
  destruct (fits_single t n) eqn:Hf; [apply (add_assign_d_ok B D OK); auto using storage_single|].
  pose proof (storage_pair t n Hb S Hf) as H. destruct (split_dec t n) as [h l].
  destruct H as (H1 & H2 & ->).
  tstep (add_assign_d_ok B D OK); auto. intros r (Dr & Vr & Nr).
  set (r' := if ubig_is_zero r then [0] else r).
  assert (Hr' : digs r' /\ val r' = val r /\ (1 <= length r')%nat
                /\ (normal r -> (2 <= length r')%nat -> normal r')).
  { unfold r'. destruct r as [|x r]; cbn [ubig_is_zero].
    - conj; [apply below_cons; split; [lia|apply below_nil]|cbn [value]; ring|cbn; lia|cbn; lia].
    - conj; auto. cbn; lia. }
  destruct Hr' as (D' & V' & L' & N').
  eapply step_suffix; [lia|apply (add_assign_digit_ok B D OK); [apply below_skipn; auto|lia]|].
  intros s c (Ls & Ds & Hc). ret.
  assert (Lf : length (firstn 1 r') = 1%nat) by len.
  assert (VV : val r' = val (firstn 1 r') + p 1 * val (skipn 1 r')) by (apply value_split; lia).
  assert (Dq : digs (firstn 1 r' ++ s)) by (apply below_app; auto using below_firstn).
  rewrite pw_1 in VV. destruct c as [k|].
  - destruct Hc as [Hk Hv]. conj.
    + apply push_digs; [assumption|lia].
    + rewrite push_val, value_app, app_length, Lf, Ls, pw_1, pw_add, pw_1. nia.
    + intros _. apply normal_snoc. lia.
  - conj; auto.
    + rewrite value_app, Lf, pw_1. nia.
    + intros Hn. destruct (Nat.le_gt_cases 2 (length r')) as [H3|H3].
      * apply (normal_grow B D OK _ r'); auto; [len|]. rewrite value_app, Lf, pw_1. nia.
      * assert (Hl : length (skipn 1 r') = 0%nat) by len.
        destruct (skipn 1 r'); [|discriminate Hl].
        destruct s; [|cbn in Ls; lia]. cbn [value] in Hc. lia.
Qed.

Lemma mul_assign_T_ok self n : digs self -> storage t n ->
  total (mul_assign_T dbg t self n) (fun r =>
    digs r /\ val r = val self * n /\ (normal self -> normal r)).
Proof.
  intros Hs S. unfold mul_assign_T.
  assert (single : 0 <= n < B -> total (mul_assign_d D self n) (fun r =>
    digs r /\ val r = val self * n /\ (normal self -> normal r))).
  { intros H. eapply total_post; [apply (mul_add_assign_digit_ok B D OK); auto; lia|].
    intros r (A1 & A2 & A3). conj; auto. lia. }
  destruct (is_binary t) eqn:Hb; [apply single, storage_bin; auto|].
  destruct (fits_single t n) eqn:Hf; [apply single, storage_single; auto|].
  pose proof (storage_pair t n Hb S Hf) as H. destruct (split_dec t n) as [h l].
  destruct H as (H1 & H2 & ->).
  eapply total_post; [apply (mul_pair_add_ok B D OK); auto; lia|].
  intros r (A1 & A2 & A3). conj; auto. lia.
Qed.

(** Subtraction of a value that fits one digit. *)
Lemma sub_assign_T_ok self n : digs self -> storage t n -> n < B ->
  spec (fun w => w = PExplicit Underflow /\ val self < n)
    (sub_assign_T dbg t self n) (fun r =>
    digs r /\ val r = val self - n /\ (normal self -> 0 < val r \/ n = 0 -> normal r)
    /\ (normal self -> n <> 0 -> val r = 0 -> r = [0])).
Proof.
  intros Hs S Hlt.
  assert (single : spec (fun w => w = PExplicit Underflow /\ val self < n)
    (sub_assign_d D self n) (fun r =>
    digs r /\ val r = val self - n /\ (normal self -> 0 < val r \/ n = 0 -> normal r)
    /\ (normal self -> n <> 0 -> val r = 0 -> r = [0]))).
  { pose proof (storage_nonneg t n S) as Hn0. 
    destruct (Z.eq_dec n 0) as [->|Hz].
    - unfold sub_assign_d, sub_assign_digit. cbn. unfold truncate. rewrite firstn_all.
      conj; auto; lia.
    - eapply spec_post; [apply (sub_assign_d_ok B D OK); auto; lia|].
      intros r (A1 & A2 & A3 & A4). conj; auto.
      + intros Hn [H|H]; [auto|contradiction].
      + intros Hn _ Hv. destruct r as [|x [|y r]].
        * exfalso. specialize (A4 Hz). cbn in A4. lia.
        * f_equal. cbn [value] in Hv. lia.
        * exfalso. assert (Hnr : normal (x :: y :: r)) by (apply A3; [auto|right; cbn; lia]).
          apply (value_normal_zero B HB) in Hv; auto. discriminate Hv. }
  unfold sub_assign_T. destruct (is_binary t) eqn:Hb; [exact single|].
  assert (Hf : fits_single t n = true).
  { unfold fits_single. apply Z.ltb_lt. rewrite radix_dec by assumption. lia. }
  rewrite Hf. exact single.
Qed.

(** ** division by a value that fits one digit *)
Lemma div_assign_T_ok self n : digs self -> storage t n -> n < B ->
  spec (fun w => w = PExplicit DivisionByZero /\ n = 0) (div_assign_T dbg t self n)
    (fun q => n <> 0 /\ digs q /\ normal q /\ val q = val self / n).
Proof.
  intros Hs S Hlt. pose proof (storage_nonneg t n S). unfold div_assign_T.
  destruct (is_binary t) eqn:Hb; [apply (div_assign_d_ok B D OK); auto|].
  assert (Hf : fits_single t n = true).
  { unfold fits_single. apply Z.ltb_lt. rewrite radix_dec by assumption. lia. }
  rewrite Hf. apply (div_assign_d_ok B D OK); auto.
Qed.
Lemma rem_assign_T_ok self n : digs self -> storage t n -> n < B ->
  spec (fun w => w = PExplicit DivisionByZero /\ n = 0) (rem_assign_T dbg t self n)
    (fun q => n <> 0 /\ digs q /\ normal q /\ val q = val self mod n).
Proof.
  intros Hs S Hlt. pose proof (storage_nonneg t n S). unfold rem_assign_T.
  destruct (is_binary t) eqn:Hb; [apply (rem_assign_d_ok B D OK); auto|].
  assert (Hf : fits_single t n = true).
  { unfold fits_single. apply Z.ltb_lt. rewrite radix_dec by assumption. lia. }
  rewrite Hf. apply (rem_assign_d_ok B D OK); auto.
Qed.

(** ** shifts *)
Lemma shl_digit_ok self n : digs self -> 0 <= n -> 2 ^ n < B ->
  total ('(self, carry) <- shl_carry_assign_within_digit D self n 0 ;;
         Ret (if carry =? 0 then self else self ++ [carry])) (fun r =>
    digs r /\ val r = val self * 2 ^ n /\ (normal self -> normal r)).
Proof.
  intros Hs Hn Hp. tstep (shl_within_ok B D OK); auto. intros [r c] (L & Dr & Hc & V). ret.
  destruct (Z.eqb_spec c 0) as [->|Hz].
  - conj; auto; [lia|]. intros HN. apply (normal_grow B D OK _ self); auto.
    pose proof (value_nonneg B HB self Hs). pose proof (Z.pow_pos_nonneg 2 n). nia.
  - conj; [apply push_digs; [assumption|lia]|rewrite push_val, L; lia|].
    intros _. apply normal_snoc. assumption.
Qed.

Lemma zeros_nil n : zeros n = [] -> n = 0%nat.
Proof. destruct n; [auto|discriminate]. Qed.

Lemma pw_bits n : is_binary t = true -> 0 <= n -> p (Z.to_nat n) = 2 ^ (bits t * n).
Proof.
  intros Hb Hn. unfold pw. rewrite Z2Nat.id by lia. rewrite radix_bin by assumption.
  rewrite <- Z.pow_mul_r; [reflexivity| |lia]. pose proof (bits_pos t). lia.
Qed.

Lemma shl_assign_bin_ok self n : is_binary t = true -> digs self -> 0 <= n ->
  total (shl_assign dbg t self n) (fun r =>
    digs r /\ val r = val self * 2 ^ n
    /\ (normal self -> self <> [] \/ n < bits t -> normal r)).
Proof.
  intros Hb Hs Hn. unfold shl_assign. rewrite Hb. pose proof (bits_pos t) as Hbt.
  pose proof (Z.mod_pos_bound n (bits t) Hbt) as Hm.
  pose proof (Z.div_mod n (bits t) ltac:(lia)) as Hdm.
  assert (Hq : 0 <= n / bits t) by (apply Z.div_pos; lia).
  set (hi := n / bits t) in *. set (lo := n mod bits t) in *.
  assert (Hlo : total (if lo =? 0 then Ret self
             else '(self, carry) <- shl_carry_assign_within_digit D self lo 0 ;;
                  Ret (if carry =? 0 then self else self ++ [carry])) (fun r =>
    digs r /\ val r = val self * 2 ^ lo /\ (normal self -> normal r))).
  { destruct (Z.eqb_spec lo 0) as [->|Hz].
    - ret. rewrite Z.pow_0_r. conj; auto; lia.
    - apply shl_digit_ok; auto; [lia|]. rewrite radix_bin by assumption.
      apply Z.pow_lt_mono_r; lia. }
  tstep Hlo. intros r (Dr & Vr & Nr). ret.
  assert (E : 2 ^ n = 2 ^ (bits t * hi) * 2 ^ lo) by (rewrite <- Z.pow_add_r; [f_equal; lia|nia|lia]).
  destruct (Z.eqb_spec hi 0) as [Hh|Hh].
  - rewrite Hh, Z.mul_0_r, Z.pow_0_r in E. conj; auto. rewrite Vr. nia.
  - conj.
    + apply below_app. split; [apply below_zeros; lia|assumption].
    + rewrite value_app, value_zeros, zeros_length, pw_bits, Vr by assumption. nia.
    + intros HN [He|He].
      * apply normal_app; [|auto]. intros ->. cbn [value] in Vr.
        apply He. apply (value_normal_zero B HB); auto.
        pose proof (Z.pow_pos_nonneg 2 lo). nia.
      * assert (hi = 0) by (apply Z.div_small; lia). contradiction.
Qed.

Lemma shl_assign_dec_ok self n : is_binary t = false -> digs self ->
  0 <= n <= 4 * Z.of_nat (MAX_HEX_PLACES t) ->
  total (shl_assign dbg t self n) (fun r =>
    digs r /\ val r = val self * 2 ^ n /\ (normal self -> normal r)).
Proof.
  intros Hb Hs Hn. unfold shl_assign. rewrite Hb.
  replace (n <=? 4 * Z.of_nat (MAX_HEX_PLACES t)) with true by (symmetry; apply Z.leb_le; lia).
  apply shl_digit_ok; auto; [lia|]. apply hex_places_dec; auto.
Qed.

Lemma shr_digit_ok self n : digs self -> 0 <= n -> 2 ^ n < B ->
  total ('(self, (nd, _)) <- shr_carry_assign_within_digit D self n 0 ;;
         Ret (if (nd <? length self)%nat then truncate nd self else self)) (fun r =>
    digs r /\ val r = val self / 2 ^ n /\ normal r).
Proof.
  intros Hs Hn Hp. destruct (Z.eq_dec n 0) as [->|Hz].
  - tstep (shr_within_zero B). intros [r [nd c]] (-> & _ & Hnd & V & N). ret.
    rewrite trunc_if by lia. rewrite Z.pow_0_r, Z.div_1_r.
    conj; auto. apply below_firstn; assumption.
  - tstep (shr_within_ok B D OK); auto; [lia|lia|].
    intros [r [nd c]] (L & Dr & Hc & V & Hnd & Vn & N). ret.
    rewrite trunc_if by lia. conj; auto; [apply below_firstn; assumption|].
    rewrite Vn. apply Z.div_unique with c; lia.
Qed.

Lemma shr_assign_bin_val self n : is_binary t = true -> digs self -> 0 <= n ->
  n / bits t <= Z.of_nat (length self) ->
  total (shr_assign dbg t self n) (fun r =>
    digs r /\ val r = val self / 2 ^ n /\ (normal self -> normal r)).
Proof.
  intros Hb Hs Hn Hlen. unfold shr_assign. rewrite Hb. pose proof (bits_pos t) as Hbt.
  pose proof (Z.mod_pos_bound n (bits t) Hbt) as Hm.
  pose proof (Z.div_mod n (bits t) ltac:(lia)) as Hdm.
  assert (Hq : 0 <= n / bits t) by (apply Z.div_pos; lia).
  set (hi := n / bits t) in *. set (lo := n mod bits t) in *.
  assert (Hhi : total (if hi =? 0 then Ret self
             else if Z.of_nat (length self) <? hi then Panic PIndex
             else Ret (skipn (Z.to_nat hi) self)) (fun r =>
    digs r /\ val r = val self / 2 ^ (bits t * hi) /\ (normal self -> normal r))).
  { destruct (Z.eqb_spec hi 0) as [->|Hz].
    - ret. rewrite Z.mul_0_r, Z.pow_0_r, Z.div_1_r. auto.
    - destruct (Z.ltb_spec (Z.of_nat (length self)) hi); [lia|]. ret.
      conj; [apply below_skipn; auto| |intros HN; apply normal_skipn; auto].
      rewrite <- pw_bits by assumption.
      apply Z.div_unique with (val (firstn (Z.to_nat hi) self)).
      + left. pose proof (value_bound B HB (firstn (Z.to_nat hi) self)
          (below_firstn B _ _ Hs)) as Hbd.
        replace (length (firstn (Z.to_nat hi) self)) with (Z.to_nat hi) in Hbd by len. exact Hbd.
      + rewrite (value_split B (Z.to_nat hi) self) by lia. lia. }
  tstep Hhi. intros r (Dr & Vr & Nr).
  assert (E : 2 ^ n = 2 ^ (bits t * hi) * 2 ^ lo) by (rewrite <- Z.pow_add_r; [f_equal; lia|nia|lia]).
  assert (Ev : val self / 2 ^ n = val r / 2 ^ lo).
  { rewrite E, Vr, Z.div_div; [reflexivity| |].
    - apply Z.pow_nonzero; [lia|nia].
    - apply Z.pow_pos_nonneg; lia. }
  rewrite Ev. destruct (Z.eqb_spec lo 0) as [->|Hz].
  - ret. rewrite Z.pow_0_r, Z.div_1_r. auto.
  - eapply total_post; [apply shr_digit_ok; auto; [lia|]|cbn beta; tauto].
    rewrite radix_bin by assumption. apply Z.pow_lt_mono_r; lia.
Qed.

Lemma shr_assign_bin_ok self n : is_binary t = true -> digs self -> normal self -> 0 <= n ->
  n / bits t <= Z.of_nat (length self) ->
  total (shr_assign dbg t self n) (fun r =>
    digs r /\ val r = val self / 2 ^ n /\ normal r).
Proof.
  intros Hb Hs HN Hn Hlen. eapply total_post; [apply shr_assign_bin_val; assumption|]. cbn beta. tauto.
Qed.

Lemma shr_assign_bin_panic self n : is_binary t = true ->
  Z.of_nat (length self) < n / bits t -> shr_assign dbg t self n = Panic PIndex.
Proof.
  intros Hb H. unfold shr_assign. rewrite Hb.
  replace (n / bits t =? 0) with false by (symmetry; apply Z.eqb_neq; lia).
  replace (Z.of_nat (length self) <? n / bits t) with true by (symmetry; apply Z.ltb_lt; lia).
  reflexivity.
Qed.

Lemma shr_assign_dec_ok self n : is_binary t = false -> digs self ->
  0 <= n <= 4 * Z.of_nat (MAX_HEX_PLACES t) ->
  total (shr_assign dbg t self n) (fun r =>
    digs r /\ val r = val self / 2 ^ n /\ normal r).
Proof.
  intros Hb Hs Hn. unfold shr_assign. rewrite Hb.
  replace (n <=? 4 * Z.of_nat (MAX_HEX_PLACES t)) with true by (symmetry; apply Z.leb_le; lia).
  apply shr_digit_ok; auto; [lia|]. apply hex_places_dec; auto.
Qed.

Lemma shr_assign_dec_panic self n : is_binary t = false -> 4 * Z.of_nat (MAX_HEX_PLACES t) < n ->
  shr_assign dbg t self n = Panic PUnimplemented.
Proof.
  intros Hb Hn. unfold shr_assign. rewrite Hb.
  replace (n <=? 4 * Z.of_nat (MAX_HEX_PLACES t)) with false by (symmetry; apply Z.leb_gt; lia).
  reflexivity.
Qed.

End Typed.
