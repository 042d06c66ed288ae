(** * DigitText: which texts of any length a digit is read from. *)
From Coq Require Import ZArith List Bool Lia.
From Verif Require Import Base Digit Spec SpecParse DigitOK TextProof TypedProof ParseExact.
Import ListNotations.
Open Scope Z_scope.

Lemma radix_acc_full w base acc s : good_base base -> Forall (char_of_base base) s -> 0 <= acc < 2 ^ w ->
  radix_acc w base acc s =
    let v := acc * base ^ Z.of_nat (length s) + numeral_value base s in if v <? 2 ^ w then Some v else None.
Proof.
  intros Hb Hs. assert (Hb1 : 0 < base) by (unfold good_base in Hb; lia). revert acc.
  induction Hs as [|c s Hc Hs IH]; intros acc Ha; cbn [radix_acc]; cbv zeta.
  - rewrite nv_nil. cbn [length]. rewrite Z.pow_0_r. replace (acc * 1 + 0) with acc by lia.
    rewrite (proj2 (Z.ltb_lt acc (2 ^ w))) by lia. reflexivity.
  - destruct (char_digit_yes base c Hb Hc) as [-> Hv]. rewrite nv_cons. cbn [length].
    rewrite Nat2Z.inj_succ, Z.pow_succ_r by lia.
    pose proof (nv_bound base s Hb Hs) as Hn.
    set (q := base ^ Z.of_nat (length s)) in *. assert (Hq : 0 < q) by (apply Z.pow_pos_nonneg; lia).
    set (u := acc * base + char_value c).
    replace (acc * (base * q) + (char_value c * q + numeral_value base s)) with (u * q + numeral_value base s) by (unfold u; ring).
    assert (Hu : 0 <= u) by (unfold u; apply Z.add_nonneg_nonneg; [apply Z.mul_nonneg_nonneg; lia|lia]).
    destruct (Z.ltb_spec u (2 ^ w)) as [Hlt|Hge].
    + rewrite IH by lia. reflexivity.
    + assert (u * 1 <= u * q) by (apply Z.mul_le_mono_nonneg_l; lia).
      rewrite (proj2 (Z.ltb_ge (u * q + numeral_value base s) (2 ^ w))) by lia. reflexivity.
Qed.

Section Read.
Variables (dbg : bool) (t : dty).
Notation B := (radix t).
Notation D := (impl dbg t).

Lemma read_some s base v : from_str_radix (bits t) base s = Some v -> v < B -> d_from_base_str D s base = ROk v.
Proof.
  intros E H. unfold impl. destruct (is_binary t) eqn:Eb; cbn [bin_digit dec_digit d_from_base_str].
  - unfold bin_from_base_str. rewrite E. reflexivity.
  - unfold dec_from_base_str. rewrite E.
    destruct (Z.ltb_spec v (decimal_radix t)) as [_|Hg]; [reflexivity|].
    rewrite (radix_dec t Eb) in Hg. lia.
Qed.
Lemma read_large s base v : from_str_radix (bits t) base s = Some v -> v < 2 ^ bits t -> B <= v ->
  d_from_base_str D s base = RErr InvalidNumber.
Proof.
  intros E H1 H. unfold impl. destruct (is_binary t) eqn:Eb; cbn [bin_digit dec_digit d_from_base_str].
  - exfalso. rewrite (radix_bin t Eb) in H. lia.
  - unfold dec_from_base_str. rewrite E.
    destruct (Z.ltb_spec v (decimal_radix t)) as [Hg|_]; [|reflexivity].
    rewrite (radix_dec t Eb) in Hg. lia.
Qed.
Lemma pow_bits : 0 < 2 ^ bits t.
Proof. destruct t; reflexivity. Qed.
(** a numeral without sign, or behind one plus sign *)
Lemma read_numeral s c base : good_base base -> numeral_of base c ->
  from_str_radix (bits t) base s = radix_acc (bits t) base 0 c ->
  d_from_base_str D s base = if numeral_value base c <? B then ROk (numeral_value base c) else RErr InvalidNumber.
Proof.
  intros Hb [Hn Hc] E. pose proof pow_bits as P. pose proof (radix_le dbg t) as R.
  rewrite (radix_acc_full _ _ 0 c Hb Hc) in E by lia. cbv zeta in E. rewrite Z.mul_0_l, Z.add_0_l in E.
  destruct (Z.ltb_spec (numeral_value base c) (2 ^ bits t)) as [H|H].
  - destruct (Z.ltb_spec (numeral_value base c) B) as [H'|H'].
    + apply read_some; assumption.
    + apply (read_large s base (numeral_value base c)); assumption.
  - rewrite (proj2 (Z.ltb_ge (numeral_value base c) B)) by lia. apply from_base_none. exact E.
Qed.
Lemma read_claim s base : base = 10 \/ base = 16 ->
  (forall v, group base s v -> v < B -> d_from_base_str D s base = ROk v)
  /\ ((forall v, group base s v -> B <= v) -> d_from_base_str D s base = RErr InvalidNumber).
Proof.
  intros Hb0. assert (Hb : good_base base) by (unfold good_base; tauto).
  assert (G : forall v, group base s v -> d_from_base_str D s base = if v <? B then ROk v else RErr InvalidNumber).
  { intros v H. inversion H as [c N|c N]; subst.
    - apply read_numeral; auto. destruct N as [Hn Hc]. apply from_str_radix_noplus; [exact Hn|].
      destruct s as [|x s]; [contradiction|]. cbn [hd]. intros ->. inversion Hc; subst. eapply plus_not_char; eauto.
    - apply read_numeral; auto. apply radix_plus. apply N. }
  split.
  - intros v H L. rewrite (G v H). rewrite (proj2 (Z.ltb_lt v B)) by exact L. reflexivity.
  - intros H. destruct s as [|x c]; [apply from_base_none; reflexivity|].
    destruct (Forall_dec _ (char_dec base) (x :: c)) as [HF|HF].
    { assert (Gv : group base (x :: c) (numeral_value base (x :: c))) by (constructor; split; [discriminate|exact HF]).
      rewrite (G _ Gv). rewrite (proj2 (Z.ltb_ge _ B)) by (apply H, Gv). reflexivity. }
    destruct (Z.eq_dec x 43) as [->|Hx].
    + destruct c as [|y c]; [apply from_base_none; reflexivity|].
      destruct (Forall_dec _ (char_dec base) (y :: c)) as [HF'|HF'].
      * assert (Gv : group base (43 :: y :: c) (numeral_value base (y :: c)))
          by (apply group_plus; split; [discriminate|exact HF']).
        rewrite (G _ Gv). rewrite (proj2 (Z.ltb_ge _ B)) by (apply H, Gv). reflexivity.
      * apply from_base_none. rewrite radix_plus by discriminate. apply radix_acc_no; auto.
    + apply from_base_none. rewrite from_str_radix_noplus by (auto; discriminate). apply radix_acc_no; auto.
Qed.
End Read.
