(** * TextProof: parsing and formatting. *)
From Coq Require Import ZArith List Bool Lia.
From Verif Require Import Base Digit Slice Mul Div UBig Text Spec Hoare DigitOK ListLemmas SliceProof
  MulProof UBigProof DivProof TypedProof.
Import ListNotations.
Open Scope Z_scope.
Open Scope m_scope.

(** ** Numerals *)
Lemma fold_nv base s a :
  fold_left (fun acc c => acc * base + char_value c) s a
  = a * base ^ Z.of_nat (length s) + numeral_value base s.
Proof.
  unfold numeral_value. revert a. induction s as [|c s IH]; intros a; cbn [fold_left length].
  - rewrite Z.pow_0_r. lia.
  - rewrite IH, (IH (0 * base + _)). rewrite Nat2Z.inj_succ, Z.pow_succ_r by lia. ring.
Qed.

Lemma nv_app base a b :
  numeral_value base (a ++ b) = numeral_value base a * base ^ Z.of_nat (length b) + numeral_value base b.
Proof. unfold numeral_value at 1. rewrite fold_left_app. apply fold_nv. Qed.

Lemma nv_cons base c s :
  numeral_value base (c :: s) = char_value c * base ^ Z.of_nat (length s) + numeral_value base s.
Proof.
  unfold numeral_value at 1. cbn [fold_left]. rewrite fold_nv. ring.
Qed.

Lemma nv_nil base : numeral_value base [] = 0.
Proof. reflexivity. Qed.

(** ** [char_digit] and [from_str_radix] *)
Definition good_base (base : Z) : Prop := base = 10 \/ base = 16.

Lemma char_digit_yes base c : good_base base -> char_of_base base c ->
  char_digit base c = Some (char_value c) /\ 0 <= char_value c < base.
Proof.
  intros Hb Hc. unfold char_digit, char_value, char_of_base, dec_char, hex_char in *.
  repeat match goal with
  | |- context [?a <=? ?b] => destruct (Z.leb_spec a b); cbn [andb]
  | |- context [?a <? ?b] => destruct (Z.ltb_spec a b); cbn [andb]
  end; try lia; split; try lia; try (f_equal; lia).
Qed.

Lemma char_digit_no base c : good_base base -> ~ char_of_base base c -> char_digit base c = None.
Proof.
  intros Hb Hc. unfold char_digit, char_of_base, dec_char, hex_char, good_base in *.
  repeat match goal with
  | |- context [?a <=? ?b] => destruct (Z.leb_spec a b); cbn [andb]
  | |- context [?a <? ?b] => destruct (Z.ltb_spec a b); cbn [andb]
  end; try lia; try reflexivity.
Qed.

Lemma char_dec base c : {char_of_base base c} + {~ char_of_base base c}.
Proof.
  unfold char_of_base, dec_char, hex_char.
  destruct (Z.eq_dec base 10), (Z.eq_dec base 16), (Z_le_dec 48 c), (Z_le_dec c 57),
    (Z_le_dec 97 c), (Z_le_dec c 102), (Z_le_dec 65 c), (Z_le_dec c 70);
    try (left; lia); right; lia.
Qed.

Lemma nv_bound base s : good_base base -> Forall (char_of_base base) s ->
  0 <= numeral_value base s < base ^ Z.of_nat (length s).
Proof.
  intros Hb H. assert (0 < base) by (unfold good_base in Hb; lia).
  induction H as [|c s Hc Hs IH]; [rewrite nv_nil; cbn; lia|].
  rewrite nv_cons. cbn [length]. rewrite Nat2Z.inj_succ, Z.pow_succ_r by lia.
  destruct (char_digit_yes base c Hb Hc) as [_ Hv]. nia.
Qed.

Lemma radix_acc_yes w base acc s : good_base base -> Forall (char_of_base base) s -> 0 <= acc ->
  acc * base ^ Z.of_nat (length s) + base ^ Z.of_nat (length s) <= 2 ^ w ->
  radix_acc w base acc s = Some (acc * base ^ Z.of_nat (length s) + numeral_value base s).
Proof.
  intros Hb Hs. assert (Hb1 : 0 < base) by (unfold good_base in Hb; lia). revert acc.
  induction Hs as [|c s Hc Hs IH]; intros acc Ha Hw; cbn [radix_acc].
  - rewrite nv_nil. cbn [length]. rewrite Z.pow_0_r. f_equal. lia.
  - destruct (char_digit_yes base c Hb Hc) as [-> Hv].
    cbn [length] in *. rewrite Nat2Z.inj_succ, Z.pow_succ_r in Hw by lia.
    set (q := base ^ Z.of_nat (length s)) in *.
    assert (Hq : 0 < q) by (apply Z.pow_pos_nonneg; lia).
    destruct (Z.ltb_spec (acc * base + char_value c) (2 ^ w)) as [_|Hge]; [|nia].
    rewrite IH by (fold q; nia). f_equal. rewrite nv_cons, Nat2Z.inj_succ, Z.pow_succ_r by lia.
    fold q. ring.
Qed.

Lemma radix_acc_no w base acc s : good_base base -> ~ Forall (char_of_base base) s ->
  radix_acc w base acc s = None.
Proof.
  intros Hb. revert acc. induction s as [|c s IH]; intros acc H; cbn [radix_acc].
  - exfalso. apply H. constructor.
  - destruct (char_dec base c) as [Hc|Hc].
    + destruct (char_digit_yes base c Hb Hc) as [-> _].
      destruct (_ <? _); [|reflexivity]. apply IH. intros HF. apply H. constructor; assumption.
    + rewrite char_digit_no by assumption. reflexivity.
Qed.

Lemma radix_acc_range w base acc s d : 0 < base -> 0 <= acc < 2 ^ w ->
  radix_acc w base acc s = Some d -> 0 <= d < 2 ^ w.
Proof.
  intros Hb. revert acc. induction s as [|c s IH]; intros acc Ha; cbn [radix_acc].
  - intros [= <-]. exact Ha.
  - destruct (char_digit base c) as [v|] eqn:E; [|discriminate].
    destruct (Z.ltb_spec (acc * base + v) (2 ^ w)) as [Hlt|]; [|discriminate].
    apply IH. split; [|exact Hlt].
    assert (0 <= v); [|nia]. revert E. unfold char_digit.
    repeat match goal with
    | |- context [?a <=? ?b] => destruct (Z.leb_spec a b); cbn [andb]
    end; (destruct (_ <? base); [intros [= <-]; lia|discriminate]).
Qed.

Lemma from_str_radix_noplus w base s : s <> [] -> hd 0 s <> 43 ->
  from_str_radix w base s = radix_acc w base 0 s.
Proof.
  intros Hs Hp. destruct s as [|c s]; [contradiction|]. cbn [hd] in Hp. unfold from_str_radix.
  repeat match goal with
         | |- context [match ?x with _ => _ end] => is_var x; destruct x; try reflexivity
         end; contradiction Hp; reflexivity.
Qed.

Lemma from_str_radix_range w base s d : 0 < base -> 0 <= w -> from_str_radix w base s = Some d ->
  0 <= d < 2 ^ w.
Proof.
  intros Hb Hw.
  assert (H0 : 0 <= 0 < 2 ^ w) by (split; [lia|apply Z.pow_pos_nonneg; lia]).
  unfold from_str_radix. intros E.
  repeat match type of E with
         | match ?x with _ => _ end = _ => destruct x; try discriminate E
         end; eapply radix_acc_range in E; eauto.
Qed.

(** ** Chunks *)
Lemma chunks_fuel f f' k l : (0 < k)%nat -> (length l <= f)%nat -> (length l <= f')%nat ->
  chunks f k l = chunks f' k l.
Proof.
  intros Hk. revert f' l. induction f as [|f IH]; intros f' l H H'.
  - destruct l; [destruct f'; reflexivity|cbn in H; lia].
  - destruct l as [|x l]; [destruct f'; reflexivity|].
    destruct f' as [|f']; [cbn in H'; lia|]. cbn [chunks]. f_equal.
    apply IH; rewrite skipn_length; cbn [length] in *; lia.
Qed.

Lemma rchunks_nil k : rchunks k [] = [].
Proof. reflexivity. Qed.

Lemma rchunks_cons k s : (0 < k)%nat -> s <> [] ->
  rchunks k s = skipn (length s - k) s :: rchunks k (firstn (length s - k) s).
Proof.
  intros Hk Hs. unfold rchunks at 1.
  assert (Hl : length s <> 0%nat) by (destruct s; [contradiction|discriminate]).
  destruct (length s) as [|n] eqn:E; [contradiction|].
  assert (Hr : rev s <> []).
  { intros Hr. apply (f_equal (@length Z)) in Hr. rewrite rev_length in Hr. cbn in Hr. lia. }
  cbn [chunks]. destruct (rev s) as [|x r] eqn:Er; [contradiction|]. rewrite <- Er. cbn [map].
  rewrite firstn_rev, skipn_rev, rev_involutive, E. f_equal.
  unfold rchunks. f_equal. apply chunks_fuel; auto; rewrite rev_length, firstn_length; lia.
Qed.

Lemma plus_not_char base : good_base base -> ~ char_of_base base 43.
Proof. unfold good_base, char_of_base, dec_char, hex_char. lia. Qed.

Lemma numeral_ind (P : list Z -> Prop) k : (0 < k)%nat -> P [] ->
  (forall s, s <> [] -> P (firstn (length s - k) s) -> P s) -> forall s, P s.
Proof.
  intros Hk H0 HS s. remember (length s) as n eqn:E. revert s E.
  induction n as [n IH] using lt_wf_ind. intros s ->.
  destruct s as [|c s]; [exact H0|]. apply HS; [discriminate|].
  eapply IH; [|reflexivity]. rewrite firstn_length. cbn [length]. lia.
Qed.

Lemma Forall_split {A} (P : A -> Prop) n l : Forall P l <-> Forall P (firstn n l) /\ Forall P (skipn n l).
Proof. rewrite <- (firstn_skipn n l) at 1. apply Forall_app. Qed.

Section Parse.
Variable dbg : bool.
Variable t : dty.
Notation B := (radix t).
Notation D := (impl dbg t).
Notation val := (value B).
Notation digs := (below B).
Let OK : digit_ok B D := impl_ok dbg t.
Let HB : 1 < B := radix_gt t.

Lemma radix_le : B <= 2 ^ bits t.
Proof. destruct t; vm_compute; congruence. Qed.

Lemma from_base_yes base s : good_base base -> s <> [] -> Forall (char_of_base base) s ->
  base ^ Z.of_nat (length s) <= B -> d_from_base_str D s base = ROk (numeral_value base s).
Proof.
  intros Hb Hs Hc Hl. pose proof radix_le as Hr. pose proof (nv_bound base s Hb Hc) as Hv.
  assert (E : from_str_radix (bits t) base s = Some (numeral_value base s)).
  { rewrite from_str_radix_noplus; auto.
    - rewrite radix_acc_yes; auto; try lia; try (f_equal; lia).
    - destruct s as [|c s]; [contradiction|]. cbn [hd]. intros ->. inversion Hc; subst.
      eapply plus_not_char; eauto. }
  unfold impl. destruct (is_binary t) eqn:Eb; cbn [bin_digit dec_digit d_from_base_str].
  - unfold bin_from_base_str. rewrite E. reflexivity.
  - unfold dec_from_base_str. rewrite E.
    destruct (Z.ltb_spec (numeral_value base s) (decimal_radix t)) as [_|Hg]; [reflexivity|].
    rewrite radix_dec in Hg by assumption. lia.
Qed.

Lemma from_base_no base s : good_base base -> s <> [] -> ~ In 43 s -> ~ Forall (char_of_base base) s ->
  d_from_base_str D s base = RErr InvalidNumber.
Proof.
  intros Hb Hs Hp Hc.
  assert (E : from_str_radix (bits t) base s = None).
  { rewrite from_str_radix_noplus; auto.
    - apply radix_acc_no; auto.
    - destruct s as [|c s]; [contradiction|]. cbn [hd]. intros ->. apply Hp. left. reflexivity. }
  unfold impl. destruct (is_binary t); cbn [bin_digit dec_digit d_from_base_str];
    [unfold bin_from_base_str|unfold dec_from_base_str]; rewrite E; reflexivity.
Qed.

Lemma from_base_any base s : good_base base ->
  match d_from_base_str D s base with
  | ROk d => 0 <= d < B
  | RErr e => e = InvalidNumber
  end.
Proof.
  intros Hb. assert (0 < base) by (unfold good_base in Hb; lia).
  pose proof (bits_pos t).
  unfold impl. destruct (is_binary t) eqn:Eb; cbn [bin_digit dec_digit d_from_base_str];
    [unfold bin_from_base_str|unfold dec_from_base_str];
    destruct (from_str_radix (bits t) base s) as [d|] eqn:E; auto;
    apply from_str_radix_range in E; try lia.
  - rewrite radix_bin by assumption. lia.
  - destruct (Z.ltb_spec d (decimal_radix t)); auto. rewrite <- radix_dec by assumption. lia.
Qed.

(** ** one digit per chunk *)
Section Push.
Variables (base : Z) (k : nat).
Hypothesis Hb : good_base base.
Hypothesis Hk : (0 < k)%nat.
Hypothesis Hkb : base ^ Z.of_nat k = B.

Lemma base_pos : 0 < base.
Proof. unfold good_base in Hb. lia. Qed.

Lemma chunk_len (s : list Z) : s <> [] -> let c := skipn (length s - k) s in
  c <> [] /\ (length c <= k)%nat /\ base ^ Z.of_nat (length c) <= base ^ Z.of_nat k.
Proof.
  intros Hs c. assert (Hl : (0 < length s)%nat) by (destruct s; [contradiction|cbn; lia]).
  assert (E : length c = Nat.min k (length s)) by (unfold c; rewrite skipn_length; lia).
  pose proof base_pos. conj.
  - intros Hc. rewrite Hc in E. cbn in E. lia.
  - lia.
  - apply Z.pow_le_mono_r; lia.
Qed.

Lemma nv_chunk s : numeral_value base s =
  numeral_value base (firstn (length s - k) s) * base ^ Z.of_nat k
  + numeral_value base (skipn (length s - k) s).
Proof.
  rewrite <- (firstn_skipn (length s - k) s) at 1. rewrite nv_app.
  destruct (Nat.le_gt_cases k (length s)) as [H|H].
  - rewrite skipn_length. replace (length s - (length s - k))%nat with k by lia. reflexivity.
  - replace (length s - k)%nat with 0%nat by lia. cbn [firstn]. rewrite nv_nil. lia.
Qed.

Lemma push_digits_yes s : Forall (char_of_base base) s ->
  exists ds, push_digits dbg t base (rchunks k s) = ROk ds /\ digs ds /\ val ds = numeral_value base s.
Proof.
  pattern s; revert s; apply (numeral_ind _ k Hk); [intros Hc|intros s Hs IH Hc].
  - exists []. rewrite rchunks_nil. conj; auto using below_nil.
  - rewrite rchunks_cons by assumption. cbn [push_digits].
    apply (Forall_split _ (length s - k)) in Hc. destruct Hc as [H1 H2].
    destruct (chunk_len s Hs) as (C1 & C2 & C3).
    rewrite from_base_yes; auto; [|lia].
    destruct (IH H1) as (ds & -> & Hd & Hv).
    eexists. split; [reflexivity|].
    pose proof (nv_bound base (skipn (length s - k) s) Hb H2) as Hn.
    split; [apply below_cons; split; [lia|assumption]|].
    cbn [value]. rewrite Hv, (nv_chunk s), Hkb. ring.
Qed.

Lemma In_split_43 (s : list Z) n : ~ In 43 s -> ~ In 43 (firstn n s) /\ ~ In 43 (skipn n s).
Proof. rewrite <- (firstn_skipn n s) at 1. rewrite in_app_iff. tauto. Qed.

Lemma push_digits_no s : ~ In 43 s -> ~ Forall (char_of_base base) s ->
  push_digits dbg t base (rchunks k s) = RErr InvalidNumber.
Proof.
  pattern s; revert s; apply (numeral_ind _ k Hk); [intros Hp Hc|intros s Hs IH Hp Hc].
  - contradiction Hc. constructor.
  - rewrite rchunks_cons by assumption. cbn [push_digits].
    destruct (chunk_len s Hs) as (C1 & C2 & C3).
    destruct (In_split_43 s (length s - k) Hp) as [P1 P2].
    destruct (Forall_dec _ (char_dec base) (skipn (length s - k) s)) as [H2|H2].
    + rewrite from_base_yes; auto; [|lia]. rewrite IH; auto. intros H1. apply Hc.
      apply (Forall_split _ (length s - k)). auto.
    + rewrite from_base_no; auto.
Qed.

Lemma push_digits_any parts :
  match push_digits dbg t base parts with ROk ds => digs ds | RErr e => e = InvalidNumber end.
Proof.
  induction parts as [|q ps IH]; cbn [push_digits]; [apply below_nil|].
  pose proof (from_base_any base q Hb) as H.
  destruct (d_from_base_str D q base) as [d|e]; [|exact H].
  destruct (push_digits dbg t base ps) as [ds|e]; [|exact IH].
  apply below_cons. auto.
Qed.

Lemma new_result_any r : match r with ROk ds => digs ds | RErr e => e = InvalidNumber end ->
  total (new_result r) (fun res => match res with
    | ROk x => digs x /\ normal x /\ (exists ds, r = ROk ds /\ val x = val ds)
    | RErr e => r = RErr e /\ e = InvalidNumber end).
Proof.
  destruct r as [ds|e]; intros H; cbn [new_result].
  - tstep (new_ok B); [exact H|]. intros x (X1 & X2 & X3). ret. conj; eauto.
  - ret. subst. auto.
Qed.
End Push.

(** ** multiply and add one chunk *)
Section MulAdd.
Variables (base : Z) (k : nat).
Hypothesis Hb : good_base base.
Hypothesis Hk : (0 < k)%nat.
Hypothesis Hkb : base ^ Z.of_nat k < B.
Let scale := base ^ Z.of_nat k.

Lemma scale_pos : 0 < scale < B.
Proof. split; [apply Z.pow_pos_nonneg; unfold good_base in Hb; lia|exact Hkb]. Qed.

Lemma mul_add_snoc ps q res :
  mul_add_parts dbg t base scale (ps ++ [q]) res
  = bind (mul_add_parts dbg t base scale ps res) (fun r => match r with
      | RErr e => Ret (RErr e)
      | ROk res => match d_from_base_str D q base with
                   | RErr e => Ret (RErr e)
                   | ROk d => res <- ubig_mul_add_assign_digit D res scale d ;; Ret (ROk res)
                   end
      end).
Proof.
  revert res. induction ps as [|p0 ps IH]; intros res; cbn [app mul_add_parts].
  - cbn [bind]. destruct (d_from_base_str D q base); [|reflexivity].
    destruct (ubig_mul_add_assign_digit D res scale a); reflexivity.
  - destruct (d_from_base_str D p0 base); [|reflexivity].
    destruct (ubig_mul_add_assign_digit D res scale a); cbn [bind]; auto.
Qed.

Lemma mul_add_yes s : Forall (char_of_base base) s ->
  total (mul_add_parts dbg t base scale (rev (rchunks k s)) []) (fun res => exists r,
    res = ROk r /\ digs r /\ normal r /\ val r = numeral_value base s).
Proof.
  pose proof scale_pos as Hsc.
  pattern s; revert s; apply (numeral_ind _ k Hk); [intros Hc|intros s Hs IH Hc].
  - rewrite rchunks_nil. cbn [rev mul_add_parts]. ret. exists [].
    conj; auto using below_nil, normal_nil.
  - rewrite rchunks_cons by assumption. cbn [rev]. rewrite mul_add_snoc.
    apply (Forall_split _ (length s - k)) in Hc. destruct Hc as [H1 H2].
    destruct (chunk_len base k Hb Hk s Hs) as (C1 & C2 & C3).
    tstep IH; [exact H1|]. intros res (r & -> & Dr & Nr & Vr).
    fold scale in C3. rewrite from_base_yes; auto; [|lia].
    pose proof (nv_bound base (skipn (length s - k) s) Hb H2) as Hn.
    tstep (mul_add_assign_digit_ok B D OK); [exact Dr|lia|lia|].
    intros r' (Dr' & Vr' & Nr'). ret. exists r'.
    conj; auto. rewrite Vr', Vr. symmetry. apply nv_chunk. exact Hk.
Qed.

Lemma mul_add_no s : ~ In 43 s -> ~ Forall (char_of_base base) s ->
  mul_add_parts dbg t base scale (rev (rchunks k s)) [] = Ret (RErr InvalidNumber).
Proof.
  pose proof scale_pos as Hsc.
  pattern s; revert s; apply (numeral_ind _ k Hk); [intros Hp Hc|intros s Hs IH Hp Hc].
  - contradiction Hc. constructor.
  - rewrite rchunks_cons by assumption. cbn [rev]. rewrite mul_add_snoc.
    destruct (chunk_len base k Hb Hk s Hs) as (C1 & C2 & C3).
    destruct (In_split_43 s (length s - k) Hp) as [P1 P2].
    destruct (Forall_dec _ (char_dec base) (firstn (length s - k) s)) as [H1|H1].
    + destruct (total_inv _ _ (mul_add_yes _ H1)) as (a & -> & r & -> & _). cbn [bind].
      rewrite from_base_no; auto. intros H2. apply Hc. apply (Forall_split _ (length s - k)). auto.
    + rewrite IH by auto. reflexivity.
Qed.

Lemma mul_add_any parts res : digs res -> normal res ->
  total (mul_add_parts dbg t base scale parts res) (fun res => match res with
    | ROk r => digs r /\ normal r | RErr e => e = InvalidNumber end).
Proof.
  pose proof scale_pos as Hsc. revert res.
  induction parts as [|q ps IH]; intros res Hd Hn; cbn [mul_add_parts]; [ret; auto|].
  pose proof (from_base_any base q Hb) as H.
  destruct (d_from_base_str D q base) as [d|e]; [|ret; exact H].
  tstep (mul_add_assign_digit_ok B D OK); [exact Hd|lia|lia|]. intros r (D1 & _ & N1). apply IH; auto.
Qed.
End MulAdd.

(** ** from_str *)
Lemma dec_places : MAX_DECIMAL_PLACES t <> 0%nat /\ 10 ^ Z.of_nat (MAX_DECIMAL_PLACES t) < 2 ^ bits t
  /\ 10 ^ Z.of_nat (NR_DECIMAL_PLACES t) = decimal_radix t /\ NR_DECIMAL_PLACES t <> 0%nat.
Proof. destruct t; vm_compute; repeat split; congruence. Qed.
Lemma hex_places : NR_HEX_PLACES t <> 0%nat /\ 16 ^ Z.of_nat (NR_HEX_PLACES t) = 2 ^ bits t
  /\ MAX_HEX_PLACES t <> 0%nat /\ 16 ^ Z.of_nat (MAX_HEX_PLACES t) < decimal_radix t
  /\ w_shl dbg (bits t) 1 (4 * Z.of_nat (MAX_HEX_PLACES t)) = Ret (16 ^ Z.of_nat (MAX_HEX_PLACES t)).
Proof. destruct t; vm_compute; repeat split; congruence. Qed.

Definition answer (base : Z) (s : list Z) (res : result digits) : Prop :=
  match res with
  | ROk r => digs r /\ normal r
      /\ (Forall (char_of_base base) s -> val r = numeral_value base s)
      /\ (~ In 43 s -> Forall (char_of_base base) s)
  | RErr e => e = InvalidNumber /\ ~ Forall (char_of_base base) s
  end.

Lemma push_answer base k s : good_base base -> (0 < k)%nat -> base ^ Z.of_nat k = B ->
  total (new_result (push_digits dbg t base (rchunks k s))) (answer base s).
Proof.
  intros Hb Hk Hkb. eapply total_post; [apply new_result_any, push_digits_any; auto|].
  intros [r|e].
  - intros (Dr & Nr & ds & E & V). unfold answer. conj; auto.
    + intros Hc. destruct (push_digits_yes base k Hb Hk Hkb s Hc) as (ds' & E' & _ & V'). congruence.
    + intros Hp. destruct (Forall_dec _ (char_dec base) s) as [H|H]; [exact H|].
      rewrite (push_digits_no base k) in E; auto. discriminate E.
  - intros (E & He). split; [exact He|]. intros Hc.
    destruct (push_digits_yes base k Hb Hk Hkb s Hc) as (ds & E' & _). congruence.
Qed.

Lemma mul_add_answer base k s : good_base base -> (0 < k)%nat -> base ^ Z.of_nat k < B ->
  total (mul_add_parts dbg t base (base ^ Z.of_nat k) (rev (rchunks k s)) ubig_zero) (answer base s).
Proof.
  intros Hb Hk Hkb.
  destruct (total_inv _ _ (mul_add_any base k Hb Hk Hkb (rev (rchunks k s)) [] (below_nil B) normal_nil))
    as (res & E & H). unfold ubig_zero. rewrite E. ret.
  destruct res as [r|e].
  - destruct H as [Dr Nr]. unfold answer. conj; auto.
    + intros Hc. destruct (total_inv _ _ (mul_add_yes base k Hb Hk Hkb s Hc)) as (r' & E' & r2 & -> & _ & _ & V).
      congruence.
    + intros Hp. destruct (Forall_dec _ (char_dec base) s) as [Hc|Hc]; [exact Hc|].
      rewrite (mul_add_no base k) in E; auto. discriminate E.
  - split; [exact H|]. intros Hc.
    destruct (total_inv _ _ (mul_add_yes base k Hb Hk Hkb s Hc)) as (r' & E' & r2 & -> & _). congruence.
Qed.

Definition body (s : list Z) : Z * list Z :=
  match strip_0x s with Some r => (16, r) | None => (10, s) end.

Lemma from_str_ok s : total (from_str dbg t s) (fun res =>
  if is_ascii s then answer (fst (body s)) (snd (body s)) res else res = RErr InvalidNumber).
Proof.
  destruct dec_places as (P1 & P2 & P3 & P4). destruct hex_places as (Q1 & Q2 & Q3 & Q4 & Q5).
  assert (G10 : good_base 10) by (left; reflexivity). assert (G16 : good_base 16) by (right; reflexivity).
  unfold from_str, from_str_bin, from_str_dec, body. destruct (is_ascii s); cbn [negb].
  - destruct (is_binary t) eqn:Eb; destruct (strip_0x s) as [r|]; cbn [fst snd].
    + apply push_answer; auto; [lia|]. rewrite radix_bin by assumption. exact Q2.
    + rewrite checked_ok by (split; [apply Z.pow_nonneg; lia|exact P2]). cbn [bind].
      apply mul_add_answer; auto; [lia|]. rewrite radix_bin by assumption. exact P2.
    + rewrite Q5. cbn [bind]. apply mul_add_answer; auto; [lia|].
      rewrite <- radix_dec by assumption. exact Q4.
    + apply push_answer; auto; [lia|]. rewrite <- radix_dec by assumption. exact P3.
  - destruct (is_binary t); ret; reflexivity.
Qed.
End Parse.

(** ** Formatting *)
Definition cased (upper : bool) (s : list Z) : Prop := if upper then upper_case s else lower_case s.
Definition is_numeral (base : Z) (upper : bool) (s : list Z) (n : Z) : Prop :=
  numeral_of base s /\ numeral_value base s = n /\ minimal s /\ cased upper s.

Lemma digit_char_ok base upper d : good_base base -> 0 <= d < base ->
  char_of_base base (digit_char upper d) /\ char_value (digit_char upper d) = d
  /\ cased upper [digit_char upper d].
Proof.
  intros Hb Hd. unfold good_base in Hb.
  unfold digit_char, char_of_base, dec_char, hex_char, char_value, cased, upper_case, lower_case.
  destruct (Z.ltb_spec d 10); [|destruct upper].
  - conj; [lia| |].
    + destruct (Z.leb_spec (48 + d) 57); lia.
    + destruct upper; repeat constructor; lia.
  - conj; [lia| |repeat constructor; lia].
    destruct (Z.leb_spec (65 + (d - 10)) 57); [lia|]. destruct (Z.leb_spec 97 (65 + (d - 10))); lia.
  - conj; [lia| |repeat constructor; lia].
    destruct (Z.leb_spec (97 + (d - 10)) 57); [lia|]. destruct (Z.leb_spec 97 (97 + (d - 10))); lia.
Qed.

Lemma cased_app upper a b : cased upper (a ++ b) <-> cased upper a /\ cased upper b.
Proof. destruct upper; apply Forall_app. Qed.

Lemma numeral_fuel_ok base upper fuel n acc : good_base base -> 0 <= n < base ^ Z.of_nat fuel ->
  fuel <> 0%nat -> exists s, numeral_fuel fuel base upper n acc = s ++ acc /\ is_numeral base upper s n.
Proof.
  intros Hb. assert (Hb0 : 1 < base) by (unfold good_base in Hb; lia). revert n acc.
  induction fuel as [|f IH]; intros n acc Hn Hf; [contradiction|]. cbn [numeral_fuel].
  pose proof (Z.mod_pos_bound n base ltac:(lia)) as Hm.
  pose proof (Z.div_mod n base ltac:(lia)) as Hdm.
  destruct (digit_char_ok base upper (n mod base) Hb Hm) as (C1 & C2 & C3).
  set (c := digit_char upper (n mod base)) in *.
  destruct (Z.ltb_spec n base) as [Hlt|Hge].
  - exists [c]. split; [reflexivity|]. unfold is_numeral, numeral_of. conj; auto.
    + discriminate.
    + rewrite nv_cons, nv_nil. cbn [length]. rewrite Z.pow_0_r, C2, Z.mod_small; lia.
    + destruct (Z.eq_dec c 48) as [->|]; [left; reflexivity|right; assumption].
  - assert (Hq : 1 <= n / base) by (apply Z.div_le_lower_bound; lia).
    rewrite Nat2Z.inj_succ, Z.pow_succ_r in Hn by lia.
    destruct (IH (n / base) (c :: acc)) as (s & -> & (S1 & S2) & S3 & S4 & S5).
    { split; [lia|]. apply Z.div_lt_upper_bound; lia. }
    { intros ->. cbn in Hn. lia. }
    exists (s ++ [c]). split; [rewrite <- app_assoc; reflexivity|].
    unfold is_numeral, numeral_of. conj.
    + destruct s; discriminate.
    + apply Forall_app. split; [assumption|]. constructor; [exact C1|constructor].
    + rewrite nv_app, nv_cons, nv_nil, C2, S3. cbn [length]. rewrite Z.pow_0_r. change (Z.of_nat 1) with 1.
      rewrite Z.pow_1_r. lia.
    + right. destruct S4 as [->|S4].
      * exfalso. revert S3. rewrite nv_cons, nv_nil. cbn [length]. rewrite Z.pow_0_r.
        change (char_value 48) with 0. lia.
      * destruct s as [|x s]; [contradiction|exact S4].
    + apply cased_app. auto.
Qed.

Lemma numeral_ok base upper n : good_base base -> 0 <= n -> is_numeral base upper (numeral base upper n) n.
Proof.
  intros Hb Hn. unfold numeral.
  destruct (numeral_fuel_ok base upper (S (Z.to_nat (Z.log2 n))) n [] Hb) as (s & E & H); [|discriminate|].
  - split; [exact Hn|]. rewrite Nat2Z.inj_succ, Z2Nat.id by apply Z.log2_nonneg.
    destruct (Z.eq_dec n 0) as [->|Hz]; [cbn; unfold good_base in Hb; lia|].
    apply Z.lt_le_trans with (2 ^ Z.succ (Z.log2 n)); [apply Z.log2_spec; lia|].
    apply Z.pow_le_mono_l. unfold good_base in Hb. lia.
  - rewrite E, app_nil_r. exact H.
Qed.

Lemma numeral_length base upper s n k : good_base base -> is_numeral base upper s n ->
  n < base ^ Z.of_nat k -> (0 < k)%nat -> (length s <= k)%nat.
Proof.
  intros Hb ((S1 & S2) & S3 & S4 & _) Hn Hk.
  assert (Hb0 : 1 < base) by (unfold good_base in Hb; lia).
  destruct S4 as [->|S4]; [cbn; lia|].
  destruct s as [|c s]; [contradiction|]. cbn [hd] in S4. cbn [length].
  destruct (Nat.le_gt_cases (S (length s)) k) as [|Hgt]; [assumption|exfalso].
  inversion S2 as [|? ? Hc Hs]; subst.
  pose proof (nv_bound base s Hb Hs) as Hv.
  assert (H1 : 1 <= char_value c).
  { unfold char_of_base, dec_char, hex_char, char_value in *.
    destruct (Z.leb_spec c 57); [|destruct (Z.leb_spec 97 c)]; lia. }
  rewrite nv_cons in Hn.
  assert (base ^ Z.of_nat k <= base ^ Z.of_nat (length s)) by (apply Z.pow_le_mono_r; lia).
  nia.
Qed.

Lemma nv_zeros base k s : numeral_value base (repeat 48 k ++ s) = numeral_value base s.
Proof.
  induction k as [|k IH]; [reflexivity|]. cbn [repeat app]. rewrite nv_cons, IH.
  change (char_value 48) with 0. ring.
Qed.

Lemma zero_char base : good_base base -> char_of_base base 48.
Proof. unfold good_base, char_of_base, dec_char, hex_char. lia. Qed.

Lemma padded_ok base upper k n : good_base base -> (0 < k)%nat -> 0 <= n < base ^ Z.of_nat k ->
  let s := fmt_padded base upper k n in
  length s = k /\ Forall (char_of_base base) s /\ numeral_value base s = n /\ cased upper s.
Proof.
  intros Hb Hk Hn. cbv zeta. unfold fmt_padded, fmt_int, pad_integral.
  cbn [f_width f_plus f_alt f_zero app length].
  pose proof (numeral_ok base upper n Hb ltac:(lia)) as HN.
  pose proof (numeral_length base upper _ n k Hb HN ltac:(lia) Hk) as Hl.
  set (s := numeral base upper n) in *. destruct HN as ((S1 & S2) & S3 & S4 & S5).
  rewrite Nat.add_0_r. destruct (Nat.leb_spec k (length s)).
  - conj; auto. lia.
  - conj.
    + rewrite app_length, repeat_length. lia.
    + apply Forall_app. split; [|assumption]. apply Forall_forall. intros x Hx.
      apply repeat_spec in Hx. subst x. apply zero_char. assumption.
    + rewrite nv_zeros. assumption.
    + apply cased_app. split; [|assumption].
      unfold cased, upper_case, lower_case. destruct upper; apply Forall_forall; intros x Hx;
      apply repeat_spec in Hx; subst x; lia.
Qed.

Lemma concat_padded base upper k rest : good_base base -> (0 < k)%nat ->
  below (base ^ Z.of_nat k) rest ->
  let s := concat (map (fmt_padded base upper k) rest) in
  base ^ Z.of_nat (length s) = pw (base ^ Z.of_nat k) (length rest)
  /\ Forall (char_of_base base) s /\ numeral_value base s = value (base ^ Z.of_nat k) (rev rest)
  /\ cased upper s.
Proof.
  intros Hb Hk. cbv zeta. assert (Hb0 : 1 < base) by (unfold good_base in Hb; lia).
  induction rest as [|d rest IH]; intros Hd; cbn [map concat].
  - conj; auto. destruct upper; constructor.
  - apply below_cons in Hd. destruct Hd as [H1 H2]. destruct (IH H2) as (A1 & A2 & A3 & A4).
    destruct (padded_ok base upper k d Hb Hk H1) as (P1 & P2 & P3 & P4).
    conj.
    + cbn [length]. rewrite pw_S, app_length, P1, Nat2Z.inj_add, Z.pow_add_r by lia. rewrite A1. reflexivity.
    + apply Forall_app. auto.
    + rewrite nv_app, P3, A3, A1. cbn [rev]. rewrite value_app, rev_length. cbn [value]. ring.
    + apply cased_app. auto.
Qed.

Definition prefix_of (base : Z) : list Z := if base =? 16 then [48; 120] else [].

Lemma fmt_ubig_ok base upper k x : good_base base -> (0 < k)%nat ->
  below (base ^ Z.of_nat k) x -> normal x -> exists s,
  is_numeral base upper s (value (base ^ Z.of_nat k) x)
  /\ forall f, fmt_ubig base upper k f x = pad_integral f (prefix_of base) s.
Proof.
  intros Hb Hk Hx HN. assert (Hb0 : 1 < base) by (unfold good_base in Hb; lia).
  unfold fmt_ubig. assert (E : x = rev (rev x)) by (symmetry; apply rev_involutive).
  destruct (rev x) as [|top rest]; cbn [rev] in E.
  - subst x. exists (numeral base upper 0). split; [apply (numeral_ok base upper 0 Hb), Z.le_refl|reflexivity].
  - assert (Ht : top <> 0) by (rewrite E in HN; apply normal_snoc in HN; exact HN).
    rewrite E in Hx. apply below_app in Hx. destruct Hx as [Hr Hd].
    apply below_cons in Hd. destruct Hd as [Hd _].
    destruct rest as [|r rest].
    + exists (numeral base upper top). split; [|reflexivity]. subst x. cbn [rev app value].
      rewrite Z.mul_0_r, Z.add_0_r. apply numeral_ok; auto; lia.
    + set (rr := r :: rest) in *.
      assert (Hrr : below (base ^ Z.of_nat k) rr).
      { unfold below in *. rewrite Forall_forall in *. intros y Hy. apply Hr. apply in_rev in Hy. exact Hy. }
      destruct (concat_padded base upper k rr Hb Hk Hrr) as (A1 & A2 & A3 & A4).
      exists (numeral base upper top ++ concat (map (fmt_padded base upper k) rr)).
      split; [|reflexivity].
      destruct (numeral_ok base upper top Hb ltac:(lia)) as ((S1 & S2) & S3 & S4 & S5).
      unfold is_numeral, numeral_of. conj.
      * destruct (numeral base upper top); [contradiction|discriminate].
      * apply Forall_app. auto.
      * rewrite nv_app, S3, A3, A1, E, value_app, rev_length. cbn [value]. ring.
      * right. destruct S4 as [S4|S4].
        -- exfalso. rewrite S4 in S3. revert S3. rewrite nv_cons, nv_nil. cbn [length].
           rewrite Z.pow_0_r. change (char_value 48) with 0. lia.
        -- destruct (numeral base upper top); [contradiction|exact S4].
      * apply cased_app. auto.
Qed.

(** the padding of [pad_integral] *)
Lemma pad_ok f pre s :
  let head := (if f_plus f then [43] else []) ++ (if f_alt f then pre else []) in
  let w := match f_width f with Some n => n | None => 0%nat end in
  exists l z r, pad_integral f pre s = repeat (f_fill f) l ++ head ++ repeat 48 z ++ s ++ repeat (f_fill f) r
  /\ (length (pad_integral f pre s) = Nat.max w (length head + length s))%nat
  /\ (f_zero f = true -> l = 0 /\ r = 0)%nat
  /\ (f_zero f = false -> z = 0 /\ match f_align f with
        | ALeft => l = 0 | AUnknown | ARight => r = 0 | ACenter => l = r \/ S l = r end)%nat.
Proof.
  cbv zeta. unfold pad_integral. set (head := _ ++ _).
  assert (base : exists l z r, head ++ s = repeat (f_fill f) l ++ head ++ repeat 48 z ++ s ++ repeat (f_fill f) r
    /\ (f_zero f = true -> l = 0 /\ r = 0)%nat
    /\ (f_zero f = false -> z = 0 /\ match f_align f with
        | ALeft => l = 0 | AUnknown | ARight => r = 0 | ACenter => l = r \/ S l = r end)%nat).
  { exists 0%nat, 0%nat, 0%nat. cbn [repeat app]. rewrite app_nil_r. conj; auto.
    intros _. split; [reflexivity|]. destruct (f_align f); auto. }
  destruct (f_width f) as [w|].
  - destruct (Nat.leb_spec w (length s + length head)).
    + destruct base as (l & z & r & H1 & H2 & H3). exists l, z, r. conj; auto.
      rewrite app_length. lia.
    + clear base. set (pad := (w - (length s + length head))%nat).
      destruct (f_zero f).
      * exists 0%nat, pad, 0%nat. cbn [repeat app]. rewrite app_nil_r. conj; auto; [|discriminate].
        rewrite !app_length, repeat_length. unfold pad. lia.
      * destruct (f_align f).
        -- exists pad, 0%nat, 0%nat. cbn [repeat app]. conj; auto; try discriminate.
           rewrite !app_length, repeat_length. cbn [length]. unfold pad. lia.
        -- exists 0%nat, 0%nat, pad. cbn [repeat app]. conj; auto; try discriminate.
           rewrite !app_length, repeat_length. unfold pad. lia.
        -- exists pad, 0%nat, 0%nat. cbn [repeat app]. conj; auto; try discriminate.
           rewrite !app_length, repeat_length. cbn [length]. unfold pad. lia.
        -- exists (pad / 2)%nat, 0%nat, ((pad + 1) / 2)%nat. cbn [repeat app].
           pose proof (Nat.div_mod pad 2 ltac:(lia)). pose proof (Nat.mod_upper_bound pad 2 ltac:(lia)).
           pose proof (Nat.div_mod (pad + 1) 2 ltac:(lia)). pose proof (Nat.mod_upper_bound (pad + 1) 2 ltac:(lia)).
           conj; auto; try discriminate.
           ++ rewrite !app_length, !repeat_length. unfold pad in *. lia.
           ++ intros _. split; [reflexivity|]. lia.
  - destruct base as (l & z & r & H1 & H2 & H3). exists l, z, r. conj; auto.
    rewrite app_length. lia.
Qed.

(** ** binary to decimal below the cutoff *)
Section Small.
Variable dbg : bool.
Variable t : dty.
Hypothesis Hbin : is_binary t = true.
Notation B := (radix t).
Notation td := (decimal_of t).

Lemma decimal_of_dec : is_binary td = false.
Proof. destruct t; reflexivity. Qed.
Lemma decimal_of_bits : bits td = bits t.
Proof. destruct t; reflexivity. Qed.
Lemma storage_dec d : 0 <= d < B -> storage td d.
Proof. destruct t; try discriminate Hbin; exact (fun h => h). Qed.
Lemma half_bits : 0 <= bits t / 2 <= 4 * Z.of_nat (MAX_HEX_PLACES td)
  /\ 2 ^ (bits t / 2) * 2 ^ (bits t / 2) = B.
Proof. destruct t; try discriminate Hbin; vm_compute; repeat split; congruence. Qed.

Lemma build_small_ok ds top : below B ds -> below (radix td) top -> normal top ->
  total (build_small dbg t ds top) (fun r => below (radix td) r /\ normal r
    /\ value (radix td) r = value B ds + pw B (length ds) * value (radix td) top).
Proof.
  intros Hd Ht Hn. destruct half_bits as [H1 H2].
  induction ds as [|d ds IH]; cbn [build_small].
  - ret. cbn [value length]. rewrite pw_0. conj; auto. lia.
  - apply below_cons in Hd. destruct Hd as [Hd Hds].
    tstep IH; [assumption|]. intros r (R1 & R2 & R3).
    tstep (shl_assign_dec_ok dbg td); auto; [apply decimal_of_dec|]. intros r2 (S1 & S2 & S3).
    tstep (shl_assign_dec_ok dbg td); auto; [apply decimal_of_dec|]. intros r3 (T1 & T2 & T3).
    eapply total_post; [apply (add_assign_T_ok dbg td); [assumption|apply storage_dec; exact Hd]|].
    intros r4 (U1 & U2 & U3). conj; auto. cbn [value length]. rewrite pw_S, U2, T2, S2, R3.
    replace (2 ^ (bits t / 2)) with (2 ^ (bits t / 2)) by reflexivity.
    set (h := 2 ^ (bits t / 2)) in *.
    transitivity ((value B ds + pw B (length ds) * value (radix td) top) * (h * h) + d); [ring|].
    rewrite H2. ring.
Qed.

Lemma to_decimal_small x : below B x -> normal x -> (length x < TO_DEC_DIV_CUTOFF)%nat ->
  total (to_decimal dbg t x) (fun r => below (radix td) r /\ normal r
    /\ value (radix td) r = value B x).
Proof.
  intros Hx HN Hl. unfold to_decimal. rewrite (proj2 (Nat.ltb_lt _ _) Hl). cbn [build_decimal].
  destruct (Nat.eqb_spec (length x) 0) as [E|E].
  - destruct x; [|discriminate E]. ret. conj; auto using below_nil, normal_nil.
  - rewrite (proj2 (Nat.ltb_lt _ _) Hl). rewrite get_ok, prefix_ok by lia. cbn [bind].
    assert (Hs : x = firstn (length x - 1) x ++ [nth (length x - 1) x 0]).
    { rewrite <- (firstn_skipn (length x - 1) x) at 1. f_equal.
      destruct (skipn (length x - 1) x) as [|y [|z l]] eqn:Es.
      - apply (f_equal (@length Z)) in Es. rewrite skipn_length in Es. cbn in Es. lia.
      - rewrite <- (firstn_skipn (length x - 1) x) at 2. rewrite Es, app_nth2 by (rewrite firstn_length; lia).
        rewrite firstn_length. replace (length x - 1 - Nat.min (length x - 1) (length x))%nat with 0%nat by lia.
        reflexivity.
      - apply (f_equal (@length Z)) in Es. rewrite skipn_length in Es. cbn in Es. lia. }
    set (lo := firstn (length x - 1) x) in *. set (top := nth (length x - 1) x 0) in *.
    assert (Hlo : below B lo) by (apply below_firstn; assumption).
    assert (Htop : 0 <= top < B).
    { rewrite Hs in Hx. apply below_app in Hx. destruct Hx as [_ Hx]. apply below_cons in Hx. tauto. }
    destruct (from_T_ok td top (storage_dec top Htop)) as (F1 & F2 & F3).
    eapply total_post; [apply build_small_ok; auto|]. intros r (R1 & R2 & R3).
    conj; auto. rewrite R3, F3, Hs, value_app. cbn [value]. ring.
Qed.
End Small.
