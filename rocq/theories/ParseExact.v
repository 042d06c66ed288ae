(** * ParseExact: exactly which strings are accepted, and as what. *)
From Coq Require Import ZArith List Bool Lia.
From Verif Require Import Base Digit Slice Mul Div UBig Text Spec SpecParse Hoare DigitOK ListLemmas SliceProof
  MulProof UBigProof DivProof TypedProof TextProof ClaimsBasic ClaimsMul ClaimsText Cases.
Import ListNotations.
Open Scope Z_scope.
Open Scope m_scope.

Lemma group_ne base c v : group base c v -> c <> [].
Proof. intros [d [H _]|d H]; [exact H|discriminate]. Qed.

Lemma grouped_nil base k v : grouped base k [] v -> v = 0.
Proof.
  intros H. remember [] as s eqn:E. destruct H as [|c v Hl Hg|s u c v Hs _ _ _]; [reflexivity| |].
  - subst. destruct (group_ne _ _ _ Hg eq_refl).
  - apply app_eq_nil in E. destruct E. contradiction.
Qed.

Lemma grouped_step base k s v : (0 < k)%nat -> s <> [] ->
  (grouped base k s v <-> exists u w, grouped base k (firstn (length s - k) s) u
     /\ group base (skipn (length s - k) s) w /\ v = u * base ^ Z.of_nat k + w).
Proof.
  intros Hk Hs. split.
  - intros H. destruct H as [|c v Hl Hg|s u c v Hn Hu Hl Hg]; [contradiction| |].
    + replace (length c - k)%nat with 0%nat by lia. exists 0, v. repeat split; [constructor|exact Hg].
    + rewrite app_length, Hl. replace (length s + k - k)%nat with (length s) by lia.
      exists u, v. rewrite firstn_app, Nat.sub_diag, firstn_all, firstn_O, app_nil_r.
      rewrite skipn_app, Nat.sub_diag, skipn_all. cbn [app skipn]. auto.
  - intros (u & w & Hu & Hg & ->). destruct (Nat.le_gt_cases (length s) k) as [Hl|Hl].
    + replace (length s - k)%nat with 0%nat in * by lia. cbn [firstn skipn] in *.
      apply grouped_nil in Hu. subst u. cbn [Z.mul Z.add]. apply grouped_one; assumption.
    + rewrite <- (firstn_skipn (length s - k) s) at 1. apply grouped_more; auto.
      * intros E. apply (f_equal (@length Z)) in E. rewrite firstn_length in E. cbn in E. lia.
      * rewrite skipn_length. lia.
Qed.

Lemma group_chars base c v : good_base base -> group base c v ->
  Forall (fun x => x = plus_char \/ char_of_base base x) c.
Proof.
  intros Hb [d [_ H]|d [_ H]]; [|constructor; [auto|]]; eapply Forall_impl; try exact H; cbn; auto.
Qed.
Lemma grouped_chars base k s v : good_base base -> grouped base k s v ->
  Forall (fun x => x = plus_char \/ char_of_base base x) s.
Proof.
  intros Hb H. induction H as [|c v _ Hg|s u c v _ _ IH _ Hg]; [constructor| |].
  - eapply group_chars; eauto.
  - apply Forall_app. split; [exact IH|eapply group_chars; eauto].
Qed.

Section Exact.
Variable dbg : bool.
Variable t : dty.
Notation B := (radix t).
Notation D := (impl dbg t).
Notation val := (value B).
Notation digs := (below B).
Let OK : digit_ok B D := impl_ok dbg t.
Let HB : 1 < B := radix_gt t.

Lemma radix_plus w base c : c <> [] -> from_str_radix w base (43 :: c) = radix_acc w base 0 c.
Proof. destruct c; [contradiction|]. reflexivity. Qed.

Lemma from_base_eq s s' base : from_str_radix (bits t) base s = from_str_radix (bits t) base s' ->
  d_from_base_str D s base = d_from_base_str D s' base.
Proof.
  intros E. unfold impl. destruct (is_binary t); cbn [bin_digit dec_digit d_from_base_str];
    [unfold bin_from_base_str|unfold dec_from_base_str]; rewrite E; reflexivity.
Qed.

Lemma from_base_none s base : from_str_radix (bits t) base s = None ->
  d_from_base_str D s base = RErr InvalidNumber.
Proof.
  intros E. unfold impl. destruct (is_binary t); cbn [bin_digit dec_digit d_from_base_str];
    [unfold bin_from_base_str|unfold dec_from_base_str]; rewrite E; reflexivity.
Qed.

(** one group *)
Lemma group_exact base c : good_base base -> base ^ Z.of_nat (length c) <= B ->
  (exists v, group base c v /\ d_from_base_str D c base = ROk v /\ 0 <= v < base ^ Z.of_nat (length c))
  \/ (d_from_base_str D c base = RErr InvalidNumber /\ forall v, ~ group base c v).
Proof.
  intros Hb Hl. assert (Hb1 : 1 < base) by (unfold good_base in Hb; lia).
  destruct c as [|x c].
  { right. split; [apply from_base_none; reflexivity|]. intros v H. destruct (group_ne _ _ _ H eq_refl). }
  destruct (Forall_dec _ (char_dec base) (x :: c)) as [HF|HF].
  { left. exists (numeral_value base (x :: c)). split; [constructor; split; [discriminate|exact HF]|].
    split; [apply from_base_yes; auto; discriminate|apply nv_bound; auto]. }
  destruct (Z.eq_dec x 43) as [->|Hx].
  - destruct c as [|y c].
    { right. split; [apply from_base_none; reflexivity|]. intros v H. inversion H; subst.
      - contradiction HF. match goal with H : numeral_of _ _ |- _ => apply H end.
      - match goal with H : numeral_of _ [] |- _ => destruct H as [H _]; apply H; reflexivity end. }
    assert (E : from_str_radix (bits t) base (43 :: y :: c) = radix_acc (bits t) base 0 (y :: c))
      by (apply radix_plus; discriminate).
    destruct (Forall_dec _ (char_dec base) (y :: c)) as [HF'|HF'].
    + left. exists (numeral_value base (y :: c)).
      assert (Hle : base ^ Z.of_nat (length (y :: c)) <= base ^ Z.of_nat (length (43 :: y :: c)))
        by (apply Z.pow_le_mono_r; cbn [length]; lia).
      split; [apply group_plus; split; [discriminate|exact HF']|].
      split; [|pose proof (nv_bound base _ Hb HF'); lia].
      rewrite (from_base_eq _ (y :: c)).
      * apply from_base_yes; auto; [discriminate|lia].
      * rewrite E. symmetry. apply from_str_radix_noplus; [discriminate|]. cbn [hd]. intros ->.
        inversion HF'; subst. eapply plus_not_char; eauto.
    + right. split.
      * apply from_base_none. rewrite E. apply radix_acc_no; auto.
      * intros v H. inversion H; subst.
        -- contradiction HF. match goal with H : numeral_of _ _ |- _ => apply H end.
        -- contradiction HF'. match goal with H : numeral_of _ _ |- _ => apply H end.
  - right. split.
    + apply from_base_none. rewrite from_str_radix_noplus by (auto; discriminate). apply radix_acc_no; auto.
    + intros v H. inversion H; subst; [|contradiction Hx; reflexivity].
      contradiction HF. match goal with H : numeral_of _ _ |- _ => apply H end.
Qed.

Lemma push_exact base k s : good_base base -> (0 < k)%nat -> base ^ Z.of_nat k = B ->
  (exists ds, push_digits dbg t base (rchunks k s) = ROk ds /\ digs ds /\ grouped base k s (val ds))
  \/ (push_digits dbg t base (rchunks k s) = RErr InvalidNumber /\ forall v, ~ grouped base k s v).
Proof.
  intros Hb Hk Hkb. pattern s; revert s; apply (numeral_ind _ k Hk).
  - left. exists []. rewrite rchunks_nil. repeat split; [apply below_nil|constructor].
  - intros s Hs IH. rewrite rchunks_cons by assumption. cbn [push_digits].
    destruct (chunk_len base k Hb Hk s Hs) as (C1 & C2 & C3).
    destruct (group_exact base (skipn (length s - k) s) Hb ltac:(lia)) as [(v & Hg & -> & Hv)|[-> Hg]].
    + destruct IH as [(ds & -> & Hd & Hu)|[-> Hu]].
      * left. exists (v :: ds). split; [reflexivity|]. split; [apply below_cons; split; [lia|exact Hd]|].
        apply grouped_step; auto. exists (val ds), v. repeat split; auto. cbn [value]. rewrite Hkb. ring.
      * right. split; [reflexivity|]. intros w H. apply grouped_step in H; auto.
        destruct H as (u & ? & H & _). exact (Hu u H).
    + right. split; [reflexivity|]. intros w H. apply grouped_step in H; auto.
      destruct H as (? & u & _ & H & _). exact (Hg u H).
Qed.

Lemma mul_add_exact base k s : good_base base -> (0 < k)%nat -> base ^ Z.of_nat k < B ->
  let e := mul_add_parts dbg t base (base ^ Z.of_nat k) (rev (rchunks k s)) [] in
  (exists r, e = Ret (ROk r) /\ digs r /\ normal r /\ grouped base k s (val r))
  \/ (e = Ret (RErr InvalidNumber) /\ forall v, ~ grouped base k s v).
Proof.
  intros Hb Hk Hkb. pose proof (scale_pos t base k Hb Hk Hkb) as Hsc.
  pattern s; revert s; apply (numeral_ind _ k Hk).
  - left. exists []. rewrite rchunks_nil. repeat split; [apply below_nil|apply normal_nil|constructor].
  - intros s Hs IH. cbv zeta in *. rewrite rchunks_cons by assumption. cbn [rev].
    rewrite mul_add_snoc.
    destruct (chunk_len base k Hb Hk s Hs) as (C1 & C2 & C3).
    destruct IH as [(r & -> & Dr & Nr & Hu)|[-> Hu]]; cbn [bind].
    + destruct (group_exact base (skipn (length s - k) s) Hb ltac:(lia)) as [(v & Hg & -> & Hv)|[-> Hg]].
      * destruct (total_inv _ _ (mul_add_assign_digit_ok B D OK r (base ^ Z.of_nat k) v Dr ltac:(lia) ltac:(lia)))
          as (r' & -> & D' & V' & N'). cbn [bind]. left. exists r'. repeat split; auto.
        apply grouped_step; auto. exists (val r), v. auto.
      * right. split; [reflexivity|]. intros w H. apply grouped_step in H; auto.
        destruct H as (? & u & _ & H & _). exact (Hg u H).
    + right. split; [reflexivity|]. intros w H. apply grouped_step in H; auto.
      destruct H as (u & ? & H & _). exact (Hu u H).
Qed.

(** ** the whole parser *)
Lemma width_unique base k k' : 1 < base -> group_width t base k -> group_width t base k' -> k = k'.
Proof.
  intros Hb [H1 H2] [H3 H4].
  assert (Hm : forall a b : nat, (a < b)%nat -> base ^ Z.of_nat (S a) <= base ^ Z.of_nat b)
    by (intros; apply Z.pow_le_mono_r; lia).
  destruct (Nat.lt_trichotomy k k') as [H|[H|H]]; [|exact H|]; apply Hm in H; lia.
Qed.
Lemma widths : group_width t 10 (if is_binary t then MAX_DECIMAL_PLACES t else NR_DECIMAL_PLACES t)
  /\ group_width t 16 (if is_binary t then NR_HEX_PLACES t else MAX_HEX_PLACES t).
Proof. destruct t; vm_compute; repeat split; congruence. Qed.

Lemma grouped_ascii base k s v : good_base base -> grouped base k s v -> is_ascii s = true.
Proof.
  intros Hb H. apply grouped_chars in H; [|exact Hb]. unfold is_ascii. apply forallb_forall.
  rewrite Forall_forall in H. intros c Hc. apply Z.ltb_lt. specialize (H c Hc).
  unfold plus_char, char_of_base, dec_char, hex_char in H. lia.
Qed.
Lemma grouped_strip k s v : grouped 10 k s v -> strip_0x s = None.
Proof.
  intros H. destruct (strip_0x s) as [r|] eqn:E; [|reflexivity]. apply strip_some in E. subst s.
  apply grouped_chars in H; [|left; reflexivity]. rewrite Forall_forall in H.
  specialize (H 120 (or_intror (or_introl eq_refl))).
  unfold plus_char, char_of_base, dec_char in H. lia.
Qed.

Definition reads kd kh (s : list Z) (v : Z) : Prop :=
  grouped 10 kd s v \/ exists h, s = hex_prefix ++ h /\ grouped 16 kh h v.

Lemma from_str_exact kd kh s : group_width t 10 kd -> group_width t 16 kh ->
  (exists r, from_str dbg t s = Ret (ROk r) /\ digs r /\ normal r /\ reads kd kh s (val r))
  \/ (from_str dbg t s = Ret (RErr InvalidNumber) /\ forall v, ~ reads kd kh s v).
Proof.
  intros W10 W16. destruct widths as [V10 V16].
  pose proof (width_unique 10 _ _ ltac:(lia) W10 V10) as Ed.
  pose proof (width_unique 16 _ _ ltac:(lia) W16 V16) as Eh. clear W10 W16 V10 V16.
  destruct (dec_places dbg t) as (P1 & P2 & P3 & P4). destruct (hex_places dbg t) as (Q1 & Q2 & Q3 & Q4 & Q5).
  assert (G10 : good_base 10) by (left; reflexivity). assert (G16 : good_base 16) by (right; reflexivity).
  assert (Push : forall base k b (R : Z -> Prop), good_base base -> (0 < k)%nat -> base ^ Z.of_nat k = B ->
    (forall v, R v <-> grouped base k b v) ->
    (exists r, new_result (push_digits dbg t base (rchunks k b)) = Ret (ROk r) /\ digs r /\ normal r /\ R (val r))
    \/ (new_result (push_digits dbg t base (rchunks k b)) = Ret (RErr InvalidNumber) /\ forall v, ~ R v)).
  { intros base k b R Hb Hk Hkb HR. destruct (push_exact base k b Hb Hk Hkb) as [(ds & -> & Hd & Hg)|[-> Hg]].
    - left. cbn [new_result]. destruct (total_inv _ _ (new_ok B ds Hd)) as (r & -> & D1 & N1 & V1).
      exists r. cbn [bind]. repeat split; auto. apply HR. rewrite V1. exact Hg.
    - right. split; [reflexivity|]. intros v H. apply (Hg v), HR, H. }
  assert (Add : forall base k b (R : Z -> Prop), good_base base -> (0 < k)%nat -> base ^ Z.of_nat k < B ->
    (forall v, R v <-> grouped base k b v) ->
    (exists r, mul_add_parts dbg t base (base ^ Z.of_nat k) (rev (rchunks k b)) [] = Ret (ROk r)
       /\ digs r /\ normal r /\ R (val r))
    \/ (mul_add_parts dbg t base (base ^ Z.of_nat k) (rev (rchunks k b)) [] = Ret (RErr InvalidNumber)
       /\ forall v, ~ R v)).
  { intros base k b R Hb Hk Hkb HR.
    destruct (mul_add_exact base k b Hb Hk Hkb) as [(r & E & D1 & N1 & Hg)|[E Hg]].
    - left. exists r. repeat split; auto. apply HR. exact Hg.
    - right. split; [exact E|]. intros v H. apply (Hg v), HR, H. }
  unfold from_str, from_str_bin, from_str_dec. destruct (is_ascii s) eqn:Ea; cbn [negb].
  2: { right. split; [destruct (is_binary t); reflexivity|]. intros v [H|(h & -> & H)].
       - apply grouped_ascii in H; auto. congruence.
       - apply grouped_ascii in H; auto. unfold is_ascii in *. cbn in Ea, H. congruence. }
  destruct (strip_0x s) as [h|] eqn:Es.
  - assert (HR : forall v, reads kd kh s v <-> grouped 16 kh h v).
    { pose proof (strip_some _ _ Es) as E0. intros v. split.
      - intros [H|(h' & E1 & H)]; [apply grouped_strip in H; congruence|].
        subst s. apply app_inv_head in E1. subst. exact H.
      - intros H. right. exists h. auto. }
    destruct (is_binary t) eqn:Eb; subst kh.
    + apply Push; auto; [lia|]. rewrite radix_bin by assumption. exact Q2.
    + rewrite Q5. cbn [bind]. apply Add; auto; [lia|]. rewrite <- radix_dec by assumption. exact Q4.
  - assert (HR : forall v, reads kd kh s v <-> grouped 10 kd s v).
    { intros v. split; [|intros H; left; exact H]. intros [H|(h' & -> & H)]; [exact H|].
      rewrite strip_hex in Es. discriminate Es. }
    destruct (is_binary t) eqn:Eb; subst kd.
    + rewrite checked_ok by (split; [apply Z.pow_nonneg; lia|exact P2]). cbn [bind].
      apply Add; auto; [lia|]. rewrite radix_bin by assumption. exact P2.
    + apply Push; auto; [lia|]. rewrite <- radix_dec by assumption. exact P3.
Qed.
End Exact.

(** a string is read in one way only *)
Lemma group_fun base c v w : good_base base -> group base c v -> group base c w -> v = w.
Proof.
  intros Hb H1 H2. inversion H1 as [c1 N1 E1|c1 N1 E1]; inversion H2 as [c2 N2 E2|c2 N2 E2]; subst; auto.
  - destruct N1 as [_ N1]. inversion N1; subst. destruct (plus_not_char base Hb). assumption.
  - destruct N2 as [_ N2]. inversion N2; subst. destruct (plus_not_char base Hb). assumption.
  - congruence.
Qed.
Lemma grouped_fun base k s : good_base base -> (0 < k)%nat -> forall v w, grouped base k s v -> grouped base k s w -> v = w.
Proof.
  intros Hb Hk. pattern s; revert s; apply (numeral_ind _ k Hk).
  - intros v w H1 H2. apply grouped_nil in H1, H2. congruence.
  - intros s Hs IH v w H1 H2. apply grouped_step in H1, H2; auto.
    destruct H1 as (u1 & w1 & A1 & A2 & ->), H2 as (u2 & w2 & B1 & B2 & ->).
    rewrite (IH _ _ A1 B1), (group_fun _ _ _ _ Hb A2 B2). reflexivity.
Qed.

Lemma width_pos t base k : base = 10 \/ base = 16 -> group_width t base k -> (0 < k)%nat.
Proof.
  intros Hb [_ H]. destruct k; [|lia]. change (Z.of_nat 1) with 1 in H. rewrite Z.pow_1_r in H.
  pose proof (radix_ge t). destruct t; cbn in H; destruct Hb; subst; lia.
Qed.

Lemma parse_exact_claim dbg t kd kh s : group_width t 10 kd -> group_width t 16 kh ->
  (forall r, from_str dbg t s = Ret (ROk r) <->
     well_formed t r /\ (grouped 10 kd s (num t r) \/ exists h, s = hex_prefix ++ h /\ grouped 16 kh h (num t r)))
  /\ (from_str dbg t s = Ret (RErr InvalidNumber) <->
       forall v, ~ (grouped 10 kd s v \/ exists h, s = hex_prefix ++ h /\ grouped 16 kh h v)).
Proof.
  intros W10 W16. pose proof (width_pos t 10 kd (or_introl eq_refl) W10) as K10.
  pose proof (width_pos t 16 kh (or_intror eq_refl) W16) as K16.
  assert (HF : forall v w, reads kd kh s v -> reads kd kh s w -> v = w).
  { intros v w [H1|(h1 & -> & H1)] [H2|(h2 & E & H2)].
    - exact (grouped_fun 10 kd s (or_introl eq_refl) K10 v w H1 H2).
    - subst. apply grouped_strip in H1. discriminate H1.
    - apply grouped_strip in H2. discriminate H2.
    - apply app_inv_head in E. subst h2. exact (grouped_fun 16 kh h1 (or_intror eq_refl) K16 v w H1 H2). }
  destruct (from_str_exact dbg t kd kh s W10 W16) as [(r & E & D1 & N1 & H)|[E H]]; rewrite E.
  - split.
    + intros r'. split.
      * intros [= <-]. split; [split; assumption|exact H].
      * intros [W' H']. do 2 f_equal. apply (wf_eq t r r' (conj D1 N1) W').
        apply (HF _ _ H H').
    + split; [discriminate|]. intros Hn. destruct (Hn _ H).
  - split.
    + intros r'. split; [discriminate|]. intros [_ H']. destruct (H _ H').
    + split; [intros _; exact H|reflexivity].
Qed.
