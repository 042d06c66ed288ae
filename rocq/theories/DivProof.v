(** * DivProof: division by one digit. *)
From Coq Require Import ZArith List Bool Lia.
From Verif Require Import Base Digit Slice Mul Div UBig Spec Hoare DigitOK ListLemmas SliceProof
  MulProof UBigProof.
Import ListNotations.
Open Scope Z_scope.
Open Scope m_scope.

Section DivProof.
Variables (B : Z) (D : digit).
Hypothesis OK : digit_ok B D.
Notation val := (value B).
Notation digs := (below B).
Notation p n := (pw B n).
Let HB : 1 < B := SliceProof.HB B D OK.

Lemma rem_loop_ok nr f c : digs nr -> 0 < f < B -> 0 <= c < f ->
  total (rem_loop D nr f c) (fun r => 0 <= r < f /\ r = (val nr + p (length nr) * c) mod f).
Proof.
  intros Hn Hf Hc. induction nr as [|d t IH]; cbn [rem_loop].
  - ret. cbn [value length]. rewrite pw_0, Z.mul_1_l, Z.add_0_l, Z.mod_small by lia. lia.
  - apply below_cons in Hn. destruct Hn as [Hd Ht].
    tstep IH; [exact Ht|]. intros r (Hr & E).
    eapply total_post; [apply (ok_rem _ _ OK); auto|]. intros r' ->.
    split; [apply Z.mod_pos_bound; lia|].
    rewrite E. cbn [value length]. rewrite pw_S.
    rewrite <- Zplus_mod_idemp_r, Zmult_mod_idemp_r, Zplus_mod_idemp_r.
    f_equal. ring.
Qed.

Lemma div_loop_ok nr f c : digs nr -> 0 < f < B -> 0 <= c < f ->
  total (div_loop D nr f c) (fun '(q, r) =>
    length q = length nr /\ digs q /\ 0 <= r < f
    /\ val nr + p (length nr) * c = val q * f + r).
Proof.
  intros Hn Hf Hc. induction nr as [|d t IH]; cbn [div_loop].
  - ret. cbn [value length]. rewrite pw_0. conj; auto using below_nil; lia.
  - apply below_cons in Hn. destruct Hn as [Hd Ht].
    tstep IH; [exact Ht|]. intros [q r] (L & Dq & Hr & V).
    tstep (ok_div _ _ OK); [exact Hd|exact Hf|exact Hr|].
    intros [d' r'] (Hd' & Hr' & E). ret. cbn [value length]. rewrite pw_S.
    split; [lia|]. split; [apply below_cons; auto|]. split; [lia|]. nia.
Qed.

Lemma rem_digit_ok nr f : digs nr -> 0 <= f < B ->
  total (rem_digit D nr f) (fun res => match res with
    | ROk r => f <> 0 /\ r = val nr mod f
    | RErr e => f = 0 /\ e = DivisionByZero end).
Proof.
  intros Hn Hf. unfold rem_digit. destruct (Z.eqb_spec f 0) as [->|H0]; [ret; auto|].
  tstep rem_loop_ok; [assumption|lia|lia|]. intros r (Hr & ->). ret.
  rewrite Z.mul_0_r, Z.add_0_r. auto.
Qed.

Lemma div_assign_digit_ok nr f : digs nr -> 0 <= f < B ->
  total (div_assign_digit D nr f) (fun '(q, res) => match res with
    | ROk (n, r) => f <> 0 /\ length q = length nr /\ digs q /\ val q = val nr / f
        /\ r = val nr mod f /\ (n <= length nr)%nat /\ val (firstn n q) = val q
        /\ normal (firstn n q)
    | RErr e => f = 0 /\ e = DivisionByZero /\ q = nr end).
Proof.
  intros Hn Hf. unfold div_assign_digit. destruct (Z.eqb_spec f 0) as [->|H0]; [ret; auto|].
  tstep div_loop_ok; [assumption|lia|lia|].
  intros [q r] (L & Dq & Hr & V). tstep (drop_val B); [lia|]. intros n (Hn' & Vn & Nn). ret.
  rewrite Z.mul_0_r, Z.add_0_r in V. rewrite firstn_all in Vn.
  conj; auto; try lia.
  - apply Z.div_unique with r; lia.
  - apply Z.mod_unique with (val q); lia.
Qed.

Lemma trunc_if n (l : digits) : (n <= length l)%nat ->
  (if (n <? length l)%nat then truncate n l else l) = firstn n l.
Proof.
  intros H. destruct (Nat.ltb_spec n (length l)); [reflexivity|].
  rewrite firstn_all2 by lia. reflexivity.
Qed.

Lemma ubig_div_assign_digit_ok nr f : digs nr -> 0 <= f < B ->
  total (ubig_div_assign_digit D nr f) (fun '(q, res) => match res with
    | ROk r => f <> 0 /\ digs q /\ normal q /\ val q = val nr / f /\ r = val nr mod f
    | RErr e => f = 0 /\ e = DivisionByZero /\ q = nr end).
Proof.
  intros Hn Hf. unfold ubig_div_assign_digit. tstep div_assign_digit_ok; auto.
  intros [q [[n r]|e]] H; ret; [|exact H].
  destruct H as (H0 & L & Dq & V & R & Hn' & Vn & Nn). rewrite trunc_if by lia.
  conj; auto; [apply below_firstn; assumption|congruence].
Qed.

Lemma div_assign_d_ok nr f : digs nr -> 0 <= f < B ->
  spec (fun w => w = PExplicit DivisionByZero /\ f = 0) (div_assign_d D nr f)
    (fun q => f <> 0 /\ digs q /\ normal q /\ val q = val nr / f).
Proof.
  intros Hn Hf. unfold div_assign_d.
  eapply spec_bind; [apply total_spec, ubig_div_assign_digit_ok; auto|].
  intros [q [r|e]] H; cbn [or_panic bind].
  - ret. tauto.
  - destruct H as (? & -> & ?). split; auto.
Qed.

Lemma rem_assign_d_ok nr f : digs nr -> 0 <= f < B ->
  spec (fun w => w = PExplicit DivisionByZero /\ f = 0) (rem_assign_d D nr f)
    (fun q => f <> 0 /\ digs q /\ normal q /\ val q = val nr mod f).
Proof.
  intros Hn Hf. unfold rem_assign_d.
  eapply spec_bind; [apply total_spec, rem_digit_ok; auto|].
  intros [r|e] H; cbn [or_panic bind].
  - destruct H as [H0 ->]. ret. pose proof (Z.mod_pos_bound (val nr) f ltac:(lia)) as Hb.
    destruct (Z.eqb_spec (val nr mod f) 0) as [->|Hz].
    + conj; auto using below_nil, normal_nil.
    + conj; auto; [apply below_cons; split; [lia|apply below_nil]|apply normal_single; auto|].
      cbn [value]. lia.
  - destruct H as (? & ->). split; auto.
Qed.

Lemma rem_ref_d_ok nr f : digs nr -> 0 <= f < B ->
  spec (fun w => w = PExplicit DivisionByZero /\ f = 0) (rem_ref_d D nr f)
    (fun q => f <> 0 /\ digs q /\ normal q /\ val q = val nr mod f).
Proof.
  intros Hn Hf. unfold rem_ref_d.
  eapply spec_bind; [apply total_spec, rem_digit_ok; auto|].
  intros [r|e] H; cbn [or_panic bind].
  - destruct H as [H0 ->]. pose proof (Z.mod_pos_bound (val nr) f ltac:(lia)) as Hb.
    apply total_spec. eapply total_post.
    + apply (new_ok B). apply below_cons; split; [|apply below_nil]. lia.
    + intros q (Q1 & Q2 & Q3). conj; auto. rewrite Q3. cbn [value]. lia.
  - destruct H as (? & ->). split; auto.
Qed.

End DivProof.
