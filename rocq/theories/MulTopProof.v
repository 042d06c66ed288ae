(** * MulTopProof: the dispatch of src/ubig/mul.rs between schoolbook, Karatsuba and Toom-3. *)
From Coq Require Import ZArith List Bool Lia.
From Verif Require Import Base Digit Spec Hoare DigitOK Slice Mul ListLemmas SliceProof MulProof
  BufProof WorkSize KaratsubaProof ToomProof ToomMain.
Import ListNotations.
Open Scope Z_scope.
Open Scope m_scope.

Section MulTop.
Variables (B : Z) (D : digit).
Hypothesis OK : digit_ok B D.
Notation val := (value B).
Notation digs := (below B).
Notation "'p' n" := (pw B n) (at level 10, n at level 9).
Let HB : 1 < B := SliceProof.HB B D OK.
Hint Resolve HB : core.

Lemma rec_ok_le tot N M rec : (M <= N)%nat -> rec_ok B tot N rec -> rec_ok B tot M rec.
Proof. intros H Hr x y prod work D0 D1 D2 D3 HL. apply Hr; auto. lia. Qed.
Lemma srec_ok_le tot N M rec : (M <= N)%nat -> srec_ok B tot N rec -> srec_ok B tot M rec.
Proof. intros H Hr x prod work D0 D2 D3 HL. apply Hr; auto. lia. Qed.

Lemma mpost_long x y prod work r n : digs prod -> digs work ->
  x <> [] -> y <> [] -> (length x + length y <= length prod)%nat ->
  length r = length prod -> digs r -> (n <= length x + length y)%nat ->
  skipn (length x + length y) r = skipn (length x + length y) prod ->
  val (firstn (length x + length y) r) = val x * val y ->
  val (firstn n r) = val x * val y -> normal (firstn n r) ->
  mpost B x y prod work (r, work, n).
Proof.
  intros Dp Dw Nx Ny HL L Dr Hn S V1 V2 N. unfold mpost. conj; auto; try lia.
  - intros [E|E]; contradiction.
  - intros _ _. exists (val (skipn (length x + length y) prod)). conj; auto.
    + apply value_nonneg; auto. apply below_skipn, Dp.
    + rewrite (value_split B (length x + length y) r) by lia. rewrite V1, S. reflexivity.
Qed.

Lemma mpost_empty x y prod work : digs prod -> digs work -> x = [] \/ y = [] ->
  mpost B x y prod work (prod, work, 0%nat).
Proof.
  intros Dp Dw H. unfold mpost. cbn [firstn]. conj; auto; try lia.
  - destruct H as [-> | ->]; cbn; lia.
  - apply normal_nil.
  - intros Nx Ny. destruct H; contradiction.
Qed.

Lemma nonempty (l : digits) : length l <> 0%nat -> l <> [].
Proof. intros H ->. apply H; reflexivity. Qed.

Lemma dispatch_ok tot rec x y prod work :
  digs x -> digs y -> digs prod -> digs work ->
  rec_ok B tot (Nat.max (length x) (length y)) rec ->
  good tot x y -> (x <> [] -> y <> [] -> (length x + length y <= length prod)%nat) ->
  (need (length x) (length y) <= length work)%nat ->
  spec (allowed tot) (mul_dispatch D rec x y prod work) (mpost B x y prod work).
Proof.
  intros D0 D1 Dp Dw Hrec Hg HL HW. unfold mul_dispatch.
  destruct (Nat.eqb_spec (length x) 0) as [E|N0]; cbn [orb].
  { ret. apply mpost_empty; auto. left. apply length_zero_iff_nil, E. }
  destruct (Nat.eqb_spec (length y) 0) as [E|N1].
  { ret. apply mpost_empty; auto. right. apply length_zero_iff_nil, E. }
  specialize (HL (nonempty _ N0) (nonempty _ N1)).
  tstep total_guard; [apply Nat.leb_le; lia|]. intros _ _.
  unfold TOOM3_CUTOFF, KARATSUBA_CUTOFF. unfold need in HW.
  unfold TOOM3_CUTOFF, KARATSUBA_CUTOFF in HW.
  destruct (Nat.leb_spec 128 (length x)) as [A0|A0]; destruct (Nat.leb_spec 128 (length y)) as [A1|A1];
    cbn [andb] in *.
  { destruct tot.
    - exfalso. destruct Hg as [H|[H|(_ & _ & H & _)]]; auto; lia.
    - apply (toom_ok B D OK); auto. }
  all: destruct (Nat.leb_spec 20 (length x)) as [K0|K0]; destruct (Nat.leb_spec 20 (length y)) as [K1|K1];
    cbn [andb] in *.
  all: try (apply (kara_ok B D OK); auto; lia).
  all: eapply total_bind; [apply (mul_long_ok B D OK); auto|].
  all: intros [r n] (L & Dr & Hn & S & V1 & V2 & N); ret; apply mpost_long; auto using nonempty.
Qed.

Lemma mul_fuel_ok tot f : rec_ok B tot f (mul_fuel D f).
Proof.
  induction f as [|f IH]; intros x y prod work D0 D1 Dp Dw HN Hg HL HW; [lia|].
  cbn [mul_fuel]. apply dispatch_ok; auto. apply (rec_ok_le _ f); auto. lia.
Qed.

Lemma with_work_ok tot x y prod work :
  digs x -> digs y -> digs prod -> digs work -> good tot x y ->
  (x <> [] -> y <> [] -> (length x + length y <= length prod)%nat) ->
  (need (length x) (length y) <= length work)%nat ->
  spec (allowed tot) (mul_big_into_with_work D x y prod work) (mpost B x y prod work).
Proof. intros. apply mul_fuel_ok; auto. Qed.

(** the result of the versions with a private scratch vector *)
Definition ipost (x y prod : digits) : digits * nat -> Prop := fun '(pr, n) =>
  length pr = length prod /\ digs pr
  /\ (n <= length x + length y)%nat /\ (n <= length prod)%nat
  /\ val (firstn n pr) = val x * val y /\ normal (firstn n pr).

Lemma mpost_ipost x y prod work pr wk n : mpost B x y prod work (pr, wk, n) -> ipost x y prod (pr, n).
Proof. intros (L & Dp & _ & _ & Hn & Hn' & V & N & _). unfold ipost. conj; auto. Qed.

Lemma mul_into_ok tot x y prod :
  digs x -> digs y -> digs prod -> good tot x y ->
  (x <> [] -> y <> [] -> (length x + length y <= length prod)%nat) ->
  spec (allowed tot) (mul_big_into D x y prod) (ipost x y prod).
Proof.
  intros D0 D1 Dp Hg HL. unfold mul_big_into.
  destruct (Nat.eqb_spec (length x) 0) as [E|N0]; cbn [orb].
  { ret. apply (mpost_ipost x y prod [] prod []), mpost_empty; auto; [apply below_nil|].
    left. apply length_zero_iff_nil, E. }
  destruct (Nat.eqb_spec (length y) 0) as [E|N1].
  { ret. apply (mpost_ipost x y prod [] prod []), mpost_empty; auto; [apply below_nil|].
    right. apply length_zero_iff_nil, E. }
  specialize (HL (nonempty _ N0) (nonempty _ N1)).
  tstep total_guard; [apply Nat.leb_le; lia|]. intros _ _.
  assert (Hz : forall k, digs (zeros k)) by (intros; apply below_zeros; auto).
  pose proof (mul_fuel_ok tot (Nat.max (length x) (length y))) as Hrec.
  unfold TOOM3_CUTOFF, KARATSUBA_CUTOFF.
  destruct (Nat.leb_spec 128 (length x)) as [A0|A0]; destruct (Nat.leb_spec 128 (length y)) as [A1|A1];
    cbn [andb] in *.
  { destruct tot.
    - exfalso. destruct Hg as [H|[H|(_ & _ & H & _)]]; auto; lia.
    - eapply spec_bind; [apply (toom_ok B D OK); auto; rewrite zeros_length; reflexivity|].
      intros [[pr wk] n] H. ret. eapply mpost_ipost, H. }
  all: destruct (Nat.leb_spec 20 (length x)) as [K0|K0]; destruct (Nat.leb_spec 20 (length y)) as [K1|K1];
    cbn [andb] in *.
  all: try (eapply spec_bind; [apply (kara_ok B D OK tot); auto; try lia; rewrite zeros_length; reflexivity|];
            intros [[pr wk] n] H; ret; eapply mpost_ipost, H).
  all: apply total_spec; eapply total_post; [apply (mul_long_ok B D OK); auto|].
  all: intros [r n] (L & Dr & Hn & S & V1 & V2 & N);
    apply (mpost_ipost x y prod [] r []), mpost_long; auto using nonempty; apply below_nil.
Qed.

(** ** squares *)
Lemma sdispatch_ok tot rec x prod work :
  digs x -> digs prod -> digs work ->
  srec_ok B tot (length x) rec ->
  good tot x x -> (2 * length x <= length prod)%nat ->
  (need (length x) (length x) <= length work)%nat -> sqpre B (length x) prod work ->
  spec (allowed tot) (square_dispatch D rec x prod work) (mpost B x x prod work).
Proof.
  intros D0 Dp Dw Hrec Hg HL HW Hpre. unfold square_dispatch.
  destruct (Nat.eqb_spec (length x) 0) as [E|N0]; cbn [orb].
  { ret. apply mpost_empty; auto. left. apply length_zero_iff_nil, E. }
  tstep total_guard; [apply Nat.leb_le; lia|]. intros _ _.
  unfold TOOM3_CUTOFF, KARATSUBA_CUTOFF. unfold need in HW.
  unfold TOOM3_CUTOFF, KARATSUBA_CUTOFF in HW.
  destruct (Nat.leb_spec 128 (length x)) as [A0|A0]; cbn [andb] in *.
  { destruct tot.
    - exfalso. destruct Hg as [H|[H|(_ & _ & H & _)]]; auto; lia.
    - apply (stoom_ok B D OK); auto. rewrite Nat.max_id in HW. exact HW. }
  destruct (Nat.leb_spec 20 (length x)) as [K0|K0]; cbn [andb] in *.
  { apply (skara_ok B D OK); auto. rewrite Nat.max_id in HW. exact HW. }
  eapply total_bind; [apply (square_long_ok B D OK); auto|].
  intros [r n] (L & Dr & Hn & S & V1 & V2 & N).
  replace (2 * length x)%nat with (length x + length x)%nat in * by lia.
  ret. apply mpost_long; auto using nonempty.
Qed.

Lemma square_fuel_ok tot f : srec_ok B tot f (square_fuel D f).
Proof.
  induction f as [|f IH]; intros x prod work D0 Dp Dw HN Hg HL HW Hp; [lia|].
  cbn [square_fuel]. apply sdispatch_ok; auto. apply (srec_ok_le _ f); auto. lia.
Qed.

Lemma square_into_ok tot x prod :
  digs x -> digs prod -> good tot x x -> (2 * length x <= length prod)%nat ->
  (length x < 128)%nat \/ (val prod = 0 /\ (length x <= 1131)%nat) ->
  spec (allowed tot) (square_into D x prod) (ipost x x prod).
Proof.
  intros D0 Dp Hg HL Hlen. unfold square_into.
  destruct (Nat.eqb_spec (length x) 0) as [E|N0]; cbn [orb].
  { ret. apply (mpost_ipost x x prod [] prod []), mpost_empty; auto; [apply below_nil|].
    left. apply length_zero_iff_nil, E. }
  tstep total_guard; [apply Nat.leb_le; lia|]. intros _ _.
  assert (Hz : forall k, digs (zeros k)) by (intros; apply below_zeros; auto).
  pose proof (square_fuel_ok tot (length x)) as Hrec.
  unfold TOOM3_CUTOFF, KARATSUBA_CUTOFF.
  destruct (Nat.leb_spec 128 (length x)) as [A0|A0].
  { destruct tot.
    - exfalso. destruct Hg as [H|[H|(_ & _ & H & _)]]; auto; lia.
    - eapply spec_bind.
      + apply (stoom_ok B D OK); auto; [rewrite zeros_length; reflexivity|].
        right. destruct Hlen as [H|[H1 H2]]; [lia|]. split; auto. right. split; auto. apply value_zeros.
      + intros [[pr wk] n] H. ret. eapply mpost_ipost, H. }
  destruct (Nat.leb_spec 20 (length x)) as [K0|K0].
  { eapply spec_bind; [apply (skara_ok B D OK tot); auto; try lia; rewrite zeros_length; reflexivity|].
    intros [[pr wk] n] H; ret; eapply mpost_ipost, H. }
  apply total_spec; eapply total_post; [apply (square_long_ok B D OK); auto|].
  intros [r n] (L & Dr & Hn & S & V1 & V2 & N).
  replace (2 * length x)%nat with (length x + length x)%nat in * by lia.
  apply (mpost_ipost x x prod [] r []), mpost_long; auto using nonempty. apply below_nil.
Qed.
End MulTop.
