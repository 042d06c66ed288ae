(** * KaratsubaProof: mul/karatsuba.rs. *)
From Coq Require Import ZArith List Bool Lia.
From Verif Require Import Base Digit Spec Hoare DigitOK Slice Mul ListLemmas SliceProof MulProof
  BufProof WorkSize.
Import ListNotations.
Open Scope Z_scope.
Open Scope m_scope.

Section KaratsubaProof.
Variables (B : Z) (D : digit).
Hypothesis OK : digit_ok B D.
Notation val := (value B).
Notation digs := (below B).
Notation "'p' n" := (pw B n) (at level 10, n at level 9).
Notation buf := (buf B).
Let HB : 1 < B := SliceProof.HB B D OK.
Hint Resolve HB : core.

Lemma pw_lt_inv m n : p m < p n -> (m < n)%nat.
Proof.
  intros H. destruct (Nat.le_gt_cases n m) as [Hc|Hc]; [|assumption].
  pose proof (pw_le B n m HB Hc). lia.
Qed.

(** [lia] on the nat part of the context only *)
Ltac keep_nat := repeat match goal with
  | H : ?T |- _ => lazymatch T with
      | (_ <= _)%nat => fail | (_ < _)%nat => fail | (_ <= _ < _)%nat => fail | (_ <= _ <= _)%nat => fail | @eq nat _ _ => fail | nat => fail | not (@eq nat _ _) => fail
      | _ => clear H end
  end.
Ltac nlia := keep_nat; lia.

(** adding a carry into the result *)
Lemma res_inc (c : bool) result k : digs result -> val result + p k * of_bool c < p (length result) ->
  total (if c then with_suffix result k (inc_assign D) else Ret (result, false)) (fun '(r, _) =>
    length r = length result /\ digs r /\ val r = val result + p k * of_bool c).
Proof.
  intros Hd Hb. pose proof (value_nonneg B HB _ Hd). destruct c; cbn [of_bool] in *.
  - assert (Hk : (k < length result)%nat) by (apply pw_lt_inv; lia).
    eapply spec_with_suffix; [lia|apply (inc_assign_ok B D OK), below_skipn, Hd|].
    intros s c (L & Ds & V). rewrite skipn_length in *.
    rewrite (value_split B k result) in * by lia.
    assert (Hlen : length (firstn k result) = k) by len.
    rewrite value_app, Hlen. pose proof (pw_sub B (length result) k HB ltac:(lia)) as Ep.
    pose proof (value_nonneg B HB _ Ds). pose proof (pw_pos B k HB).
    pose proof (value_nonneg B HB _ (below_firstn B k _ Hd)).
    destruct c; cbn [of_bool] in V.
    { exfalso. rewrite Ep in Hb. nia. }
    conj; [len|apply below_app; split; [apply below_firstn, Hd|assumption]|nia].
  - ret. conj; auto. lia.
Qed.

Lemma res_add result k y : digs result -> digs y -> (k + length y <= length result)%nat ->
  val result + p k * val y < p (length result) ->
  total (with_suffix result k (fun s => add_assign_big D s y)) (fun '(r, c) =>
    length r = length result /\ digs r /\ c = false /\ val r = val result + p k * val y).
Proof.
  intros Hd Hy HL Hb.
  eapply spec_with_suffix; [lia|apply (add_assign_big_ok B D OK); auto; [apply below_skipn, Hd|len]|].
  intros s c (L & Ds & V). rewrite skipn_length in *.
  rewrite (value_split B k result) in * by lia.
  assert (Hlen : length (firstn k result) = k) by len.
  rewrite value_app, Hlen. pose proof (pw_sub B (length result) k HB ltac:(lia)) as Ep.
  pose proof (value_nonneg B HB _ Ds). pose proof (pw_pos B k HB).
  pose proof (value_nonneg B HB _ (below_firstn B k _ Hd)).
  destruct c; cbn [of_bool] in V.
  { exfalso. rewrite Ep in Hb. nia. }
  conj; [len|apply below_app; split; [apply below_firstn, Hd|assumption]|reflexivity|nia].
Qed.

Lemma combine_ok neg s n result z1 nz0 nz1 nz2 a0 a1 b0 b1 U Z1 :
  digs result -> length z1 = (2 * s)%nat -> (2 * s <= n <= length result)%nat ->
  0 <= a0 -> 0 <= a1 -> 0 <= b0 -> 0 <= b1 ->
  (nz0 <= 2 * s)%nat -> (nz2 <= 2 * s)%nat -> (nz1 <= 2 * s)%nat -> (2 * s + nz2 <= length result)%nat ->
  val (firstn nz0 result) = a0 * a1 -> normal (firstn nz0 result) ->
  val (firstn nz2 (skipn (2 * s) result)) = b0 * b1 -> normal (firstn nz2 (skipn (2 * s) result)) ->
  buf z1 nz1 Z1 -> normal (firstn nz1 z1) ->
  val result = a0 * a1 + p (2 * s) * (b0 * b1) + p n * U -> 0 <= U < p (length result - n) ->
  (neg = true -> Z1 = - ((a0 - b0) * (a1 - b1))) ->
  (neg = false -> Z1 = (a0 - b0) * (a1 - b1)
                  /\ ((0 <= a0 - b0 /\ 0 <= a1 - b1) \/ (a0 - b0 <= 0 /\ a1 - b1 <= 0))) ->
  (a0 + p s * b0) * (a1 + p s * b1) < p n ->
  total (karatsuba_combine D neg s n result z1 nz0 nz1 nz2) (fun '(r, z1', nres) =>
    length r = length result /\ digs r /\ length z1' = length z1 /\ digs z1' /\ (nres <= n)%nat
    /\ val r = (a0 + p s * b0) * (a1 + p s * b1) + p n * U
    /\ val (firstn nres r) = (a0 + p s * b0) * (a1 + p s * b1) /\ normal (firstn nres r)).
Proof.
  intros Dr Lz1 Hn Ha0 Ha1 Hb0 Hb1 Hz0 Hz2 Hz1 Hz2' V0 N0 V2 N2 B1 N1 VR HU Hneg Hpos HXY.
  unfold karatsuba_combine.
  rewrite split_at_ok by lia. cbn [bind].
  rewrite prefix_ok by len. cbn [bind]. rewrite prefix_ok by len. cbn [bind].
  rewrite firstn_firstn. replace (Nat.min nz0 (2 * s)) with nz0 by lia.
  set (z0p := firstn nz0 result) in *. set (z2p := firstn nz2 (skipn (2 * s) result)) in *.
  assert (D0 : digs z0p) by (apply below_firstn, Dr).
  assert (D2 : digs z2p) by (apply below_firstn, below_skipn, Dr).
  assert (L0 : length z0p = nz0) by (unfold z0p; len).
  assert (L2 : length z2p = nz2) by (unfold z2p; len).
  set (MID := a0 * b1 + a1 * b0).
  assert (Ps : 0 < p s) by (apply pw_pos; auto). assert (Pn : 0 < p n) by (apply pw_pos; auto).
  assert (P2 : p (2 * s) = p s * p s) by (rewrite <- pw_add; f_equal; lia).
  assert (EXY : (a0 + p s * b0) * (a1 + p s * b1) = a0 * a1 + p s * MID + p (2 * s) * (b0 * b1)).
  { rewrite P2. unfold MID. ring. }
  set (XY := (a0 + p s * b0) * (a1 + p s * b1)) in *.
  assert (Pl : p (length result) = p n * p (length result - n)) by (apply pw_sub; auto; lia).
  assert (Htot : XY + p n * U < p (length result)) by (rewrite Pl; nia).
  assert (Hres : val result = XY - p s * MID + p n * U) by lia.
  assert (HMID : 0 <= MID) by (unfold MID; nia).
  assert (H00 : 0 <= a0 * a1) by nia. assert (H22 : 0 <= b0 * b1) by nia.
  assert (HMn : p s * MID < p n) by (rewrite P2 in *; nia).
  assert (HPU : 0 <= p n * U) by nia.
  eapply total_bind with (R := fun '(z1', r, m) =>
    length z1' = length z1 /\ length r = length result /\ digs r /\
    exists v c, buf z1' m v /\ 0 <= c /\ v + p m * c = MID
      /\ val r = val result + p (s + m) * c /\ (m = 0%nat \/ p (m - 1) <= MID)).
  - (* lower bounds from normal lengths *)
    assert (Lo0 : nz0 = 0%nat \/ p (nz0 - 1) <= a0 * a1).
    { destruct (Nat.eq_dec nz0 0); [auto|right]. rewrite <- V0, <- L0. apply normal_lower; auto.
      intros E. rewrite E in L0. cbn in L0. lia. }
    assert (Lo2 : nz2 = 0%nat \/ p (nz2 - 1) <= b0 * b1).
    { destruct (Nat.eq_dec nz2 0); [auto|right]. rewrite <- V2, <- L2. apply normal_lower; auto.
      intros E. rewrite E in L2. cbn in L2. lia. }
    assert (Lo1 : nz1 = 0%nat \/ p (nz1 - 1) <= Z1).
    { destruct (Nat.eq_dec nz1 0); [auto|right]. apply (buf_lower B D OK _ _ _ B1); auto. lia. }
    assert (LO : forall T : Prop, ((nz0 = 0%nat \/ p (nz0 - 1) <= a0 * a1) ->
      (nz2 = 0%nat \/ p (nz2 - 1) <= b0 * b1) -> (nz1 = 0%nat \/ p (nz1 - 1) <= Z1) -> T) -> T)
      by (intros T HT; exact (HT Lo0 Lo2 Lo1)).
    clear Lo0 Lo1 Lo2.
    assert (Hinc : forall m (c : bool) r q, length r = length result -> digs r ->
      val r = val result + p (s + m) * q -> 0 <= q -> p m * (q + of_bool c) <= MID ->
      val r + p (s + m) * of_bool c < p (length r)).
    { intros m c r q Lr Drr Vr Hq Hle. rewrite Lr, Vr, Hres, pw_add. nia. }
    destruct neg.
    + clear Hpos. specialize (Hneg eq_refl).
      set (m := Nat.max (Nat.max nz1 nz0) nz2).
      assert (B1' : buf z1 m Z1) by (eapply (buf_more B D OK); [exact B1|lia|lia]).
      tstep (buf_add B D OK); [exact B1'|exact D0|lia|].
      intros [z1a c0] (La & v0 & Ba & Va).
      tstep (buf_add B D OK); [exact Ba|exact D2|lia|].
      intros [z1b c2] (Lb & v2 & Bb & Vb).
      pose proof (buf_nonneg B D OK _ _ _ Bb) as Hv2.
      pose proof (pw_pos B m HB) as Pm.
      assert (Esum : v2 + p m * (of_bool c0 + of_bool c2) = MID).
      { unfold MID. lia. }
      tstep res_inc; [exact Dr| |].
      { apply (Hinc m c0 result 0); auto; try lia. clear - Esum Hv2 Pm. destruct c0, c2; cbn [of_bool] in *; nia. }
      intros [r1 x1] (Lr1 & Dr1 & Vr1).
      tstep res_inc; [exact Dr1| |].
      { apply (Hinc m c2 r1 (of_bool c0)); auto; try lia; clear - Esum Hv2 Pm; destruct c0, c2; cbn [of_bool] in *; nia. }
      intros [r2 x2] (Lr2 & Dr2 & Vr2). ret. conj; auto; try lia.
      exists v2, (of_bool c0 + of_bool c2). conj; auto; try lia.
      { destruct c0, c2; cbn; lia. }
      assert (0 <= Z1) by (eapply (buf_nonneg B D OK); exact B1).
      assert (MID = a0 * a1 + Z1 + b0 * b1) by (unfold MID; lia).
      apply LO. intros Lo0 Lo2 Lo1. clear - Lo0 Lo1 Lo2 H H0 H00 H22.
      unfold m. destruct (Nat.max_spec (Nat.max nz1 nz0) nz2) as [[_ ->]|[_ ->]]; [lia|].
      destruct (Nat.max_spec nz1 nz0) as [[_ ->]|[_ ->]]; lia.
    + clear Hneg. destruct (Hpos eq_refl) as [EZ Hsg0]. clear Hpos.
      assert (Hsg : forall T : Prop, ((0 <= a0 - b0 /\ 0 <= a1 - b1) \/ (a0 - b0 <= 0 /\ a1 - b1 <= 0) -> T) -> T)
        by (intros T HT; exact (HT Hsg0)). clear Hsg0.
      rewrite prefix_ok by (rewrite Lz1; lia). cbn [bind].
      destruct (buf_firstn_digs B _ _ _ B1) as [D1 L1].
      pose proof (buf_first B D OK _ _ _ B1) as V1.
      rewrite (num_lt_value B HB _ _ D1 D0 N1 N0), V0, V1.
      pose proof (buf_nonneg B D OK _ _ _ B1) as HZ1.
      destruct (Z.ltb_spec Z1 (a0 * a1)) as [Hlt|Hge].
      * assert (HZ0 : a0 * a1 < p nz0) by (rewrite <- V0, <- L0; apply value_bound; auto).
        assert (B1' : buf z1 (length z0p) Z1).
        { destruct B1 as (Q1 & Q2 & Q3 & Q4). unfold BufProof.buf. rewrite L0, Lz1. conj; auto; lia. }
        rewrite <- L0 at 1. 
        tstep (buf_rsub B D OK); [exact B1'|exact D0|lia|].
        intros [z1a n1] (La & Hn1 & Ba & Na). rewrite V0 in Ba.
        set (m := Nat.max n1 nz2).
        assert (Ba' : buf z1a m (a0 * a1 - Z1)) by (eapply (buf_more B D OK); [exact Ba|lia|lia]).
        tstep (buf_add B D OK); [exact Ba'|exact D2|lia|].
        intros [z1b c2] (Lb & v2 & Bb & Vb).
        pose proof (buf_nonneg B D OK _ _ _ Bb) as Hv2.
        pose proof (pw_pos B m HB) as Pm.
        assert (Esum : v2 + p m * of_bool c2 = MID) by (unfold MID; lia).
        tstep res_inc; [exact Dr| |].
        { apply (Hinc m c2 result 0); auto; lia. }
        intros [r1 x1] (Lr1 & Dr1 & Vr1). ret. conj; auto; try lia.
        exists v2, (of_bool c2). conj; auto; try lia.
        { destruct c2; cbn; lia. }
        assert (MID = a0 * a1 - Z1 + b0 * b1) by (unfold MID; lia).
        unfold m. destruct (Nat.max_spec n1 nz2) as [[_ ->]|[_ ->]].
        { apply LO. intros _ Lo2 _. clear - Lo2 H Hlt. lia. }
        destruct (Nat.eq_dec n1 0) as [|Hne]; [lia|right].
        pose proof (buf_lower B D OK _ _ _ Ba Na ltac:(lia)). lia.
      * tstep (buf_sub B D OK); [exact B1|exact D0| |lia|].
        { rewrite L0. rewrite <- L1. destruct (Nat.le_gt_cases nz0 (length (firstn nz1 z1))) as [|Hc]; [assumption|].
          rewrite <- L0 in Hc. pose proof (value_length_lt B HB _ _ D1 D0 N0 Hc). lia. }
        intros [z1a n1] (La & Hn1 & _ & Ba & _ & Hz). rewrite V0 in *.
        assert (HZ2 : Z1 - a0 * a1 <= b0 * b1).
        { unfold MID in HMID. clear - EZ HMID. lia. }
        assert (Hc : Z1 = a0 * a1 \/ (a0 - b0 <= 0 /\ a1 - b1 <= 0)).
        { apply Hsg. clear - EZ Hge Ha0 Ha1 Hb0 Hb1. intros [Hs|Hs]; [left|right; exact Hs]. nia. }
        assert (Hn1z2 : (n1 <= nz2)%nat).
        { destruct Hc as [Hc|Hc]; [rewrite (Hz N1 Hc); lia|].
          assert (Z1 <= b0 * b1) by (clear - EZ Hc Ha0 Ha1 Hb0 Hb1; nia).
          assert (Z1 < p nz2).
          { rewrite <- L2. pose proof (value_bound B HB z2p D2). lia. }
          pose proof (buf_length B D OK _ _ _ nz2 B1 N1 H0). lia. }
        rewrite prefix_ok by (rewrite La, Lz1; lia). cbn [bind].
        destruct (buf_firstn_digs B _ _ _ Ba) as [D1a L1a].
        pose proof (buf_first B D OK _ _ _ Ba) as V1a.
        assert (Hlt2 : num_lt z2p (firstn n1 z1a) = false).
        { destruct (num_lt z2p (firstn n1 z1a)) eqn:E; [|reflexivity].
          pose proof (num_lt_true_len _ _ E) as HE. rewrite (num_lt_same B) in E by (auto; rewrite L2, L1a in *; lia).
          apply Z.ltb_lt in E. lia. }
        rewrite Hlt2.
        tstep total_debug_assert; [reflexivity|]. intros _ _.
        assert (Ba' : buf z1a (length z2p) (Z1 - a0 * a1)).
        { rewrite L2. eapply (buf_more B D OK); [exact Ba|lia|lia]. }
        rewrite <- L2 at 1.
        tstep (buf_rsub B D OK); [exact Ba'|exact D2|lia|].
        intros [z1b n2] (Lb & Hn2 & Bb & Nb). rewrite V2 in Bb. ret. conj; auto; try lia.
        exists (b0 * b1 - (Z1 - a0 * a1)), 0. 
        assert (EM : b0 * b1 - (Z1 - a0 * a1) = MID) by (unfold MID; lia). rewrite EM in *.
        conj; auto; try lia.
        destruct (Nat.eq_dec n2 0) as [|Hne]; [lia|right].
        apply (buf_lower B D OK _ _ _ Bb Nb ltac:(lia)).
  - intros [[z1' r] m] (Lz & Lr & Drr & v & c & Bv & Hc & Ev & Vr & Hm).
    pose proof (buf_nonneg B D OK _ _ _ Bv) as Hv0.
    destruct (buf_firstn_digs B _ _ _ Bv) as [Dv Lv].
    pose proof (buf_first B D OK _ _ _ Bv) as Vv.
    rewrite prefix_ok by apply Bv. cbn [bind].
    assert (EV : val r + p s * v = XY + p n * U).
    { rewrite Vr, Hres, pw_add. nia. }
    tstep res_add; [exact Drr|exact Dv| | |].
    + rewrite Lv, Lr. destruct Hm as [->|Hm]; [lia|].
      destruct (Nat.eq_dec m 0) as [|Hm0]; [lia|].
      assert (p (s + (m - 1)) < p n) by (rewrite pw_add; nia).
      apply pw_lt_inv in H. lia.
    + rewrite Vv, Lr. lia.
    + intros [r' c'] (L' & D' & -> & V'). rewrite Vv, EV in V'. cbn [negb].
      tstep total_guard; [reflexivity|]. intros _ _.
      tstep (drop_val B); [lia|]. intros nres (E1 & E2 & E3). ret.
      destruct (firstn_skipn_val B D OK r' n XY U) as [F1 F2]; auto; try lia.
      conj; auto; try lia. apply Bv.
Qed.

(** ** The recursive call *)

(** Outcome of a multiplication into [prod] with scratch [work]. *)
Definition mpost (x y prod work : digits) : (digits * digits) * nat -> Prop := fun '(pr, wk, n) =>
  length pr = length prod /\ digs pr /\ length wk = length work /\ digs wk
  /\ (n <= length x + length y)%nat /\ (n <= length prod)%nat
  /\ val (firstn n pr) = val x * val y /\ normal (firstn n pr)
  /\ (x = [] \/ y = [] -> pr = prod /\ n = 0%nat)
  /\ (x <> [] -> y <> [] -> exists U, 0 <= U
        /\ val pr = val x * val y + p (length x + length y) * U
        /\ (val (skipn (length x + length y) prod) = 0 -> U = 0)).

Definition allowed (tot : bool) (w : panic) : Prop :=
  tot = false /\ (w = PUnwrap Underflow \/ w = PAssert).
Definition good (tot : bool) (x y : digits) : Prop := tot = true ->
  (length x < 20)%nat \/ (length y < 20)%nat
  \/ (normal x /\ normal y /\ (length x <= 40)%nat /\ (length y <= 40)%nat).

Definition rec_ok (tot : bool) (N : nat) (rec : mul_fn) : Prop := forall x y prod work,
  digs x -> digs y -> digs prod -> digs work -> (Nat.max (length x) (length y) < N)%nat ->
  good tot x y -> (x <> [] -> y <> [] -> (length x + length y <= length prod)%nat) ->
  (need (length x) (length y) <= length work)%nat ->
  spec (allowed tot) (rec x y prod work) (mpost x y prod work).

Lemma mpost_zero x y prod work pr wk n : digs prod -> (x <> [] -> y <> [] -> (length x + length y <= length prod)%nat) ->
  mpost x y prod work (pr, wk, n) -> val prod = 0 -> buf pr n (val x * val y).
Proof.
  intros Hd HL (L & Dp & _ & _ & Hn & Hn' & V & _ & He & Hne) H0.
  assert (E : val pr = val x * val y).
  { destruct x as [|dx x]; [destruct He as [-> _]; auto; rewrite H0; reflexivity|].
    destruct y as [|dy y]; [destruct He as [-> _]; auto; rewrite H0; cbn; lia|].
    destruct Hne as (U & HU & V' & Hz); try discriminate. rewrite V', Hz; [lia|].
    specialize (HL ltac:(discriminate) ltac:(discriminate)).
    rewrite (value_split B _ _ HL) in H0.
    pose proof (value_nonneg B HB _ (below_firstn B (length (dx :: x) + length (dy :: y)) _ Hd)).
    pose proof (value_nonneg B HB _ (below_skipn B (length (dx :: x) + length (dy :: y)) _ Hd)).
    pose proof (pw_pos B (length (dx :: x) + length (dy :: y)) HB). nia. }
  rewrite <- E. apply (buf_of B D OK); auto; lia.
Qed.

Lemma split_value l s : digs l ->
  val l = val (firstn (Nat.min s (length l)) l) + p s * val (skipn (Nat.min s (length l)) l).
Proof.
  intros Hd. destruct (Nat.le_gt_cases s (length l)) as [H|H].
  - rewrite Nat.min_l by lia. apply value_split. lia.
  - rewrite Nat.min_r by lia. rewrite firstn_all, skipn_all. cbn [value]. lia.
Qed.

Lemma product_bound x y : digs x -> digs y -> 0 <= val x * val y < p (length x + length y).
Proof.
  intros Hx Hy. pose proof (value_bound B HB x Hx). pose proof (value_bound B HB y Hy).
  rewrite pw_add. nia.
Qed.

Lemma abs_prod sg0 sg1 a b c d :
  (sg0 = true -> a <= b) -> (sg0 = false -> b <= a) ->
  (sg1 = true -> c <= d) -> (sg1 = false -> d <= c) ->
  (xorb sg0 sg1 = true -> Z.abs (a - b) * Z.abs (c - d) = - ((a - b) * (c - d)))
  /\ (xorb sg0 sg1 = false -> Z.abs (a - b) * Z.abs (c - d) = (a - b) * (c - d)
       /\ ((0 <= a - b /\ 0 <= c - d) \/ (a - b <= 0 /\ c - d <= 0))).
Proof.
  intros H1 H2 H3 H4.
  destruct sg0; [specialize (H1 eq_refl); rewrite (Z.abs_neq (a - b)) by lia
                |specialize (H2 eq_refl); rewrite (Z.abs_eq (a - b)) by lia];
  (destruct sg1; [specialize (H3 eq_refl); rewrite (Z.abs_neq (c - d)) by lia
                 |specialize (H4 eq_refl); rewrite (Z.abs_eq (c - d)) by lia]);
  cbn [xorb]; split; intros E; try discriminate E; try ring; (split; [ring|lia]).
Qed.

Lemma kara_ok tot rec nr0 nr1 result work :
  let n0 := length nr0 in let n1 := length nr1 in let nmax := Nat.max n0 n1 in
  (20 <= n0)%nat -> (20 <= n1)%nat -> (Nat.min n0 n1 < 128)%nat ->
  rec_ok tot nmax rec -> good tot nr0 nr1 ->
  digs nr0 -> digs nr1 -> digs result -> digs work ->
  (n0 + n1 <= length result)%nat -> (calc_karatsuba_work_size nmax <= length work)%nat ->
  spec (allowed tot) (mul_big_karatsuba_into D rec nr0 nr1 result work) (mpost nr0 nr1 result work).
Proof.
  intros n0 n1 nmax Hc0 Hc1 Hmin Hrec Hgood D0 D1 Dr Dw HL HW.
  unfold mul_big_karatsuba_into. fold n0 n1 nmax.
  tstep total_guard; [apply andb_true_iff; split; apply Nat.leb_le; nlia|]. intros _ _.
  tstep total_guard; [apply Nat.leb_le; nlia|]. intros _ _.
  set (s := Nat.div2 (nmax + 1)) in *. pose proof (split_bounds nmax) as Hs. fold s in Hs.
  pose proof (k_step nmax ltac:(nlia)) as Hk. fold s in Hk. rewrite Hk in HW.
  assert (Hneed : forall a b, (a <= s)%nat -> (b <= s)%nat -> (a <= n0)%nat -> (b <= n1)%nat ->
    (need a b <= calc_karatsuba_work_size s)%nat).
  { intros a b ? ? ? ?. apply need_le_k; nlia. }
  assert (Hb : (s <= nmax /\ n0 <= 2 * s /\ n1 <= 2 * s /\ 2 * s <= n0 + n1 /\ s < nmax)%nat) by nlia.
  assert (Hgs : tot = true -> (s <= 20)%nat).
  { intros Ht. destruct (Hgood Ht) as [?|[?|(? & ? & ? & ?)]]; unfold nmax, n0, n1 in *; nlia. }
  destruct Hb as (Hb1 & Hb2 & Hb3 & Hb4 & Hb5). clear Hmin Hs Hk.
  clearbody s nmax.
  rewrite split_at_ok by (fold n0; nlia). cbn [bind].
  tstep (drop_val B); [nlia|]. intros nlow0 (Hl0 & Vl0 & Nl0).
  rewrite split_at_ok by (fold n1; nlia). cbn [bind].
  tstep (drop_val B); [nlia|]. intros nlow1 (Hl1 & Vl1 & Nl1).
  rewrite split_at_ok by nlia. cbn [bind].
  rewrite (prefix_ok _ nlow0) by assumption. cbn [bind].
  rewrite (prefix_ok _ nlow1) by assumption. cbn [bind].
  rewrite firstn_all in Vl0, Vl1.
  pose proof (split_value nr0 s D0) as E0. pose proof (split_value nr1 s D1) as E1.
  fold n0 in E0. fold n1 in E1.
  rewrite firstn_length in Hl0, Hl1. fold n0 in Hl0. fold n1 in Hl1.
  set (low0 := firstn nlow0 (firstn (Nat.min s n0) nr0)) in *.
  set (low1 := firstn nlow1 (firstn (Nat.min s n1) nr1)) in *.
  set (high0 := skipn (Nat.min s n0) nr0) in *. set (high1 := skipn (Nat.min s n1) nr1) in *.
  assert (Ll0 : length low0 = nlow0) by (unfold low0; rewrite !firstn_length; fold n0; nlia).
  assert (Ll1 : length low1 = nlow1) by (unfold low1; rewrite !firstn_length; fold n1; nlia).
  assert (Lh0 : length high0 = (n0 - s)%nat) by (unfold high0; rewrite skipn_length; fold n0; nlia).
  assert (Lh1 : length high1 = (n1 - s)%nat) by (unfold high1; rewrite skipn_length; fold n1; nlia).
  assert (Dl0 : digs low0) by (apply below_firstn, below_firstn, D0).
  assert (Dl1 : digs low1) by (apply below_firstn, below_firstn, D1).
  assert (Dh0 : digs high0) by (apply below_skipn, D0).
  assert (Dh1 : digs high1) by (apply below_skipn, D1).
  assert (Nh0 : tot = true -> normal high0 /\ normal high1 /\ (s <= 20)%nat).
  { intros Ht. destruct (Hgood Ht) as [?|[?|(N0 & N1 & ? & ?)]]; [unfold n0 in Hc0; nlia|unfold n1 in Hc1; nlia|].
    conj; [apply normal_skipn, N0|apply normal_skipn, N1|auto]. }
  assert (Hl0s : (nlow0 <= s)%nat) by nlia. assert (Hl0n : (nlow0 <= n0)%nat) by nlia.
  assert (Hl1s : (nlow1 <= s)%nat) by nlia. assert (Hl1n : (nlow1 <= n1)%nat) by nlia.
  clear Hl0 Hl1.
  rewrite <- Vl0 in E0. rewrite <- Vl1 in E1.
  clearbody low0 low1 high0 high1.
  (* the differences *)
  eapply spec_bind.
  { eapply spec_weaken; [apply (abs_into B D OK low0 high0); auto; [apply below_firstn, Dr|rewrite firstn_length; nlia]| |intros a Ha; exact Ha].
    intros w [-> Hw]. split; [|left; reflexivity]. destruct tot; [|reflexivity].
    destruct (Nh0 eq_refl) as (? & _). contradiction. }
  cbn beta zeta. intros [diff0 (sg0 & nd0)] (Ld0 & Dd0 & _ & Hnd0 & Vd0 & _ & Sg0 & Sg0' & Nd0).
  eapply spec_bind.
  { eapply spec_weaken; [apply (abs_into B D OK low1 high1); auto; [apply below_skipn, Dr|rewrite skipn_length; nlia]| |intros a Ha; exact Ha].
    intros w [-> Hw]. split; [|left; reflexivity]. destruct tot; [|reflexivity].
    destruct (Nh0 eq_refl) as (_ & ? & _). contradiction. }
  cbn beta zeta. intros [diff1 (sg1 & nd1)] (Ld1 & Dd1 & Sk1 & Hnd1 & Vd1 & _ & Sg1 & Sg1' & Nd1).
  rewrite firstn_length in Ld0. rewrite skipn_length in Ld1.
  replace (Nat.min s (length result)) with s in Ld0 by nlia.
  assert (Hgd : good tot (firstn nd0 diff0) (firstn nd1 diff1)).
  { intros Ht. destruct (Nh0 Ht) as (NN0 & NN1 & Hs20). rewrite !firstn_length.
    destruct (Nd0 NN0) as [?|?]; [left; nlia|]. destruct (Nd1 NN1) as [?|?]; [right; left; nlia|].
    right; right. conj; auto; nlia. }
  assert (Hd0s : (nd0 <= s)%nat) by nlia. assert (Hd0n : (nd0 <= n0)%nat) by nlia.
  assert (Hd1s : (nd1 <= s)%nat) by nlia. assert (Hd1n : (nd1 <= n1)%nat) by nlia.
  assert (HM1 : (Nat.max (length low1) (length high1) <= s)%nat) by nlia.
  clear Hnd0 Hnd1 Nd0 Nd1.
  set (M1 := Nat.max (length low1) (length high1)) in *. clearbody M1.
  assert (Lf0 : length (firstn nd0 diff0) = nd0) by (rewrite firstn_length; nlia).
  assert (Lf1 : length (firstn nd1 diff1) = nd1) by (rewrite firstn_length; nlia).
  rewrite split_at_ok by nlia. cbn [bind].
  rewrite prefix_ok by nlia. cbn [bind]. rewrite prefix_ok by nlia. cbn [bind].
  replace (length (firstn (2 * s) work)) with (2 * s)%nat by (rewrite firstn_length; nlia).
  assert (Dnw : digs (skipn (2 * s) work)) by (apply below_skipn, Dw).
  assert (Lnw : (calc_karatsuba_work_size s <= length (skipn (2 * s) work))%nat) by (rewrite skipn_length; nlia).
  eapply spec_bind.
  { apply Hrec; auto.
    - apply below_firstn, Dd0.
    - apply below_firstn, Dd1.
    - apply below_zeros; auto.
    - rewrite Lf0, Lf1. nlia.
    - intros _ _. rewrite zeros_length. nlia.
    - etransitivity; [|exact Lnw]. apply Hneed; nlia. }
  intros [[z1 nw] nz1] Hp1.
  assert (B1 : buf z1 nz1 (val (firstn nd0 diff0) * val (firstn nd1 diff1))).
  { eapply mpost_zero; [| |exact Hp1|apply value_zeros]; [apply below_zeros; auto|intros _ _; rewrite zeros_length; nlia]. }
  destruct Hp1 as (Lz1 & Dz1 & Lnw1 & Dnw1 & Hz1 & _ & _ & Nz1 & _).
  rewrite Vd0, Vd1 in B1. rewrite zeros_length in Lz1.
  rewrite fill_zero_ok by (rewrite ?app_length; nlia). cbn [bind].
  rewrite firstn_O, Nat.sub_0_r. cbn [app].
  set (n := (n0 + n1)%nat) in *.
  assert (Htail : skipn n (diff0 ++ diff1) = skipn n result).
  { rewrite skipn_app_ge by nlia. rewrite Ld0.
    rewrite (skipn_more M1 (n - s) diff1 (skipn s result)) by (auto; nlia).
    rewrite skipn_skipn. f_equal. nlia. }
  rewrite Htail. set (tail := skipn n result) in *.
  assert (Lt : length tail = (length result - n)%nat) by (unfold tail; rewrite skipn_length; nlia).
  assert (Dt : digs tail) by (apply below_skipn, Dr).
  rewrite split_at_ok by (rewrite app_length, zeros_length; nlia). cbn [bind].
  rewrite firstn_app_le by (rewrite zeros_length; nlia). rewrite skipn_app_le by (rewrite zeros_length; nlia).
  replace (firstn (2 * s) (zeros n)) with (zeros (2 * s)).
  2:{ unfold zeros. replace n with (2 * s + (n - 2 * s))%nat by nlia. rewrite repeat_app, firstn_exact by apply repeat_length; reflexivity. }
  replace (skipn (2 * s) (zeros n)) with (zeros (n - 2 * s)).
  2:{ unfold zeros. replace n with (2 * s + (n - 2 * s))%nat at 2 by nlia. rewrite repeat_app, skipn_exact by apply repeat_length; reflexivity. }
  (* z0 *)
  eapply spec_bind.
  { apply Hrec; auto.
    - apply below_zeros; auto.
    - nlia.
    - intros Ht. destruct (Nh0 Ht) as (NN0 & NN1 & Hs20). right; right. conj; auto; nlia.
    - intros _ _. rewrite zeros_length. nlia.
    - rewrite Lnw1. etransitivity; [|exact Lnw]. apply Hneed; nlia. }
  intros [[z0 nw2] nz0] Hp0.
  assert (B0 : buf z0 nz0 (val low0 * val low1)).
  { eapply mpost_zero; [| |exact Hp0|apply value_zeros]; [apply below_zeros; auto|intros _ _; rewrite zeros_length; nlia]. }
  destruct Hp0 as (Lz0 & Dz0 & Lnw2 & Dnw2 & Hz0 & _ & _ & Nz0 & _). rewrite zeros_length in Lz0.
  (* z2 *)
  assert (Dz2i : digs (zeros (n - 2 * s) ++ tail)) by (apply below_app; split; [apply below_zeros; auto|assumption]).
  assert (Hfull : high0 <> [] -> high1 <> [] -> (length high0 + length high1 = n - 2 * s)%nat).
  { intros A0 A1. assert ((length high0 <> 0)%nat) by (destruct high0; [congruence|discriminate]).
    assert ((length high1 <> 0)%nat) by (destruct high1; [congruence|discriminate]). nlia. }
  eapply spec_bind.
  { apply (Hrec high0 high1 (zeros (n - 2 * s) ++ tail) nw2); auto.
    - nlia.
    - intros Ht. destruct (Nh0 Ht) as (NN0 & NN1 & Hs20). right; right. conj; auto; nlia.
    - intros A0 A1. rewrite Hfull by assumption. rewrite app_length, zeros_length. nlia.
    - rewrite Lnw2, Lnw1. etransitivity; [|exact Lnw]. apply Hneed; nlia. }
  intros [[z2 nw3] nz2] (Lz2 & Dz2 & Lnw3 & Dnw3 & Hz2 & Hz2' & Vz2 & Nz2 & He2 & Hne2).
  rewrite app_length, zeros_length, Lt in Lz2, Hz2'.
  assert (H2 : exists U, 0 <= U /\ val z2 = val high0 * val high1 + p (n - 2 * s) * U /\ (val tail = 0 -> U = 0)).
  { assert (Hcase : (high0 = [] \/ high1 = []) \/ (high0 <> [] /\ high1 <> [])).
    { destruct high0, high1; auto. right. split; discriminate. }
    destruct Hcase as [Hcase|[A0 A1]].
    - destruct (He2 Hcase) as [-> _]. exists (val tail). conj; [apply value_nonneg; auto| |auto].
      rewrite value_app, value_zeros, zeros_length.
      destruct Hcase as [-> | ->]; cbn [value]; lia.
    - destruct (Hne2 A0 A1) as (U & HU & V & Hz). rewrite (Hfull A0 A1) in *. exists U. conj; auto.
      intros Ht. apply Hz. rewrite skipn_exact by apply zeros_length. assumption. }
  destruct H2 as (U & HU & Vz2b & HUz).
  pose proof (value_bound B HB z2 Dz2) as Hbz2.
  assert (Pl : p (length z2) = p (n - 2 * s) * p (length result - n)).
  { rewrite <- pw_add. f_equal. nlia. }
  pose proof (product_bound nr0 nr1 D0 D1) as HXY. fold n0 n1 in HXY. fold n in HXY.
  pose proof (value_nonneg B HB _ Dl0). pose proof (value_nonneg B HB _ Dl1).
  pose proof (value_nonneg B HB _ Dh0). pose proof (value_nonneg B HB _ Dh1).
  assert (0 < p (n - 2 * s)) by (apply pw_pos; auto).
  assert (HZ2 : 0 <= val high0 * val high1) by (apply Z.mul_nonneg_nonneg; assumption).
  tstep (combine_ok (xorb sg0 sg1) s n (z0 ++ z2) z1 nz0 nz1 nz2 (val low0) (val low1) (val high0) (val high1) U
           (Z.abs (val low0 - val high0) * Z.abs (val low1 - val high1))); auto.
  - apply below_app. auto.
  - rewrite app_length. nlia.
  - nlia.
  - nlia.
  - nlia.
  - rewrite app_length. nlia.
  - rewrite firstn_app_le by nlia. apply (buf_first B D OK _ _ _ B0).
  - rewrite firstn_app_le by nlia. assumption.
  - rewrite skipn_exact by nlia. assumption.
  - rewrite skipn_exact by nlia. assumption.
  - destruct B0 as (_ & _ & Vb & _). rewrite value_app, Vb, Vz2b, Lz0.
    replace (p n) with (p (2 * s) * p (n - 2 * s)) by (rewrite <- pw_add; f_equal; nlia). ring.
  - split; [assumption|]. rewrite app_length, Lz0, Lz2.
    replace (2 * s + (n - 2 * s + (length result - n)) - n)%nat with (length result - n)%nat by nlia.
    rewrite Pl in Hbz2. clear - Hbz2 Vz2b HZ2 H3. nia.
  - apply (abs_prod sg0 sg1); auto.
  - apply (abs_prod sg0 sg1); auto.
  - rewrite <- E0, <- E1. apply HXY.
  - rewrite <- E0, <- E1. intros [[r z1'] nres] (Lr & Drr & Lz' & Dz' & Hres & Vr & Vn & Nn). ret.
    rewrite app_length in Lr. unfold mpost. fold n0 n1. fold n. conj; auto; try nlia.
    + rewrite app_length, Lnw3, Lnw2, Lnw1, skipn_length. nlia.
    + apply below_app. auto.
    + intros [E|E]; exfalso; [assert (n0 = 0%nat) by (unfold n0; rewrite E; reflexivity)
        |assert (n1 = 0%nat) by (unfold n1; rewrite E; reflexivity)]; nlia.
    + intros _ _. exists U. conj; auto.
Qed.

(** ** Squaring *)

(** Toom-3 squaring does not clear its buffers; this is what it needs of them. *)
Definition sqpre (n : nat) (prod work : digits) : Prop :=
  (n < 128)%nat \/ (val prod = 0 /\ ((n <= 378)%nat \/ ((n <= 1131)%nat /\ val work = 0))).

Definition srec_ok (tot : bool) (N : nat) (rec : square_fn) : Prop := forall x prod work,
  digs x -> digs prod -> digs work -> (length x < N)%nat ->
  good tot x x -> (2 * length x <= length prod)%nat ->
  (need (length x) (length x) <= length work)%nat -> sqpre (length x) prod work ->
  spec (allowed tot) (rec x prod work) (mpost x x prod work).

Lemma skara_ok tot rec nr0 result work :
  let n0 := length nr0 in
  (20 <= n0)%nat -> (n0 < 128)%nat ->
  srec_ok tot n0 rec -> good tot nr0 nr0 ->
  digs nr0 -> digs result -> digs work ->
  (2 * n0 <= length result)%nat -> (calc_karatsuba_work_size n0 <= length work)%nat ->
  spec (allowed tot) (square_karatsuba_into D rec nr0 result work) (mpost nr0 nr0 result work).
Proof.
  intros n0 Hc0 Hmin Hrec Hgood D0 Dr Dw HL HW.
  unfold square_karatsuba_into. fold n0.
  tstep total_guard; [apply Nat.leb_le; lia|]. intros _ _.
  tstep total_guard; [apply Nat.leb_le; lia|]. intros _ _.
  set (s := Nat.div2 (n0 + 1)) in *. pose proof (split_bounds n0) as Hs. fold s in Hs.
  pose proof (k_step n0 ltac:(lia)) as Hk. fold s in Hk. rewrite Hk in HW.
  assert (Hneed : forall a, (a <= s)%nat -> (need a a <= calc_karatsuba_work_size s)%nat).
  { intros a ?. apply need_le_k; lia. }
  assert (Hgs : tot = true -> (s <= 20)%nat).
  { intros Ht. destruct (Hgood Ht) as [?|[?|(? & ? & ? & ?)]]; unfold n0 in *; lia. }
  clear Hk. clearbody s.
  tstep (drop_val B); [unfold n0 in *; nlia|]. intros nlow0 (Hl0 & Vl0 & Nl0).
  rewrite prefix_ok by (unfold n0 in *; nlia). cbn [bind].
  rewrite suffix_ok by (unfold n0 in *; nlia). cbn [bind].
  pose proof (value_split B s nr0 ltac:(unfold n0 in *; nlia)) as E0.
  set (low0 := firstn nlow0 nr0) in *. set (high0 := skipn s nr0) in *.
  assert (Ll0 : length low0 = nlow0) by (unfold low0; rewrite firstn_length; fold n0; nlia).
  assert (Lh0 : length high0 = (n0 - s)%nat) by (unfold high0; rewrite skipn_length; fold n0; nlia).
  assert (Dl0 : digs low0) by (apply below_firstn, D0).
  assert (Dh0 : digs high0) by (apply below_skipn, D0).
  assert (Nh0 : tot = true -> normal high0 /\ (s <= 20)%nat).
  { intros Ht. destruct (Hgood Ht) as [?|[?|(N0 & N1 & ? & ?)]]; [unfold n0 in Hc0; lia|unfold n0 in Hc0; lia|].
    split; [apply normal_skipn, N0|auto]. }
  rewrite <- Vl0 in E0. clear Vl0. clearbody low0 high0.
  eapply spec_bind.
  { eapply spec_weaken; [apply (abs_into B D OK low0 high0); auto; nlia| |intros a Ha; exact Ha].
    intros w [-> Hw]. split; [|left; reflexivity]. destruct tot; [|reflexivity].
    destruct (Nh0 eq_refl) as (? & _). contradiction. }
  cbn beta zeta. intros [diff0 (sg0 & nd0)] (Ld0 & Dd0 & Sk0 & Hnd0 & Vd0 & _ & Sg0 & Sg0' & Nd0).
  assert (Hgd : good tot (firstn nd0 diff0) (firstn nd0 diff0)).
  { intros Ht. destruct (Nh0 Ht) as (NN0 & Hs20). rewrite !firstn_length.
    destruct (Nd0 NN0) as [?|?]; [left; lia|].
    right; right. conj; auto; lia. }
  assert (Hd0s : (nd0 <= s)%nat) by nlia.
  assert (HM1 : (Nat.max (length low0) (length high0) <= s)%nat) by nlia.
  clear Hnd0 Nd0.
  set (M1 := Nat.max (length low0) (length high0)) in *. clearbody M1.
  assert (Lf0 : length (firstn nd0 diff0) = nd0) by (rewrite firstn_length; nlia).
  rewrite split_at_ok by nlia. cbn [bind].
  rewrite prefix_ok by nlia. cbn [bind].
  replace (length (firstn (2 * s) work)) with (2 * s)%nat by (rewrite firstn_length; nlia).
  assert (Dnw : digs (skipn (2 * s) work)) by (apply below_skipn, Dw).
  assert (Lnw : (calc_karatsuba_work_size s <= length (skipn (2 * s) work))%nat) by (rewrite skipn_length; nlia).
  eapply spec_bind.
  { apply Hrec; auto.
    - apply below_firstn, Dd0.
    - apply below_zeros; auto.
    - rewrite Lf0. nlia.
    - rewrite zeros_length. nlia.
    - etransitivity; [|exact Lnw]. apply Hneed; nlia.
    - left. nlia. }
  intros [[z1 nw] nz1] Hp1.
  assert (B1 : buf z1 nz1 (val (firstn nd0 diff0) * val (firstn nd0 diff0))).
  { eapply mpost_zero; [| |exact Hp1|apply value_zeros]; [apply below_zeros; auto|intros _ _; rewrite zeros_length; nlia]. }
  destruct Hp1 as (Lz1 & Dz1 & Lnw1 & Dnw1 & Hz1 & _ & _ & Nz1 & _).
  rewrite Vd0 in B1. rewrite zeros_length in Lz1.
  rewrite fill_zero_ok by nlia. cbn [bind].
  rewrite firstn_O, Nat.sub_0_r. cbn [app].
  set (n := (2 * n0)%nat) in *.
  assert (Htail : skipn n diff0 = skipn n result) by (apply (skipn_more M1); auto; nlia).
  rewrite Htail. set (tail := skipn n result) in *.
  assert (Lt : length tail = (length result - n)%nat) by (unfold tail; rewrite skipn_length; nlia).
  assert (Dt : digs tail) by (apply below_skipn, Dr).
  rewrite split_at_ok by (rewrite app_length, zeros_length; nlia). cbn [bind].
  rewrite firstn_app_le by (rewrite zeros_length; nlia). rewrite skipn_app_le by (rewrite zeros_length; nlia).
  replace (firstn (2 * s) (zeros n)) with (zeros (2 * s)).
  2:{ unfold zeros. replace n with (2 * s + (n - 2 * s))%nat by nlia. rewrite repeat_app, firstn_exact by apply repeat_length; reflexivity. }
  replace (skipn (2 * s) (zeros n)) with (zeros (n - 2 * s)).
  2:{ unfold zeros. replace n with (2 * s + (n - 2 * s))%nat at 2 by nlia. rewrite repeat_app, skipn_exact by apply repeat_length; reflexivity. }
  eapply spec_bind.
  { apply Hrec; auto.
    - apply below_zeros; auto.
    - nlia.
    - intros Ht. destruct (Nh0 Ht) as (NN0 & Hs20). right; right. conj; auto; nlia.
    - rewrite zeros_length. nlia.
    - rewrite Lnw1. etransitivity; [|exact Lnw]. apply Hneed; nlia.
    - left. nlia. }
  intros [[z0 nw2] nz0] Hp0.
  assert (B0 : buf z0 nz0 (val low0 * val low0)).
  { eapply mpost_zero; [| |exact Hp0|apply value_zeros]; [apply below_zeros; auto|intros _ _; rewrite zeros_length; nlia]. }
  destruct Hp0 as (Lz0 & Dz0 & Lnw2 & Dnw2 & Hz0 & _ & _ & Nz0 & _). rewrite zeros_length in Lz0.
  assert (Dz2i : digs (zeros (n - 2 * s) ++ tail)) by (apply below_app; split; [apply below_zeros; auto|assumption]).
  assert (Hfull : (length high0 + length high0 = n - 2 * s)%nat) by nlia.
  eapply spec_bind.
  { apply (Hrec high0 (zeros (n - 2 * s) ++ tail) nw2); auto.
    - nlia.
    - intros Ht. destruct (Nh0 Ht) as (NN0 & Hs20). right; right. conj; auto; nlia.
    - rewrite app_length, zeros_length. nlia.
    - rewrite Lnw2, Lnw1. etransitivity; [|exact Lnw]. apply Hneed; nlia.
    - left. nlia. }
  intros [[z2 nw3] nz2] (Lz2 & Dz2 & Lnw3 & Dnw3 & Hz2 & Hz2' & Vz2 & Nz2 & He2 & Hne2).
  rewrite app_length, zeros_length, Lt in Lz2, Hz2'.
  assert (A0 : high0 <> []) by (intros E; apply (f_equal (@length Z)) in E; cbn in E; nlia).
  assert (H2 : exists U, 0 <= U /\ val z2 = val high0 * val high0 + p (n - 2 * s) * U /\ (val tail = 0 -> U = 0)).
  { destruct (Hne2 A0 A0) as (U & HU & V & Hz). rewrite Hfull in *. exists U. conj; auto.
    intros Ht. apply Hz. rewrite skipn_exact by apply zeros_length. assumption. }
  destruct H2 as (U & HU & Vz2b & HUz).
  pose proof (value_bound B HB z2 Dz2) as Hbz2.
  assert (Pl : p (length z2) = p (n - 2 * s) * p (length result - n)).
  { rewrite <- pw_add. f_equal. nlia. }
  pose proof (product_bound nr0 nr0 D0 D0) as HXY. fold n0 in HXY.
  replace (n0 + n0)%nat with n in HXY by (unfold n; nlia).
  pose proof (value_nonneg B HB _ Dl0). pose proof (value_nonneg B HB _ Dh0).
  assert (H3 : 0 < p (n - 2 * s)) by (apply pw_pos; auto).
  assert (HZ2 : 0 <= val high0 * val high0) by (apply Z.mul_nonneg_nonneg; assumption).
  destruct (abs_prod sg0 sg0 (val low0) (val high0) (val low0) (val high0)) as [Hab1 Hab2]; auto.
  rewrite xorb_nilpotent in Hab1, Hab2.
  tstep (combine_ok false s n (z0 ++ z2) z1 nz0 nz1 nz2 (val low0) (val low0) (val high0) (val high0) U
           (Z.abs (val low0 - val high0) * Z.abs (val low0 - val high0))); auto.
  - apply below_app. auto.
  - rewrite app_length. nlia.
  - nlia.
  - nlia.
  - nlia.
  - rewrite app_length. nlia.
  - rewrite firstn_app_le by nlia. apply (buf_first B D OK _ _ _ B0).
  - rewrite firstn_app_le by nlia. assumption.
  - rewrite skipn_exact by nlia. assumption.
  - rewrite skipn_exact by nlia. assumption.
  - destruct B0 as (_ & _ & Vb & _). rewrite value_app, Vb, Vz2b, Lz0.
    replace (p n) with (p (2 * s) * p (n - 2 * s)) by (rewrite <- pw_add; f_equal; nlia). ring.
  - split; [assumption|]. rewrite app_length, Lz0, Lz2.
    replace (2 * s + (n - 2 * s + (length result - n)) - n)%nat with (length result - n)%nat by nlia.
    rewrite Pl in Hbz2. clear - Hbz2 Vz2b HZ2 H3. nia.
  - rewrite <- E0. apply HXY.
  - rewrite <- E0. intros [[r z1'] nres] (Lr & Drr & Lz' & Dz' & Hres & Vr & Vn & Nn). ret.
    rewrite app_length in Lr. unfold mpost. fold n0.
    replace (n0 + n0)%nat with n by (unfold n; nlia). conj; auto; try nlia.
    + rewrite app_length, Lnw3, Lnw2, Lnw1, skipn_length. nlia.
    + apply below_app. auto.
    + intros [E|E]; exfalso; assert (n0 = 0%nat) by (unfold n0; rewrite E; reflexivity); nlia.
    + intros _ _. exists U. conj; auto.
Qed.
End KaratsubaProof.
