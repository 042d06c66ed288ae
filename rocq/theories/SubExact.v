(** * SubExact: exactly when a difference comes out unnormalised. *)
From Coq Require Import ZArith List Bool Lia.
From Verif Require Import Base Digit Slice Mul Div UBig Spec Hoare DigitOK ListLemmas Gives SliceProof
  MulProof UBigProof DivProof TypedProof Cases ClaimsBasic DivTie.
Import ListNotations.
Open Scope Z_scope.
Open Scope m_scope.

Section Len.
Variables (B : Z) (D : digit).
Hypothesis OK : digit_ok B D.
Notation val := (value B).
Notation digs := (below B).
Notation p n := (pw B n).
Let HB : 1 < B := SliceProof.HB B D OK.

(** When [x] reaches above [y], at least as many digits as [y] has are kept. *)
Lemma sub_big_len x y : digs x -> digs y ->
  gives (sub_assign_big D x y) (fun '(r, res) => length r = length x /\
    match res with ROk n => 1 <= val (skipn (length y) x) -> (length y <= n)%nat | RErr _ => True end).
Proof.
  intros Hx Hy. unfold sub_assign_big.
  destruct (Nat.ltb_spec (length x) (length y)) as [HL|HL]; [apply gives_ret; auto|].
  eapply gives_bind; [apply gives_total, (sub_zip_ok B D OK); auto|].
  intros [r c] (Lr & Dr & Hs & _). destruct c.
  - eapply gives_bind; [apply (gives_and _ (fun '(r', _) => length r' = length r) (fun _ => True))|].
    + apply gives_total. eapply (spec_with_suffix never); [lia|apply (dec_assign_ok B D OK), below_skipn, Dr|].
      intros s a (A1 & _). len.
    + intros a _. exact I.
    + intros [r' [n|e]] [L _]; apply gives_ret; (split; [congruence|auto]). intros _. lia.
  - eapply gives_bind; [apply gives_total, (drop_val B); lia|].
    intros n H. apply gives_ret. split; [exact Lr|]. intros H1.
    pose proof (value_split B (length y) r ltac:(lia)) as V. rewrite Hs in V.
    pose proof (value_bound B HB _ (below_firstn B (length y) r Dr)) as Hb.
    pose proof (value_bound B HB _ (below_firstn B n r Dr)) as Hn.
    destruct (Nat.le_gt_cases (length y) n) as [|Hlt]; [assumption|exfalso].
    destruct H as (Hn1 & Hn2 & _).
    rewrite firstn_all2 with (n := length x) in Hn2 by lia.
    pose proof (pw_pos B (length y) HB) as Hp.
    assert (Hle : pw B n <= pw B (length y)) by (apply pw_le; [exact HB|lia]).
    rewrite firstn_length, Nat.min_l in Hn by lia. nia.
Qed.

Lemma sub_len x y : digs x -> digs y -> 1 <= val (skipn (length y) x) ->
  gives (sub_assign D x y) (fun r => (length y <= length r)%nat).
Proof.
  intros Hx Hy H1. unfold sub_assign, sub_assign_big_at_offset. cbn [Nat.ltb Nat.leb].
  assert (HL : (length y <= length x)%nat).
  { destruct (Nat.le_gt_cases (length y) (length x)) as [|H]; [assumption|].
    rewrite skipn_all2 in H1 by lia. cbn in H1. lia. }
  eapply gives_bind.
  - eapply gives_bind.
    + apply (gives_post _ (fun '(r, res) => length r = length x /\
        match res with ROk n => (length y <= n)%nat | RErr _ => True end)).
      * unfold with_suffix. rewrite with_slice_eq by lia. cbn [skipn firstn app].
        rewrite Nat.sub_0_r, firstn_all.
        eapply gives_bind; [apply sub_big_len; auto|]. intros [r res] [L H]. apply gives_ret.
        rewrite skipn_all, app_nil_r. split; [exact L|]. destruct res; auto.
      * intros a H. exact H.
    + intros [r [n|e]] [L H]; apply gives_ret.
      * instantiate (1 := fun '(r, res) => match res with ROk _ => (length y <= length r)%nat | RErr _ => True end).
        cbn. unfold truncate. len.
      * exact I.
  - intros [r [n|e]] H; cbn; [apply gives_ret; exact H|apply gives_panic].
Qed.
End Len.

Lemma sub_normal_iff_claim dbg t x y r : well_formed t x -> well_formed t y ->
  sub_assign (impl dbg t) x y = Ret r ->
  (normal r <-> ~ (num t (skipn (length y) x) = 1 /\ num t r < radix t ^ (Z.of_nat (length y) - 1))).
Proof.
  intros Wx Wy E. split; [|apply (sub_normal_claim dbg t x y r); auto].
  intros Hn [H1 H2]. pose proof (radix_gt t) as HB.
  destruct (spec_returns _ _ _ _ (sub_assign_ok _ _ (impl_ok dbg t) x y (proj1 Wx) (proj1 Wy) (proj2 Wy)) E)
    as (A1 & A2 & _).
  assert (HL : (length y <= length r)%nat).
  { apply (sub_len _ _ (impl_ok dbg t) x y (proj1 Wx) (proj1 Wy)); [|exact E].
    unfold num in H1. rewrite H1. lia. }
  pose proof (value_nonneg _ HB r A1) as Hr0.
  destruct y as [|d y].
  - cbn [length] in H2. change (Z.of_nat 0 - 1) with (-1) in H2. rewrite Z.pow_neg_r in H2 by lia.
    unfold num in H2. lia.
  - assert (Hne : r <> []) by (intros ->; cbn in HL; lia).
    pose proof (normal_lower (radix t) HB r A1 Hn Hne) as Hl. unfold pw in Hl.
    apply (Z.lt_irrefl (num t r)). eapply Z.lt_le_trans; [exact H2|].
    eapply Z.le_trans; [|exact Hl]. apply Z.pow_le_mono_r; [lia|]. cbn [length] in *. lia.
Qed.

(** ** A decimal [n] of two digits: the second step forgets the lowest digit when it
    counts how many digits remain, so the top digit of the difference is cut off. *)
Section Pair.
Variable dbg : bool.
Variable t : dty.
Hypothesis Hb : is_binary t = false.
Notation B := (radix t).
Notation D := (impl dbg t).
Notation val := (value B).
Notation digs := (below B).
Let OK : digit_ok B D := impl_ok dbg t.
Let HB : 1 < B := radix_gt t.

Definition cut_top (d r : Z) : Prop :=
  (d < B -> r = d) /\ forall k, 1 <= k -> B ^ k <= d < B ^ (k + 1) -> r = d mod B ^ k.

Lemma pow_between d j k : 0 <= j -> 0 <= k -> B ^ j <= d < B ^ (j + 1) -> B ^ k <= d < B ^ (k + 1) -> j = k.
Proof.
  intros Hj Hk H1 H2.
  assert (forall a b, 0 <= a -> a < b -> B ^ (a + 1) <= B ^ b) as Hm
    by (intros; apply Z.pow_le_mono_r; lia).
  destruct (Z.lt_trichotomy j k) as [H|[H|H]]; [|exact H|].
  - specialize (Hm j k Hj H). lia.
  - specialize (Hm k j Hk H). lia.
Qed.

(** the second step, on a number [r'] with at least one digit *)
Lemma second_ok r' h : digs r' -> (1 <= length r')%nat -> ((2 <= length r')%nat -> normal r') -> 0 < h < B ->
  spec (fun w => w = PExplicit Underflow /\ val r' < B * h)
    ('(s, r) <- with_suffix r' 1 (fun s => sub_assign_digit D s h) ;;
     nd <- or_panic r ;; Ret (truncate nd s))
    (fun r => digs r /\ B * h <= val r' /\ cut_top (val r' - B * h) (val r)).
Proof.
  intros Hr HL HN Hh. destruct r' as [|d s]; [cbn in HL; lia|]. clear HL.
  apply below_cons in Hr. destruct Hr as [Hd Hs].
  assert (Ns : normal s).
  { destruct s as [|e s]; [apply normal_nil|]. apply (normal_skipn 1 (d :: e :: s)). apply HN. cbn. lia. }
  eapply spec_bind.
  { apply total_spec. eapply (spec_with_suffix never); [cbn; lia| |].
    - cbn [skipn]. apply (sub_assign_digit_ok B D OK); [exact Hs|lia].
    - intros s' a HR. cbn [firstn app].
      instantiate (1 := fun '(l, a) => exists s', l = d :: s' /\ length s' = length s /\ digs s' /\
        match a with
        | ROk n => val s' = val s - h /\ (1 <= n <= length s)%nat /\ val (firstn n s') = val s'
                   /\ (0 < val s' -> normal (firstn n s'))
        | RErr e => e = Underflow /\ val s < h
        end).
      exists s'. destruct HR as (L & Ds & HR). conj; auto. destruct a as [n|e]; [|exact HR].
      destruct HR as (V & Hn & Vn & H1 & N1). conj; auto. lia. }
  intros [l [n|e]] (s' & -> & Ls & Ds & H); cbn [or_panic bind].
  - destruct H as (V & Hn & Vn & Nn). ret.
    destruct n as [|n]; [lia|]. unfold truncate. cbn [firstn value].
    pose proof (value_nonneg B HB _ Ds) as Hs0.
    pose proof (value_nonneg B HB _ Hs) as Hs1.
    assert (Ev : d + B * val s - B * h = d + B * val s') by (rewrite V; ring). rewrite Ev.
    assert (Vf : val (firstn (S n) s') = val (firstn n s') + pw B n * nth n s' 0).
    { rewrite (value_split B n (firstn (S n) s')) by len.
      rewrite firstn_firstn, Nat.min_l by lia. f_equal. f_equal.
      rewrite skipn_firstn_comm. replace (S n - n)%nat with 1%nat by lia.
      replace (nth n s' 0) with (nth 0 (skipn n s') 0) by (rewrite nth_skipn_add; f_equal; lia). destruct (skipn n s') as [|a q] eqn:E.
      - apply (f_equal (@length Z)) in E. rewrite skipn_length in E. cbn in E. lia.
      - cbn. ring. }
    assert (Df : digs (firstn n s')) by (apply below_firstn, Ds).
    pose proof (value_bound B HB _ Df) as Hbf. rewrite firstn_length, Nat.min_l in Hbf by lia.
    assert (Hnth : 0 <= nth n s' 0 < B) by (apply (below_nth B s' n); [exact Ds|apply nth_error_nth'; lia]).
    assert (Hf0 : val s' = 0 -> val (firstn n s') = 0).
    { intros E. pose proof (pw_pos B n HB). nia. }
    conj.
    + apply below_cons. auto.
    + nia.
    + split.
      * intros Hlt. assert (val s' = 0) as E0 by nia. rewrite (Hf0 E0), E0. ring.
      * intros k Hk HK. assert (0 < val s').
        { destruct (Z.eq_dec (val s') 0) as [E0|]; [|lia]. rewrite E0 in HK.
          assert (B ^ 1 <= B ^ k) by (apply Z.pow_le_mono_r; lia). rewrite Z.pow_1_r in H. lia. }
        pose proof (normal_lower B HB _ (below_firstn B (S n) s' Ds) (Nn H)) as Hlow.
        rewrite firstn_length, Nat.min_l in Hlow by lia.
        assert (Hne : firstn (S n) s' <> []).
        { destruct s'; [cbn in Ls; lia|discriminate]. }
        specialize (Hlow Hne). replace (S n - 1)%nat with n in Hlow by lia.
        pose proof (value_bound B HB _ (below_firstn B (S n) s' Ds)) as Hup.
        rewrite firstn_length, Nat.min_l in Hup by lia. rewrite Vn in Hlow, Hup.
        assert (k = Z.of_nat n + 1) as ->.
        { apply (pow_between (d + B * val s')); [lia|lia|exact HK|].
          unfold pw in Hlow, Hup. rewrite Nat2Z.inj_succ in Hup. unfold Z.succ in Hup.
          rewrite !Z.pow_add_r in * by lia. rewrite Z.pow_1_r in *. nia. }
        rewrite <- Vn, Vf. change (B ^ (Z.of_nat n + 1)) with (B ^ (Z.succ (Z.of_nat n))).
        rewrite Z.pow_succ_r by lia. fold (pw B n).
        replace (d + B * (val (firstn n s') + pw B n * nth n s' 0))
          with (d + B * val (firstn n s') + nth n s' 0 * (B * pw B n)) by ring.
        rewrite Z.mod_add by (pose proof (pw_pos B n HB); nia).
        symmetry. apply Z.mod_small. nia.
  - destruct H as [-> H]. split; [reflexivity|]. cbn [value]. nia.
Qed.

Lemma sub_pair_claim x n : well_formed t x -> storage t n -> B <= n ->
  (num t x < n -> sub_assign_T dbg t x n =
     Panic (if (Z.of_nat (length x) =? 0) && (n mod B =? 0) then PIndex else PExplicit Underflow))
  /\ (n <= num t x -> exists r, sub_assign_T dbg t x n = Ret r /\ valid t r
        /\ cut_top (num t x - n) (num t r)).
Proof.
  intros [Dx Nx] S Hn. unfold sub_assign_T. rewrite Hb.
  assert (Hf : fits_single t n = false).
  { unfold fits_single. rewrite radix_dec by assumption. apply Z.ltb_ge. exact Hn. }
  rewrite Hf. pose proof (storage_pair t n Hb S Hf) as H.
  assert (El : n mod B = snd (split_dec t n)) by (unfold split_dec; rewrite radix_dec by assumption; reflexivity).
  destruct (split_dec t n) as [h l]. cbn [snd] in El. destruct H as (Hh & Hl & En).
  assert (HS : x = [] /\ l = 0 \/ spec (fun w => w = PExplicit Underflow /\ num t x < n)
    (self <- sub_assign_d D x l ;;
     '(s, r) <- with_suffix self 1 (fun s => sub_assign_digit D s h) ;;
     nd <- or_panic r ;; Ret (truncate nd s))
    (fun r => digs r /\ n <= num t x /\ cut_top (num t x - n) (num t r))).
  { destruct (Z.eq_dec l 0) as [->|Hl0].
    - destruct x as [|d x]; [left; auto|right].
      assert (E : sub_assign_d D (d :: x) 0 = Ret (d :: x)).
      { unfold sub_assign_d, sub_assign_digit. rewrite Z.eqb_refl. cbn [bind or_panic].
        unfold truncate. rewrite firstn_all. reflexivity. }
      rewrite E. cbn [bind]. eapply spec_weaken; [apply (second_ok (d :: x) h); auto; cbn; lia| |].
      + intros w [-> H]. split; [reflexivity|]. unfold num. lia.
      + intros r (D1 & H1 & H2). unfold num. conj; [exact D1|lia|].
        replace (val (d :: x) - n) with (val (d :: x) - B * h) by lia. exact H2.
    - right. eapply spec_bind.
      + eapply spec_weaken; [apply (sub_assign_d_ok B D OK x l Dx Hl)| |intros r H; exact H].
        intros w [-> H]. split; [reflexivity|]. unfold num. nia.
      + intros r (D1 & V1 & N1 & L1).
        eapply spec_weaken; [apply (second_ok r h); auto| |].
        * intros w [-> H]. split; [reflexivity|]. unfold num. lia.
        * intros r' (D2 & H1 & H2). unfold num. conj; [exact D2|lia|].
          replace (val x - n) with (val r - B * h) by lia. exact H2. }
  destruct HS as [[-> ->]|HS].
  - split; [rewrite El; reflexivity|]. unfold num. cbn [value]. lia.
  - destruct (spec_exact _ _ _ _ HS) as [H1 H2]; [intros a (_ & H & _); lia|].
    split.
    + intros Hlt. rewrite (H1 Hlt).
      destruct ((Z.of_nat (length x) =? 0) && (n mod B =? 0)) eqn:E; [|reflexivity].
      apply andb_true_iff in E. destruct E as [E1 E2]. apply Z.eqb_eq in E1, E2.
      destruct x; [|cbn in E1; lia]. specialize (H1 Hlt). rewrite El in E2. rewrite E2 in H1. cbn in H1. discriminate H1.
    + intros Hle. destruct H2 as (r & E & Dr & _ & HC); [lia|]. exists r. auto.
Qed.
End Pair.

(** the same with the definition written out, and when the value is right *)
Lemma sub_pair_explicit_claim dbg t x n : is_binary t = false ->
  well_formed t x -> storage t n -> radix t <= n ->
  (num t x < n -> sub_assign_T dbg t x n =
     Panic (if (Z.of_nat (length x) =? 0) && (n mod radix t =? 0) then PIndex else PExplicit Underflow))
  /\ (n <= num t x -> exists r, sub_assign_T dbg t x n = Ret r /\ valid t r
        /\ (num t r = num t x - n <-> num t x - n < radix t)
        /\ (forall k, 1 <= k -> radix t ^ k <= num t x - n < radix t ^ (k + 1) ->
              num t r = (num t x - n) mod radix t ^ k)).
Proof.
  intros Hb W S Hn. destruct (sub_pair_claim dbg t Hb x n W S Hn) as [H1 H2].
  split; [exact H1|]. intros Hle. destruct (H2 Hle) as (r & E & V & C1 & C2).
  exists r. split; [exact E|]. split; [exact V|]. split; [|exact C2].
  split; [|exact C1]. intros Er. pose proof (radix_gt t) as HB.
  destruct (Z.lt_ge_cases (num t x - n) (radix t)) as [|Hge]; [assumption|exfalso].
  assert (Hex : exists k, 1 <= k /\ radix t ^ k <= num t x - n < radix t ^ (k + 1)).
  { assert (Hpos : forall m : nat, forall d, radix t <= d -> d < radix t ^ (1 + Z.of_nat m) ->
      exists k, 1 <= k /\ radix t ^ k <= d < radix t ^ (k + 1)).
    { induction m as [|m IH]; intros d Hd Hlt.
      - change (1 + Z.of_nat 0) with 1 in Hlt. rewrite Z.pow_1_r in Hlt. lia.
      - destruct (Z.lt_ge_cases d (radix t ^ (1 + Z.of_nat m))) as [Hl|Hl]; [exact (IH d Hd Hl)|].
        exists (1 + Z.of_nat m). split; [lia|]. split; [exact Hl|].
        replace (1 + Z.of_nat m + 1) with (1 + Z.of_nat (Datatypes.S m)) by lia. exact Hlt. }
    destruct (value_bound (radix t) HB x (proj1 W)) as [_ Hx].
    apply (Hpos (length x)); [exact Hge|]. unfold num, pw in *.
    eapply Z.le_lt_trans with (value (radix t) x); [lia|]. eapply Z.lt_le_trans; [exact Hx|].
    apply Z.pow_le_mono_r; lia. }
  destruct Hex as (j & Hj & HJ). specialize (C2 j Hj HJ).
  pose proof (Z.mod_pos_bound (num t x - n) (radix t ^ j) ltac:(lia)). lia.
Qed.
