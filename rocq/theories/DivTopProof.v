(** * DivTopProof: division of big numbers, divisors below the Burnikel-Ziegler cutoff. *)
From Coq Require Import ZArith List Bool Lia.
From Verif Require Import Base Digit Slice Mul Div UBig Spec Hoare DigitOK ListLemmas SliceProof
  MulProof UBigProof DivProof DivWide DivPairProof DivLongProof.
Import ListNotations.
Open Scope Z_scope.
Open Scope m_scope.

Lemma normal_len B l v k : 1 < B -> below B l -> normal l -> value B l = v -> v < pw B k ->
  (length l <= k)%nat.
Proof.
  intros HB Dl Nl V Hv. destruct l as [|d l]; [cbn; lia|].
  destruct (Nat.le_gt_cases (length (d :: l)) k) as [|Hgt]; [assumption|].
  pose proof (normal_lower B HB (d :: l) Dl Nl ltac:(discriminate)) as H.
  pose proof (pw_le B k (length (d :: l) - 1) HB ltac:(lia)). lia.
Qed.

Lemma num_lt_shorter a b : (length a < length b)%nat -> num_lt a b = true.
Proof. intros H. unfold num_lt, num_cmp. rewrite (proj2 (Nat.compare_lt_iff _ _) H). reflexivity. Qed.

Section DivTopProof.
Variables (B : Z) (D : digit) (sl : Z).
Hypothesis OK : digit_ok B D.
Hypothesis DV : digit_div B D sl.
Notation val := (value B).
Notation digs := (below B).
Notation p n := (pw B n).
Let HB : 1 < B := SliceProof.HB B D OK.

Lemma quot_len num den k : digs num -> digs den -> 0 < val den -> (k <= length num)%nat ->
  val (skipn k num) < val den -> val num / val den < p k.
Proof.
  intros Dn Dd Hd Hk H. apply Z.div_lt_upper_bound; [exact Hd|].
  rewrite (value_split B k num Hk). pose proof (value_bound B HB _ (below_firstn B k num Dn)) as Hb.
  rewrite firstn_length_le in Hb by exact Hk. pose proof (pw_pos B k HB).
  assert (p k * (val (skipn k num) + 1) <= p k * val den) by (apply Z.mul_le_mono_nonneg_l; lia).
  lia.
Qed.

(** what is left after copying a prefix *)
Lemma copy_prefix_ok dst src n : (n <= length src)%nat -> (n <= length dst)%nat ->
  copy_prefix dst src n = Ret (firstn n src ++ skipn n dst).
Proof.
  intros H1 H2. unfold copy_prefix. rewrite prefix_ok by exact H1. cbn [bind].
  rewrite copy_into_ok by len. cbn [firstn app]. reflexivity.
Qed.

Lemma skip_zero l n : digs l -> (n <= length l)%nat -> val l = 0 -> val (skipn n l) = 0.
Proof.
  intros Dl Hn Hz. pose proof (value_split B n l Hn) as V. rewrite Hz in V.
  pose proof (value_nonneg B HB _ (below_firstn B n l Dl)).
  pose proof (value_nonneg B HB _ (below_skipn B n l Dl)).
  pose proof (pw_pos B n HB).
  assert (0 <= p n * val (skipn n l)) by (apply Z.mul_nonneg_nonneg; lia).
  assert (p n * val (skipn n l) = 0) as E by lia. apply Z.mul_eq_0 in E. lia.
Qed.

(** the top digit and the value of a normal number *)
Lemma top_pos l : digs l -> normal l -> (1 <= length l)%nat -> 0 < nth (length l - 1) l 0 < B.
Proof.
  intros Dl Nl Hl. destruct (cut_last l Hl) as (a & x & E & La).
  assert (Ex : nth (length l - 1) l 0 = x).
  { rewrite <- La, E, app_nth2, Nat.sub_diag by lia. reflexivity. }
  rewrite Ex.
  rewrite E in Dl, Nl. apply below_app in Dl. rewrite below_cons in Dl. apply normal_snoc in Nl. lia.
Qed.

Definition long_guard (num den : digits) : Prop := let n := length den in
  (2 <= n <= length num)%nat ->
  divides_well B sl (val num) (val den) (nth (n - 1) den 0) n (length num - n).

Lemma div_gen_ok bz num den quot work : let n := length den in
  let k := (length num - n)%nat in
  (1 <= n < BZ_CUTOFF)%nat -> digs num -> digs den -> digs quot -> digs work ->
  (num_lt num den = true -> normal num) -> normal den -> ((3 <= n)%nat -> num_lt num den = false -> (S n <= length work)%nat) ->
  (k + 1 <= length quot \/ k <= length quot /\ num_lt (skipn k num) den = true)%nat ->
  long_guard num den ->
  spec (fun w => w = PIndex /\ length quot = k
          /\ opens B (val num) (val den) (nth (n - 1) den 0) n k)
    (div_big_with_work_gen D bz num den quot work)
    (fun '(s, r) => exists nn, r = ROk nn /\
       div_post B num quot work k (val num / val den) (val num mod val den) (s, nn)).
Proof.
  intros n k Hn Dn Dd Dq Dw Nn Nd Lw Hq HG.
  assert (Htop := top_pos den Dd Nd ltac:(fold n; lia)). fold n in Htop.
  assert (Hden : 0 < val den).
  { destruct (Z.eq_dec (val den) 0) as [E|]; [|pose proof (value_nonneg B HB den Dd); lia].
    apply (value_normal_zero B HB den Dd Nd) in E. unfold n in Hn. rewrite E in Hn. cbn in Hn. lia. }
  unfold div_big_with_work_gen. fold n k.
  destruct (Nat.eqb_spec n 0) as [|_]; [lia|].
  destruct (num_lt num den) eqn:Elt.
  { ret. eexists. split; [reflexivity|]. unfold div_post.
    pose proof (value_nonneg B HB num Dn).
    assert (Hv : val num < val den) by (apply (num_lt_true_value B HB num den); auto).
    rewrite Z.div_small, Z.mod_small by lia. rewrite firstn_all.
    conj; auto; try lia; try apply normal_nil. }
  assert (Hlen : (n <= length num)%nat) by (apply num_lt_false_len; exact Elt).
  assert (Eq1 : ((length quot <? k + 1)%nat
              && ((length quot <? k)%nat || negb (num_lt (skipn k num) den))) = false).
  { destruct Hq as [Hq|[Hq ->]].
    - destruct (Nat.ltb_spec (length quot) (k + 1)); [lia|reflexivity].
    - destruct (Nat.ltb_spec (length quot) k); [lia|]. apply andb_false_r. }
  rewrite Eq1. clear Eq1.
  assert (Hqn : forall q nq, (nq <= length q)%nat -> digs q -> val (firstn nq q) = val num / val den ->
            normal (firstn nq q) -> (nq <= S k)%nat /\ (nq <= length quot)%nat).
  { intros q nq Hl Dq' Vq Nq.
    assert (H1 : (nq <= S k)%nat).
    { replace nq with (length (firstn nq q)) by len.
      apply (normal_len B _ _ (S k) HB (below_firstn B nq q Dq') Nq Vq).
      apply quot_len; auto; [fold n; lia|].
      pose proof (normal_lower B HB den Dd Nd ltac:(intros E; unfold n in Hn; rewrite E in Hn; cbn in Hn; lia)) as Hlow.
      fold n in Hlow.
      pose proof (value_bound B HB _ (below_skipn B (S k) num Dn)) as Hb.
      replace (length (skipn (S k) num)) with (n - 1)%nat in Hb by (len; lia). lia. }
    split; [exact H1|]. destruct Hq as [Hq|[Hq Hlt]]; [lia|].
    replace nq with (length (firstn nq q)) by len.
    assert (length (firstn nq q) <= k)%nat; [|lia].
    apply (normal_len B _ _ k HB (below_firstn B nq q Dq') Nq Vq).
    apply quot_len; auto; [lia|]. apply (num_lt_true_value B HB); auto using below_skipn. }
  destruct (Nat.eqb_spec n 1) as [E1|N1].
  - destruct den as [|d0 [|]]; cbn [length] in *; unfold n in *; try lia. cbn [nth Nat.sub] in Htop.
    cbn [get nth_error bind].
    assert (Vd : val [d0] = d0) by (cbn [value]; lia).
    tstep (div_assign_digit_ok B D OK); [exact Dn|lia|].
    intros [q [[nq r]|e]]; [|lia].
    intros (_ & Lq & Dq' & Vq & Er & Hnq & Vnq & Nnq). rewrite <- Vd in Vq, Er.
    destruct (Hqn q nq) as [Hk1 Hk2]; [lia|exact Dq'|congruence|exact Nnq|].
    destruct (Nat.ltb_spec (length quot) nq); [lia|].
    rewrite copy_prefix_ok by lia. cbn [bind]. rewrite Lq.
    assert (Hr : 0 <= r < d0) by (rewrite Er, Vd; apply Z.mod_pos_bound; lia).
    assert (HP : forall num' nr, length num' = length num -> digs num' -> val num' = r ->
              (nr <= length num')%nat -> val (firstn nr num') = r -> normal (firstn nr num') ->
              div_post B num quot work k (val num / val [d0]) (val num mod val [d0])
                (num', firstn nq q ++ skipn nq quot, work, (nq, nr))).
    { intros num' nr L1 L2 L3 L4 L5 L6. unfold div_post. rewrite <- Er. conj; auto.
      - len.
      - apply below_app. split; [apply below_firstn|apply below_skipn]; assumption.
      - len.
      - rewrite firstn_exact by len. congruence.
      - rewrite firstn_exact by len. exact Nnq.
      - intros Hz. rewrite value_app, (skip_zero quot nq) by (auto; lia). rewrite Vnq. lia. }
    destruct (Z.eqb_spec r 0) as [Hr0|Hr0].
    + ret. eexists. split; [reflexivity|]. apply HP; try (len; fail).
      * apply below_zeros; lia.
      * rewrite value_zeros. lia.
      * cbn. lia.
      * apply normal_nil.
    + rewrite set_ok by (len; lia). cbn [bind]. ret. eexists. split; [reflexivity|].
      assert (Dsk : digs (skipn 1 (zeros (length num)))) by (apply below_skipn, below_zeros; lia).
      assert (Esk : val (skipn 1 (zeros (length num))) = 0).
      { apply skip_zero; [apply below_zeros; lia|len; lia|apply value_zeros]. }
      cbn [firstn app]. apply HP.
      * len.
      * apply below_cons. split; [lia|exact Dsk].
      * cbn [value]. rewrite Esk. lia.
      * cbn [length]. lia.
      * cbn [firstn value]. lia.
      * cbn [firstn]. apply normal_single. exact Hr0.
  - destruct (Nat.eqb_spec n 2) as [E2|N2].
    + destruct den as [|d0 [|d1 [|]]]; cbn [length] in *; unfold n in *; try lia.
      cbn [nth Nat.sub] in Htop. cbn [get nth_error bind].
      assert (Hd0 : 0 <= d0 < B) by (apply below_cons in Dd; tauto).
      assert (Vd : val [d0; d1] = d0 + B * d1) by (cbn [value]; lia).
      specialize (HG ltac:(cbn [length]; lia)). cbn [length nth Nat.sub] in HG.
      tstep (div_assign_digit_pair_ok B D sl OK DV); [exact Dn|exact Hd0|exact Htop| |].
      { rewrite <- Vd. exact HG. }
      rewrite <- Vd.
      intros [q res] (Lq & Dq' & Vq & nq & rl & rh & -> & Hrl & Hrh & Er & Hnq & Vnq & Nnq).
      destruct (Hqn q nq) as [Hk1 Hk2]; [lia|exact Dq'|congruence|exact Nnq|].
      destruct (Nat.ltb_spec (length quot) nq); [lia|].
      rewrite copy_prefix_ok by lia. cbn [bind]. rewrite Lq.
      assert (HP : forall num' nr, length num' = length num -> digs num' -> val num' = rl + B * rh ->
                (nr <= length num')%nat -> val (firstn nr num') = rl + B * rh ->
                normal (firstn nr num') ->
                div_post B num quot work k (val num / val [d0; d1]) (val num mod val [d0; d1])
                  (num', firstn nq q ++ skipn nq quot, work, (nq, nr))).
      { intros num' nr L1 L2 L3 L4 L5 L6. unfold div_post. rewrite <- Er. conj; auto.
        - len.
        - apply below_app. split; [apply below_firstn|apply below_skipn]; assumption.
        - len.
        - rewrite firstn_exact by len. congruence.
        - rewrite firstn_exact by len. exact Nnq.
        - intros Hz. rewrite value_app, (skip_zero quot nq) by (auto; lia). rewrite Vnq. lia. }
      assert (Dsk : forall i, digs (skipn i (zeros (length num)))) by (intros i; apply below_skipn, below_zeros; lia).
      assert (Esk : forall i, (i <= length num)%nat -> val (skipn i (zeros (length num))) = 0).
      { intros i Hi. apply skip_zero; [apply below_zeros; lia|len; lia|apply value_zeros]. }
      destruct (Z.eqb_spec rh 0) as [Hr0|Hr0]; [destruct (Z.eqb_spec rl 0) as [Hr1|Hr1]|].
      * ret. eexists. split; [reflexivity|]. apply HP; try (len; fail).
        -- apply below_zeros; lia.
        -- rewrite value_zeros. lia.
        -- cbn [firstn value]. lia.
        -- apply normal_nil.
      * rewrite set_ok by (len; lia). cbn [bind]. ret. eexists. split; [reflexivity|].
        cbn [firstn app]. apply HP.
        -- len.
        -- apply below_cons. split; [lia|apply Dsk].
        -- cbn [value]. rewrite Esk by lia. lia.
        -- cbn [length]. lia.
        -- cbn [firstn value]. lia.
        -- cbn [firstn]. apply normal_single. exact Hr1.
      * rewrite set_ok by (len; lia). cbn [bind firstn app].
        rewrite set_ok by (len; lia). cbn [bind firstn app]. rewrite skipn_cons, skipn_skipn. cbn [Nat.add].
        ret. eexists. split; [reflexivity|]. apply HP.
        -- len.
        -- apply below_cons. split; [lia|]. apply below_cons. split; [lia|apply Dsk].
        -- cbn [value]. rewrite Esk by lia. lia.
        -- cbn [length]. lia.
        -- cbn [firstn value]. lia.
        -- cbn [firstn]. apply (normal_snoc [rl] rh). exact Hr0.
    + destruct (Nat.ltb_spec n BZ_CUTOFF) as [_|]; [|lia].
      specialize (Lw ltac:(lia) eq_refl).
      tstep total_debug_work; [apply Nat.leb_le; unfold calc_div_long_work_size; lia|]. intros _ _.
      sstep (div_big_long_ok B D sl OK DV); auto; try (fold n; try fold k; lia).
      { apply HG. fold n. lia. }
      intros [s nn] H. ret. exists nn. auto.
Qed.

Lemma div_big_short_ok num den quot : let n := length den in
  let k := (length num - n)%nat in
  (1 <= n < BZ_CUTOFF)%nat -> digs num -> digs den -> digs quot ->
  (num_lt num den = true -> normal num) -> normal den -> (k + 1 <= length quot)%nat -> long_guard num den ->
  total (div_big D num den quot) (fun '(num', quot', r) => exists nq nr, r = ROk (nq, nr)
    /\ length num' = length num /\ digs num' /\ digs quot'
    /\ (nq <= length quot')%nat /\ val (firstn nq quot') = val num / val den
    /\ normal (firstn nq quot')
    /\ (nr <= length num')%nat /\ val (firstn nr num') = val num mod val den
    /\ normal (firstn nr num')).
Proof.
  intros n k Hn Dn Dd Dq Nn Nd Hq HG. unfold div_big, div_big_with_work. fold n.
  eapply total_bind.
  - eapply spec_weaken.
    + apply (div_gen_ok _ num den quot); auto; fold n; try fold k; try lia.
      * destruct ((n <=? 2)%nat || num_lt num den); [apply below_nil|].
        destruct (n <? BZ_CUTOFF)%nat; apply below_zeros; lia.
      * intros H3 ->. destruct (Nat.leb_spec n 2); [lia|]. cbn [orb].
        destruct (Nat.ltb_spec n BZ_CUTOFF); [len|lia].
    + intros w (_ & H & _). fold n k in H. lia.
    + intros a H. exact H.
  - cbv beta. intros [[[num' quot'] work'] r] ([nq nr] & -> & H).
    destruct H as (L1 & D1 & V1 & LQ & DQ & LW & DW & N1 & N2 & VQ & NQ & N3 & VR & NR & QZ).
    ret. exists nq, nr. conj; auto.
Qed.

(** ** UBig level *)

Lemma val_pos den : digs den -> normal den -> den <> [] -> 0 < val den.
Proof.
  intros Dd Nd Hne. pose proof (value_nonneg B HB den Dd).
  destruct (Z.eq_dec (val den) 0) as [E|]; [|lia].
  apply (value_normal_zero B HB den Dd Nd) in E. contradiction.
Qed.

Lemma div_assign_big_short_ok x y : digs x -> digs y -> (num_lt x y = true -> normal x) -> normal y -> y <> [] ->
  (length y < BZ_CUTOFF)%nat -> long_guard x y ->
  total (div_assign_big D x y) (fun '(q, res) => exists r, res = ROk r
    /\ digs q /\ normal q /\ digs r /\ normal r /\ val q = val x / val y /\ val r = val x mod val y).
Proof.
  intros Dx Dy Nx Ny Hy Hl HG. pose proof (val_pos y Dy Ny Hy) as Py.
  assert (L1 : (1 <= length y)%nat) by (destruct y; [congruence|cbn; lia]).
  unfold div_assign_big. destruct (Nat.ltb_spec (length x) (length y)) as [Hlt|Hge].
  - tstep (new_ok B); [exact Dx|]. intros r (R1 & R2 & R3). ret. exists r.
    assert (val x < val y) by (apply (value_length_lt B HB); auto).
    pose proof (value_nonneg B HB x Dx). rewrite Z.div_small, Z.mod_small by lia.
    conj; auto using below_nil, normal_nil.
  - tstep div_big_short_ok; auto; try lia; try (apply below_zeros; lia); [len|].
    intros [[num' quot'] r] (nq & nr & -> & L & D1 & D2 & H1 & H2 & H3 & H4 & H5 & H6).
    tstep (new_ok B); [apply below_firstn; exact D1|]. intros r (R1 & R2 & R3). ret. exists r.
    conj; auto; [apply below_firstn; exact D2|]. unfold truncate in R3. congruence.
Qed.

Lemma rem_assign_big_short_ok x y : digs x -> digs y -> (num_lt x y = true -> normal x) -> normal y -> y <> [] ->
  (length y < BZ_CUTOFF)%nat -> long_guard x y ->
  total (rem_assign_big D x y) (fun '(r, res) => res = ROk tt
    /\ digs r /\ normal r /\ val r = val x mod val y).
Proof.
  intros Dx Dy Nx Ny Hy Hl HG. pose proof (val_pos y Dy Ny Hy) as Py.
  assert (L1 : (1 <= length y)%nat) by (destruct y; [congruence|cbn; lia]).
  unfold rem_assign_big. destruct (Nat.leb_spec (length y) (length x)) as [Hge|Hlt].
  - tstep div_big_short_ok; auto; try lia; try (apply below_zeros; lia); [len|].
    intros [[num' quot'] r] (nq & nr & -> & L & D1 & D2 & H1 & H2 & H3 & H4 & H5 & H6).
    ret. conj; auto. apply below_firstn; exact D1.
  - ret. assert (val x < val y) by (apply (value_length_lt B HB); auto).
    pose proof (value_nonneg B HB x Dx). rewrite Z.mod_small by lia. conj; auto using num_lt_shorter.
Qed.

(** Dividing by something larger; any sizes. *)
Lemma div_big_small x y quot : y <> [] -> num_lt x y = true ->
  div_big D x y quot = Ret (x, quot, ROk (0%nat, length x)).
Proof.
  intros Hy H. unfold div_big, div_big_with_work, div_big_with_work_gen.
  destruct y; [congruence|]. change (length (z :: y) =? 0)%nat with false. cbv iota.
  rewrite H. reflexivity.
Qed.

Lemma div_smaller_ok x y : digs x -> digs y -> normal x -> normal y -> val x < val y ->
  div_assign_big D x y = Ret ([], ROk x) /\ rem_assign_big D x y = Ret (x, ROk tt).
Proof.
  intros Dx Dy Nx Ny H.
  assert (Hy : y <> []).
  { intros ->. pose proof (value_nonneg B HB x Dx). cbn in H. lia. }
  assert (HN : num_lt x y = true).
  { rewrite (num_lt_value B HB) by auto. apply Z.ltb_lt. exact H. }
  assert (Ex : ubig_new x = Ret x).
  { destruct (total_inv _ _ (new_ok B x Dx)) as (r & E & R1 & R2 & R3). rewrite E. f_equal.
    apply (normal_inj B HB); auto. }
  unfold div_assign_big, rem_assign_big. rewrite !(div_big_small x y) by auto. cbn [bind].
  unfold truncate. rewrite firstn_all, Ex. cbn [bind firstn].
  split; [destruct (_ <? _)%nat|destruct (_ <=? _)%nat]; reflexivity.
Qed.

(** Dividing by zero. *)
Lemma div_big_zero x quot : div_big D x [] quot = Ret (x, quot, RErr DivisionByZero).
Proof. reflexivity. Qed.
End DivTopProof.
