(** * SliceProof: addition, subtraction, shifts and division by three on slices. *)
From Coq Require Import ZArith List Bool Lia.
From Verif Require Import Base Digit Spec Hoare DigitOK Slice ListLemmas.
Import ListNotations.
Open Scope Z_scope.
Open Scope m_scope.

Section SliceProof.
Variables (B : Z) (D : digit).
Hypothesis OK : digit_ok B D.
Notation val := (value B).
Notation digs := (below B).
Notation "'p' n" := (pw B n) (at level 10, n at level 9).

Lemma HB : 1 < B.
Proof. pose proof (ok_base _ _ OK). lia. Qed.
Hint Resolve HB : core.

Lemma normal_of_value l : digs l -> p (length l - 1) <= val l -> normal l.
Proof.
  intros Hd HV t ->. apply below_app in Hd. destruct Hd as [Ht _].
  rewrite value_app in HV. cbn [value] in HV. len.
  replace (length t + 1 - 1)%nat with (length t) in HV by lia.
  pose proof (value_bound B HB t Ht). lia.
Qed.

(** a list determined by its value and the part above position [n] *)
Lemma firstn_skipn_val l n v rest : digs l -> (n <= length l)%nat ->
  0 <= v < p n -> val l = v + p n * rest ->
  val (firstn n l) = v /\ val (skipn n l) = rest.
Proof.
  intros Hd Hn Hv HV. rewrite (value_split B n l Hn) in HV.
  pose proof (value_bound B HB _ (below_firstn B n l Hd)) as H1.
  rewrite firstn_length in H1. replace (Nat.min n (length l)) with n in H1 by lia.
  pose proof (pw_pos B n HB).
  destruct (Z.div_mod_unique (p n) (val (skipn n l)) rest (val (firstn n l)) v);
    [left; lia|left; lia|lia|auto].
Qed.

(** ** add.rs *)
Lemma inc_assign_ok nr : digs nr ->
  total (inc_assign D nr) (fun '(r, c) =>
    length r = length nr /\ digs r /\ val r + p (length nr) * of_bool c = val nr + 1).
Proof.
  induction nr as [|d t IH]; intros H; cbn [inc_assign].
  - ret. conj; [reflexivity|apply below_nil|]. cbn. lia.
  - apply below_cons in H. destruct H as [Hd Ht].
    tstep (ok_inc _ _ OK); [exact Hd|]. intros [d' o] [Hr He]. destruct o; cbn [of_bool] in He.
    + tstep IH; [exact Ht|]. intros [t' c] (HL & Hdt & HV). ret.
      conj; [cbn; lia|apply below_cons; auto|].
      cbn [value length]. rewrite pw_S. nia.
    + ret. conj; [reflexivity|apply below_cons; auto|].
      cbn [value of_bool]. lia.
Qed.

Lemma add_zip_ok nr0 nr1 carry : digs nr0 -> digs nr1 -> (length nr1 <= length nr0)%nat ->
  total (add_zip D nr0 nr1 carry) (fun '(r, c) =>
    length r = length nr0 /\ digs r
    /\ val r + p (length nr1) * of_bool c = val nr0 + val nr1 + of_bool carry).
Proof.
  revert nr1 carry. induction nr0 as [|d t IH]; intros [|e s] carry H0 H1 HL;
    cbn [add_zip]; try (cbn in HL; lia).
  - ret. conj; [reflexivity|assumption|]. cbn [value length]. rewrite pw_0. lia.
  - ret. conj; [reflexivity|assumption|]. cbn [value length]. rewrite pw_0. lia.
  - apply below_cons in H0, H1. destruct H0 as [Hd Ht], H1 as [He Hs].
    tstep (ok_add _ _ OK); [exact Hd|exact He|]. intros [d' c] [Hr HE].
    tstep IH; [exact Ht|exact Hs|cbn in HL; lia|]. intros [t' c'] (HL' & Hdt & HV). ret.
    conj; [cbn; lia|apply below_cons; auto|].
    cbn [value length]. rewrite pw_S. nia.
Qed.

Lemma add_assign_big_ok nr0 nr1 : digs nr0 -> digs nr1 -> (length nr1 <= length nr0)%nat ->
  total (add_assign_big D nr0 nr1) (fun '(r, c) =>
    length r = length nr0 /\ digs r
    /\ val r + p (length nr0) * of_bool c = val nr0 + val nr1).
Proof.
  intros H0 H1 HL. unfold add_assign_big.
  tstep total_guard; [apply Nat.leb_le; exact HL|]. intros _ _.
  tstep add_zip_ok; auto. intros [r c] (HL' & Hr & HV). destruct c; cbn [of_bool] in HV.
  - eapply spec_with_suffix; [lia|apply inc_assign_ok, below_skipn, Hr|].
    intros s a (Hs1 & Hs2 & Hs3). rewrite skipn_length in *. conj.
    + len.
    + apply below_app. split; [apply below_firstn, Hr|assumption].
    + rewrite (value_split B (length nr1) r) in HV by lia.
      rewrite value_app. len. replace (Nat.min (length nr1) (length r)) with (length nr1) by lia.
      replace (length nr0) with (length nr1 + (length r - length nr1))%nat by lia.
      rewrite pw_add. nia.
  - ret. conj; [assumption|assumption|]. cbn [of_bool]. lia.
Qed.

Lemma add_zip_into_ok nr0 nr1 sum carry :
  digs nr0 -> digs nr1 -> digs sum -> (Nat.min (length nr0) (length nr1) <= length sum)%nat ->
  let n := Nat.min (length nr0) (length nr1) in
  total (add_zip_into D nr0 nr1 sum carry) (fun '(r, c) =>
    length r = length sum /\ digs r /\ skipn n r = skipn n sum
    /\ val (firstn n r) + p n * of_bool c
       = val (firstn n nr0) + val (firstn n nr1) + of_bool carry).
Proof.
  cbn zeta. revert nr1 sum carry.
  induction nr0 as [|d t IH]; intros [|e s] sum carry H0 H1 H2 HL; cbn [add_zip_into].
  - ret. conj; [reflexivity|assumption|reflexivity|]. cbn [length Nat.min firstn value]. rewrite pw_0. lia.
  - ret. conj; [reflexivity|assumption|reflexivity|]. cbn [length Nat.min firstn value]. rewrite pw_0. lia.
  - ret. conj; [reflexivity|assumption|reflexivity|]. cbn [length Nat.min firstn value]. rewrite pw_0. lia.
  - destruct sum as [|x sum]; [cbn in HL; lia|].
    apply below_cons in H0, H1, H2. destruct H0 as [Hd Ht], H1 as [He Hs], H2 as [Hx Hsum].
    tstep (ok_add _ _ OK); [exact Hd|exact He|]. intros [d' c] [Hr HE].
    tstep IH; [exact Ht|exact Hs|exact Hsum|cbn in HL; lia|].
    intros [t' c'] (HL' & Hdt & Hsk & HV). ret.
    conj; [cbn; lia|apply below_cons; auto|cbn; assumption|].
    cbn [length Nat.min firstn value]. rewrite pw_S. nia.
Qed.

Lemma add_big_into_ok nr0 nr1 sum :
  digs nr0 -> digs nr1 -> digs sum ->
  let n := Nat.max (length nr0) (length nr1) in
  (n <= length sum)%nat ->
  total (add_big_into D nr0 nr1 sum) (fun '(r, res) =>
    length r = length sum /\ digs r
    /\ match res with
       | ROk m => ((m = n /\ val nr0 + val nr1 < p n)
                   \/ (m = S n /\ p n <= val nr0 + val nr1 /\ (n < length sum)%nat))
                  /\ val (firstn m r) = val nr0 + val nr1
                  /\ skipn m r = skipn m sum
       | RErr e => e = NoSpace /\ length sum = n /\ p n <= val nr0 + val nr1
       end).
Proof.
  intros H0 H1 H2 n HL. unfold add_big_into.
  destruct (Nat.ltb_spec (length sum) (Nat.max (length nr0) (length nr1))); [subst n; lia|].
  fold n. set (m := Nat.min (length nr0) (length nr1)).
  tstep add_zip_into_ok; auto; [lia|]. fold m. intros [r c] (HL' & Hr & Hsk & HV).
  pose proof (pw_pos B m HB) as Hpm. pose proof (pw_pos B (n - m) HB) as Hpn.
  assert (Epn : p n = p m * p (n - m)) by (apply pw_sub; [auto|lia]).
  assert (Hhigh : exists h, (r' <- match (length nr0 ?= length nr1)%nat with
           | Eq => Ret r
           | Lt => s <- suffix nr1 m ;; copy_into r m n s
           | Gt => s <- suffix nr0 m ;; copy_into r m n s
           end ;; Ret r') = Ret (firstn m r ++ h ++ skipn n r)
         /\ length h = (n - m)%nat /\ digs h
         /\ val (firstn m nr0) + val (firstn m nr1) + p m * val h = val nr0 + val nr1).
  { destruct (Nat.compare_spec (length nr0) (length nr1)) as [E|L|G].
    - exists []. cbn [bind app]. replace m with n by lia. rewrite firstn_skipn.
      conj; [reflexivity|cbn; lia|apply below_nil|].
      rewrite !firstn_all2 by lia. cbn. lia.
    - exists (skipn m nr1). rewrite suffix_ok by lia. cbn [bind].
      rewrite copy_into_ok by len.
      conj; [reflexivity|len|apply below_skipn; assumption|].
      rewrite (firstn_all2 (n := m) nr0) by lia. rewrite (value_split B m nr1) by lia. lia.
    - exists (skipn m nr0). rewrite suffix_ok by lia. cbn [bind].
      rewrite copy_into_ok by len.
      conj; [reflexivity|len|apply below_skipn; assumption|].
      rewrite (firstn_all2 (n := m) nr1) by lia. rewrite (value_split B m nr0) by lia. lia. }
  destruct Hhigh as (h & Eh & Hh1 & Hh2 & Hh3).
  match type of Eh with bind ?e _ = _ => assert (E' : e = Ret (firstn m r ++ h ++ skipn n r)) end.
  { revert Eh. match goal with |- bind ?e _ = _ -> _ => destruct e; cbn; auto; discriminate end. }
  rewrite E'. cbn [bind]. clear Eh E'.
  assert (Lf : length (firstn m r) = m) by len.
  assert (Lr : length (firstn m r ++ h ++ skipn n r) = length sum) by len.
  assert (Hkk : skipn n r = skipn n sum).
  { replace n with ((n - m) + m)%nat by lia. rewrite <- !skipn_skipn, Hsk. reflexivity. }
  assert (Hfin : forall h', length h' = (n - m)%nat ->
    firstn n (firstn m r ++ h' ++ skipn n r) = firstn m r ++ h'
    /\ skipn n (firstn m r ++ h' ++ skipn n r) = skipn n sum).
  { intros h' Lh. rewrite app_assoc. split.
    - rewrite firstn_app. rewrite firstn_all2 by len.
      replace (n - length (firstn m r ++ h'))%nat with 0%nat by len.
      rewrite firstn_O, app_nil_r. reflexivity.
    - rewrite skipn_app. rewrite skipn_all2 by len.
      replace (n - length (firstn m r ++ h'))%nat with 0%nat by len. cbn [app skipn].
      exact Hkk. }
  pose proof (value_bound B HB _ (below_firstn B m r Hr)) as Hb1. rewrite Lf in Hb1.
  assert (Hinc : total (if c then with_slice (firstn m r ++ h ++ skipn n r) m n (inc_assign D)
                        else Ret (firstn m r ++ h ++ skipn n r, false))
    (fun '(s, o) => exists h', s = firstn m r ++ h' ++ skipn n r
       /\ length h' = (n - m)%nat /\ digs h'
       /\ val h' + p (n - m) * of_bool o = val h + of_bool c)).
  { destruct c.
    - eapply (spec_with_slice never); [lia|lia| |].
      + replace (firstn (n - m) (skipn m (firstn m r ++ h ++ skipn n r))) with h.
        * apply inc_assign_ok. exact Hh2.
        * rewrite skipn_app, skipn_all2 by lia. rewrite Lf, Nat.sub_diag. cbn [app skipn].
          rewrite firstn_app, firstn_all2 by lia.
          replace (n - m - length h)%nat with 0%nat by lia. rewrite firstn_O, app_nil_r.
          reflexivity.
      + intros s a (Q1 & Q2 & Q3). exists s. conj; auto; [|lia|].
        * rewrite firstn_app, firstn_all2 by lia. rewrite Lf, Nat.sub_diag, firstn_O, app_nil_r.
          do 2 f_equal. rewrite (proj2 (Hfin h Hh1)). congruence.
        * rewrite Hh1 in Q3. cbn [of_bool]. lia.
    - ret. exists h. conj; auto. cbn [of_bool]. lia. }
  tstep Hinc. intros [s o] (h' & -> & Lh' & Hdh' & Hvh').
  pose proof (value_bound B HB h' Hdh') as Hb2. rewrite Lh' in Hb2.
  assert (Hfv : val (firstn m r ++ h') = val (firstn m r) + p m * val h').
  { rewrite value_app, Lf. reflexivity. }
  assert (Hsum : val (firstn m r) + p m * val h' + p n * of_bool o = val nr0 + val nr1).
  { rewrite Epn. change (of_bool false) with 0 in HV. nia. }
  assert (Ls : length (firstn m r ++ h' ++ skipn n r) = length sum) by len.
  assert (Hds : digs (firstn m r ++ h' ++ skipn n r)).
  { rewrite !below_app. conj; [apply below_firstn|assumption|apply below_skipn]; assumption. }
  destruct (Hfin h' Lh') as [F1 F2].
  destruct o; cbn [of_bool] in *.
  - rewrite Ls. destruct (Nat.leb_spec (length sum) n).
    + ret. conj; auto; [lia|nia].
    + rewrite set_ok by lia. cbn [bind]. ret.
      assert (E1 : firstn (S n) (firstn n (firstn m r ++ h' ++ skipn n r)
                     ++ 1 :: skipn (S n) (firstn m r ++ h' ++ skipn n r))
                   = (firstn m r ++ h') ++ [1]).
      { rewrite F1. rewrite firstn_app. rewrite firstn_all2 by len.
        f_equal. replace (S n - length (firstn m r ++ h'))%nat with 1%nat by len.
        reflexivity. }
      assert (E2 : skipn (S n) (firstn m r ++ h' ++ skipn n r) = skipn (S n) sum).
      { replace (S n) with (1 + n)%nat by lia. rewrite <- !skipn_skipn, F2. reflexivity. }
      conj.
      * len.
      * rewrite F1, !below_app. conj; [apply below_firstn; assumption|assumption|].
        apply below_cons. pose proof HB. split; [lia|]. rewrite E2. apply below_skipn; assumption.
      * right. conj; [lia|nia|lia].
      * replace (n + 1)%nat with (S n) by lia. rewrite E1, value_app, Hfv. len.
        cbn [value]. rewrite Nat.min_l by lia.
        replace (m + length h')%nat with n by lia. nia.
      * replace (n + 1)%nat with (S n) by lia. rewrite F1.
        rewrite skipn_app. rewrite skipn_all2 by len.
        replace (S n - length (firstn m r ++ h'))%nat with 1%nat by len.
        cbn [app skipn]. exact E2.
  - ret. conj; auto.
    + left. split; [reflexivity|nia].
    + rewrite F1, Hfv. lia.
Qed.

(** ** sub.rs *)
Lemma dec_assign_ok nr : digs nr ->
  total (dec_assign D nr) (fun '(r, res) =>
    length r = length nr /\ digs r
    /\ match res with
       | ROk n => val r = val nr - 1 /\ (n <= length nr)%nat /\ val (firstn n r) = val r
                  /\ (length nr <= S n)%nat
                  /\ (normal nr -> normal (firstn n r))
       | RErr e => e = Underflow /\ val nr = 0 /\ val r = p (length nr) - 1
       end).
Proof.
  induction nr as [|d t IH]; intros H.
  - cbn. conj; auto.
  - apply below_cons in H. destruct H as [Hd Ht].
    assert (Hmain : forall (d' : Z) (u : bool), 0 <= d' < B -> d' - B * of_bool u = d - 1 -> t <> [] ->
      total (if u then '(t, r) <- dec_assign D t ;;
                Ret (d' :: t, match r with ROk n => ROk (S n) | RErr e => RErr e end)
             else Ret (d' :: t, ROk (length (d' :: t))))
       (fun '(r, res) =>
        length r = length (d :: t) /\ digs r
        /\ match res with
         | ROk n => val r = val (d :: t) - 1 /\ (n <= length (d :: t))%nat /\ val (firstn n r) = val r
                  /\ (length (d :: t) <= S n)%nat
                    /\ (normal (d :: t) -> normal (firstn n r))
         | RErr e => e = Underflow /\ val (d :: t) = 0 /\ val r = p (length (d :: t)) - 1
         end)).
    { intros d' u Hr He Hne. destruct u; cbn [of_bool] in He.
      - tstep IH; [exact Ht|]. intros [t' r] (HL & Hdt & HV). ret.
        conj; [cbn; lia|apply below_cons; auto|].
        destruct r as [n|e].
        + destruct HV as (V1 & V2 & V3 & V4 & V5). cbn [value length firstn].
          conj; [nia|lia|nia|lia|].
          intros Hn. apply normal_cons_inv in Hn. specialize (V5 Hn).
          destruct (firstn n t') as [|x l] eqn:E.
          * apply normal_single. pose proof HB. lia.
          * apply (normal_app [d']); [discriminate|assumption].
        + destruct HV as (V1 & V2 & V3). cbn [value length]. rewrite pw_S.
          conj; [assumption|nia|nia].
      - ret. cbn [length]. rewrite firstn_all2 by (cbn; lia).
        conj; [reflexivity|apply below_cons; auto|cbn [value]; nia|lia|reflexivity|lia|].
        intros Hn. apply normal_cons_inv in Hn. apply (normal_app [d']); assumption. }
    destruct t as [|e t]; cbn [dec_assign].
    + tstep (ok_dec _ _ OK); [exact Hd|]. intros [d' u] [Hr He].
      destruct u; cbn [of_bool] in He.
      * ret. conj; [reflexivity|apply below_cons; auto|reflexivity|cbn; lia|].
        cbn [value length]. rewrite pw_1. lia.
      * destruct (Z.eqb_spec d' 0); ret.
        -- conj; [reflexivity|apply below_cons; auto|cbn; lia|cbn; lia|cbn; lia|cbn; lia|].
           intros _. apply normal_nil.
        -- conj; [reflexivity|apply below_cons; auto|cbn; lia|cbn; lia|cbn; lia|cbn; lia|].
           intros _. apply normal_single. assumption.
    + tstep (ok_dec _ _ OK); [exact Hd|]. intros [d' u] [Hr He].
      apply (Hmain d' u Hr He). discriminate.
Qed.

Lemma sub_assign_digit_ok nr x : digs nr -> 0 <= x < B ->
  total (sub_assign_digit D nr x) (fun '(r, res) =>
    length r = length nr /\ digs r
    /\ match res with
       | ROk n => val r = val nr - x /\ (n <= length nr)%nat /\ val (firstn n r) = val r
                  /\ (x <> 0 -> (1 <= n)%nat)
                  /\ (normal nr -> (2 <= n)%nat \/ (0 < val r) -> normal (firstn n r))
       | RErr e => e = Underflow /\ val nr < x
       end).
Proof.
  intros H Hx. unfold sub_assign_digit. destruct (Z.eqb_spec x 0) as [->|Hx0].
  - ret. rewrite firstn_all. conj; auto; lia.
  - destruct nr as [|d t].
    + ret. conj; auto. cbn. lia.
    + apply below_cons in H. destruct H as [Hd Ht].
      tstep (ok_sub _ _ OK); [exact Hd|exact Hx|]. intros [d' u] [Hr He].
      destruct u; cbn [of_bool] in He.
      * tstep dec_assign_ok; [exact Ht|]. intros [t' r] (HL & Hdt & HV). ret.
        conj; [cbn; lia|apply below_cons; auto|].
        destruct r as [n|e].
        -- destruct HV as (V1 & V2 & V3 & V4 & V5). cbn [value length firstn Nat.add].
           conj; [nia|lia|nia|lia|].
           intros Hn Hor. apply normal_cons_inv in Hn. specialize (V5 Hn).
           destruct (firstn n t') as [|y l] eqn:E.
           ++ apply normal_single. destruct Hor as [Hor|Hor].
              ** assert (length (firstn n t') = 0%nat) by (rewrite E; reflexivity). len.
              ** cbn [value] in V3. nia.
           ++ apply (normal_app [d']); [discriminate|assumption].
        -- destruct HV as (V1 & V2 & V3). cbn [value]. conj; [assumption|]. rewrite V2. lia.
      * ret. cbn [length]. rewrite firstn_all2 by (cbn; lia).
        conj; [reflexivity|apply below_cons; auto|cbn [value]; nia|lia|reflexivity|lia|].
        intros Hn Hor. destruct t as [|e t].
        -- apply normal_single. cbn [value length] in Hor. lia.
        -- apply normal_cons_inv in Hn. apply (normal_app [d']); [discriminate|assumption].
Qed.

Lemma sub_zip_ok nr0 nr1 carry : digs nr0 -> digs nr1 -> (length nr1 <= length nr0)%nat ->
  total (sub_zip D nr0 nr1 carry) (fun '(r, c) =>
    length r = length nr0 /\ digs r /\ skipn (length nr1) r = skipn (length nr1) nr0
    /\ val r - p (length nr1) * of_bool c = val nr0 - val nr1 - of_bool carry).
Proof.
  revert nr1 carry. induction nr0 as [|d t IH]; intros [|e s] carry H0 H1 HL;
    cbn [sub_zip]; try (cbn in HL; lia).
  - ret. conj; auto. cbn [value length]. rewrite pw_0. lia.
  - ret. conj; auto. cbn [value length]. rewrite pw_0. lia.
  - apply below_cons in H0, H1. destruct H0 as [Hd Ht], H1 as [He Hs].
    tstep (ok_sub _ _ OK); [exact Hd|exact He|]. intros [d' c] [Hr HE].
    tstep IH; [exact Ht|exact Hs|cbn in HL; lia|]. intros [t' c'] (HL' & Hdt & Hsk & HV). ret.
    conj; [cbn; lia|apply below_cons; auto|cbn; assumption|].
    cbn [value length]. rewrite pw_S. nia.
Qed.

(** [sub_assign_big]; the returned length covers the difference; it is exact
    (no leading zero) unless a borrow has emptied everything above [nr1]. *)
Lemma sub_assign_big_ok nr0 nr1 : digs nr0 -> digs nr1 ->
  total (sub_assign_big D nr0 nr1) (fun '(r, res) =>
    length r = length nr0 /\ digs r
    /\ match res with
       | ROk n => (length nr1 <= length nr0)%nat
                  /\ val r = val nr0 - val nr1 /\ (n <= length nr0)%nat
                  /\ val (firstn n r) = val r
                  /\ (normal nr0 ->
                      ~ (val (skipn (length nr1) nr0) = 1 /\ val r < p (length nr1 - 1)) ->
                      normal (firstn n r))
                  /\ (normal nr0 -> n = length nr1 \/ normal (firstn n r))
       | RErr e => e = Underflow
                   /\ ((length nr0 < length nr1)%nat \/ val nr0 < val nr1)
                   /\ ((length nr1 <= length nr0)%nat ->
                         val r = val nr0 - val nr1 + p (length nr0))
                   /\ ((length nr0 < length nr1)%nat -> r = nr0)
       end).
Proof.
  intros H0 H1. unfold sub_assign_big.
  destruct (Nat.ltb_spec (length nr0) (length nr1)) as [HL|HL].
  { ret. conj; auto. intros. lia. }
  tstep sub_zip_ok; auto. intros [r c] (HL' & Hr & Hsk & HV).
  change (of_bool false) with 0 in HV.
  set (n1 := length nr1) in *.
  assert (Lf : length (firstn n1 r) = n1) by len.
  pose proof (pw_pos B n1 HB) as Hp1.
  pose proof (value_bound B HB _ (below_firstn B n1 r Hr)) as Hbf. rewrite Lf in Hbf.
  pose proof (value_split B n1 r ltac:(lia)) as Vr.
  pose proof (value_split B n1 nr0 ltac:(lia)) as V0.
  pose proof (value_bound B HB _ H1) as Hb1. fold n1 in Hb1.
  destruct c; cbn [of_bool] in HV.
  - assert (Hdec : total (with_suffix r n1 (dec_assign D)) (fun '(r', res) =>
      exists s, r' = firstn n1 r ++ s /\ length s = (length r - n1)%nat /\ digs s
      /\ match res with
         | ROk n => val s = val (skipn n1 r) - 1 /\ (n <= length r - n1)%nat
                    /\ val (firstn n s) = val s /\ (length r - n1 <= S n)%nat
                    /\ (normal (skipn n1 r) -> normal (firstn n s))
         | RErr e => e = Underflow /\ val (skipn n1 r) = 0 /\ val s = p (length r - n1) - 1
         end)).
    { eapply (spec_with_suffix never); [lia|apply dec_assign_ok, below_skipn, Hr|].
      intros s a (A1 & A2 & A3). rewrite skipn_length in *. exists s. conj; auto. }
    tstep Hdec. intros [r' res] (s & -> & Ls & Hds & Hres). ret. clear Hdec.
    assert (Hv' : val (firstn n1 r ++ s) = val (firstn n1 r) + p n1 * val s)
      by (rewrite value_app, Lf; reflexivity).
    conj; [len|apply below_app; split; [apply below_firstn|]; assumption|].
    destruct res as [n|e].
    + destruct Hres as (S1 & S2 & S3 & S4 & S5).
      assert (Hfn : firstn (n1 + n) (firstn n1 r ++ s) = firstn n1 r ++ firstn n s).
      { rewrite firstn_app, firstn_all2 by lia. f_equal. f_equal. lia. }
      assert (Hdiff : val (firstn n1 r ++ s) = val nr0 - val nr1) by nia.
      assert (Hor : normal nr0 -> firstn n s = [] \/ normal (firstn n1 r ++ firstn n s)).
      { intros Hn. destruct (firstn n s) as [|y l] eqn:E; [auto|]. right.
        apply normal_app; [discriminate|]. apply S5. rewrite Hsk.
        apply normal_skipn. assumption. }
      assert (Hzero : firstn n s = [] -> n = 0%nat /\ val s = 0).
      { intros E. split; [|rewrite <- S3, E; reflexivity].
        assert (length (firstn n s) = 0%nat) by (rewrite E; reflexivity). len. }
      conj; auto; [lia| | |].
      * rewrite Hfn, value_app, Lf, S3. symmetry. exact Hv'.
      * intros Hn Hnot. rewrite Hfn. destruct (Hor Hn) as [E|]; [|assumption].
        destruct (Hzero E) as [En Es]. rewrite E, app_nil_r.
        apply normal_of_value; [apply below_firstn; assumption|]. rewrite Lf.
        rewrite Hv', Es in Hnot, Hdiff. rewrite <- Hsk in Hnot.
        assert (val (skipn n1 r) = 1) by lia.
        assert (~ val (firstn n1 r) + p n1 * 0 < p (n1 - 1)) by tauto. lia.
      * intros Hn. rewrite Hfn. destruct (Hor Hn) as [E|]; [|auto].
        left. destruct (Hzero E). lia.
    + destruct Hres as (-> & S1 & S2).
      assert (Epn : p (length nr0) = p n1 * p (length r - n1)).
      { rewrite HL'. apply pw_sub; [auto|lia]. }
      conj; auto; [|intros; nia|lia]. right. nia.
  - tstep (drop_val B); [lia|]. intros n (N1 & N2 & N3). ret.
    assert (Ef : firstn (length nr0) r = r) by (apply firstn_all2; lia).
    rewrite Ef in N2. conj; auto; lia.
Qed.

Lemma sub_zip_into_ok nr0 nr1 diff carry :
  digs nr0 -> digs nr1 -> digs diff -> (length nr1 <= length nr0)%nat ->
  (length nr1 <= length diff)%nat ->
  let n := length nr1 in
  total (sub_zip_into D nr0 nr1 diff carry) (fun '(r, c) =>
    length r = length diff /\ digs r /\ skipn n r = skipn n diff
    /\ val (firstn n r) - p n * of_bool c
       = val (firstn n nr0) - val nr1 - of_bool carry).
Proof.
  cbn zeta. revert nr0 diff carry.
  induction nr1 as [|e s IH]; intros [|d t] diff carry H0 H1 H2 HL HL2; cbn [sub_zip_into];
    try (cbn in HL; lia).
  - ret. conj; auto. cbn [length Nat.min firstn value]. rewrite pw_0. lia.
  - ret. conj; auto. cbn [length Nat.min firstn value]. rewrite pw_0. lia.
  - destruct diff as [|x diff]; [cbn in HL2; lia|].
    apply below_cons in H0, H1, H2. destruct H0 as [Hd Ht], H1 as [He Hs], H2 as [Hx Hsum].
    tstep (ok_sub _ _ OK); [exact Hd|exact He|]. intros [d' c] [Hr HE].
    tstep IH; [exact Ht|exact Hs|exact Hsum|cbn in HL; lia|cbn in HL2; lia|].
    intros [t' c'] (HL' & Hdt & Hsk & HV). ret.
    conj; [cbn; lia|apply below_cons; auto|cbn; assumption|].
    cbn [length firstn value]. rewrite pw_S. nia.
Qed.

(** [sub_big_into] behaves as [sub_assign_big] on a copy of [nr0]. *)
Lemma sub_big_into_ok nr0 nr1 diff : digs nr0 -> digs nr1 -> digs diff ->
  (length nr0 <= length diff)%nat ->
  total (sub_big_into D nr0 nr1 diff) (fun '(r, res) =>
    length r = length diff /\ digs r /\ skipn (length nr0) r = skipn (length nr0) diff
    /\ match res with
       | ROk n => (length nr1 <= length nr0)%nat
                  /\ val (firstn n r) = val nr0 - val nr1 /\ (n <= length nr0)%nat
                  /\ val (firstn (length nr0) r) = val nr0 - val nr1
                  /\ (normal nr0 -> n = length nr1 \/ normal (firstn n r))
                  /\ (length nr0 = length nr1 -> normal (firstn n r))
       | RErr e => e = Underflow
                   /\ ((length nr0 < length nr1)%nat \/ val nr0 < val nr1)
       end).
Proof.
  intros H0 H1 H2 HLd. unfold sub_big_into.
  destruct (Nat.ltb_spec (length diff) (length nr0)); [lia|].
  destruct (Nat.ltb_spec (length nr0) (length nr1)) as [HL|HL].
  { ret. conj; auto. }
  tstep sub_zip_into_ok; auto; [lia|]. intros [r c] (HL' & Hr & Hsk & HV).
  change (of_bool false) with 0 in HV.
  set (n1 := length nr1) in *. set (n0 := length nr0) in *.
  rewrite suffix_ok by lia. cbn [bind]. rewrite copy_into_ok by (subst n0; len). cbn [bind].
  assert (Lf : length (firstn n1 r) = n1) by len.
  assert (Lh : length (skipn n1 nr0) = (n0 - n1)%nat) by (subst n0; len).
  pose proof (pw_pos B n1 HB) as Hp1.
  pose proof (value_bound B HB _ (below_firstn B n1 r Hr)) as Hbf. rewrite Lf in Hbf.
  pose proof (value_split B n1 nr0 ltac:(lia)) as V0.
  pose proof (value_bound B HB _ H1) as Hb1. fold n1 in Hb1.
  assert (Hkk : skipn n0 r = skipn n0 diff).
  { replace n0 with ((n0 - n1) + n1)%nat by lia. rewrite <- !skipn_skipn, Hsk. reflexivity. }
  assert (Hfin : forall h', length h' = (n0 - n1)%nat ->
    firstn n0 (firstn n1 r ++ h' ++ skipn n0 r) = firstn n1 r ++ h'
    /\ skipn n0 (firstn n1 r ++ h' ++ skipn n0 r) = skipn n0 diff).
  { intros h' Lh'. rewrite app_assoc. split.
    - rewrite firstn_app. rewrite firstn_all2 by len.
      replace (n0 - length (firstn n1 r ++ h'))%nat with 0%nat by len.
      rewrite firstn_O, app_nil_r. reflexivity.
    - rewrite skipn_app. rewrite skipn_all2 by len.
      replace (n0 - length (firstn n1 r ++ h'))%nat with 0%nat by len. cbn [app skipn].
      exact Hkk. }
  destruct c; cbn [of_bool] in HV.
  - assert (Hdec : total (with_slice (firstn n1 r ++ skipn n1 nr0 ++ skipn n0 r) n1 n0 (dec_assign D))
      (fun '(r', res) =>
      exists s, r' = firstn n1 r ++ s ++ skipn n0 r /\ length s = (n0 - n1)%nat /\ digs s
      /\ match res with
         | ROk n => val s = val (skipn n1 nr0) - 1 /\ (n <= n0 - n1)%nat
                    /\ val (firstn n s) = val s
                    /\ (normal (skipn n1 nr0) -> normal (firstn n s))
         | RErr e => e = Underflow /\ val (skipn n1 nr0) = 0
         end)).
    { eapply (spec_with_slice never); [lia|len|apply dec_assign_ok|].
      - apply below_firstn, below_skipn. rewrite !below_app.
        conj; [apply below_firstn|apply below_skipn|apply below_skipn]; assumption.
      - replace (firstn (n0 - n1) (skipn n1 (firstn n1 r ++ skipn n1 nr0 ++ skipn n0 r)))
          with (skipn n1 nr0).
        2:{ rewrite skipn_exact by lia. rewrite firstn_exact by lia. reflexivity. }
        intros s a (A1 & A2 & A3). rewrite Lh in *. exists s. conj; auto.
        + rewrite firstn_app, firstn_all2 by lia. rewrite Lf, Nat.sub_diag, firstn_O, app_nil_r.
          do 2 f_equal. rewrite (proj2 (Hfin _ Lh)). congruence.
        + destruct a; [|tauto]. conj; tauto. }
    tstep Hdec. intros [r' res] (s & -> & Ls & Hds & Hres). ret. clear Hdec.
    destruct (Hfin s Ls) as [F1 F2].
    conj; [len|rewrite !below_app; conj; [apply below_firstn|assumption|apply below_skipn]; assumption
          |assumption|].
    destruct res as [n|e].
    + destruct Hres as (S1 & S2 & S3 & S4).
      assert (Hfn : firstn (n1 + n) (firstn n1 r ++ s ++ skipn n0 r) = firstn n1 r ++ firstn n s).
      { rewrite firstn_app, firstn_all2 by lia. f_equal.
        replace (n1 + n - length (firstn n1 r))%nat with n by lia.
        rewrite firstn_app. replace (n - length s)%nat with 0%nat by lia.
        rewrite firstn_O, app_nil_r. reflexivity. }
      conj.
      * lia.
      * rewrite Hfn, value_app, Lf, S3. nia.
      * lia.
      * rewrite F1, value_app, Lf. nia.
      * intros Hn. rewrite Hfn. destruct (firstn n s) as [|y l] eqn:E.
        -- left. assert (length (firstn n s) = 0%nat) by (rewrite E; reflexivity). len.
        -- right. apply normal_app; [discriminate|]. apply S4, normal_skipn. assumption.
      * intros E. exfalso. assert (Es : skipn n1 nr0 = []) by (apply skipn_all2; lia).
        rewrite Es in S1. cbn in S1.
        pose proof (value_nonneg B HB _ Hds). lia.
    + destruct Hres as (-> & S1). conj; auto. right. nia.
  - destruct (Hfin _ Lh) as [F1 F2].
    tstep (drop_val B); [len|]. intros n (N1 & N2 & N3). ret.
    conj; auto.
    + len.
    + rewrite !below_app; conj; [apply below_firstn|apply below_skipn|apply below_skipn]; assumption.
    + rewrite N2, F1, value_app, Lf. nia.
    + rewrite F1, value_app, Lf. nia.
Qed.

(** ** rsub.rs *)
Lemma rsub_zip_ok nr0 nr1 carry : digs nr0 -> digs nr1 -> length nr1 = length nr0 ->
  total (rsub_zip D nr0 nr1 carry) (fun '(r, c) =>
    length r = length nr0 /\ digs r
    /\ val r - p (length nr1) * of_bool c = val nr1 - val nr0 - of_bool carry).
Proof.
  revert nr1 carry. induction nr0 as [|d t IH]; intros [|e s] carry H0 H1 HL;
    cbn [rsub_zip]; try discriminate.
  - ret. conj; auto. cbn [value length]. rewrite pw_0. lia.
  - apply below_cons in H0, H1. destruct H0 as [Hd Ht], H1 as [He Hs].
    tstep (ok_sub _ _ OK); [exact He|exact Hd|]. intros [d' c] [Hr HE].
    tstep IH; [exact Ht|exact Hs|cbn in HL; lia|]. intros [t' c'] (HL' & Hdt & HV). ret.
    conj; [cbn; lia|apply below_cons; auto|].
    cbn [value length]. rewrite pw_S. nia.
Qed.

Lemma rsub_assign_big_ok nr0 nr1 : digs nr0 -> digs nr1 -> length nr1 = length nr0 ->
  total (rsub_assign_big D nr0 nr1) (fun '(r, res) =>
    length r = length nr0 /\ digs r
    /\ match res with
       | ROk n => val r = val nr1 - val nr0 /\ (n <= length nr0)%nat
                  /\ val (firstn n r) = val r /\ normal (firstn n r)
       | RErr e => e = Underflow /\ val nr1 < val nr0
                   /\ val r = val nr1 - val nr0 + p (length nr0)
       end).
Proof.
  intros H0 H1 HL. unfold rsub_assign_big.
  tstep total_guard; [apply Nat.eqb_eq; exact HL|]. intros _ _.
  tstep rsub_zip_ok; auto. intros [r c] (HL' & Hr & HV).
  change (of_bool false) with 0 in HV. rewrite HL in HV.
  pose proof (value_bound B HB r Hr) as Hb. rewrite HL' in Hb.
  destruct c; cbn [of_bool] in HV.
  - ret. conj; auto; lia.
  - tstep (drop_val B); [lia|]. intros n (N1 & N2 & N3). ret.
    rewrite (firstn_all2 (n := length nr0) r) in N2 by lia. conj; auto; lia.
Qed.

(** ** shl.rs, shr.rs, division by three *)
Lemma shl_loop_ok nr s carry : digs nr -> 1 <= s -> 2 ^ s < B -> 0 <= carry < 2 ^ s ->
  total (shl_loop D nr s carry) (fun '(r, c) =>
    length r = length nr /\ digs r /\ 0 <= c < 2 ^ s
    /\ val r + p (length nr) * c = val nr * 2 ^ s + carry).
Proof.
  intros H Hs1 Hs2. revert carry. induction nr as [|d t IH]; intros carry Hc; cbn [shl_loop].
  - ret. conj; auto; try lia. cbn [length value]. rewrite pw_0. lia.
  - apply below_cons in H. destruct H as [Hd Ht].
    tstep (ok_shl _ _ OK); [exact Hd|lia|lia|exact Hc|]. intros [d' c] (Hr & Hc' & HE).
    tstep IH; [exact Ht|exact Hc'|]. intros [t' c'] (HL & Hdt & Hc'' & HV). ret.
    conj; [cbn; lia|apply below_cons; auto|lia|lia|].
    cbn [value length]. rewrite pw_S. nia.
Qed.

Lemma shl_within_ok nr s : digs nr -> 0 <= s -> 2 ^ s < B ->
  total (shl_carry_assign_within_digit D nr s 0) (fun '(r, c) =>
    length r = length nr /\ digs r /\ 0 <= c < 2 ^ s
    /\ val r + p (length nr) * c = val nr * 2 ^ s).
Proof.
  intros H Hs1 Hs2. unfold shl_carry_assign_within_digit.
  destruct (Z.eqb_spec s 0) as [->|Hs].
  - ret. change (2 ^ 0) with 1. conj; auto; lia.
  - eapply total_post; [apply shl_loop_ok; auto; try lia|].
    intros [r c] (? & ? & ? & ?). conj; auto; lia.
Qed.

Lemma shr_loop_ok nr s carry : digs nr -> 1 <= s -> 2 ^ s < B -> 0 <= carry < 2 ^ s ->
  total (shr_loop D nr s carry) (fun '(r, c) =>
    length r = length nr /\ digs r /\ 0 <= c < 2 ^ s
    /\ val r * 2 ^ s + c = val nr + p (length nr) * carry).
Proof.
  intros H Hs1 Hs2 Hc. induction nr as [|d t IH]; cbn [shr_loop].
  - ret. conj; auto; try lia. cbn [length value]. rewrite pw_0. lia.
  - apply below_cons in H. destruct H as [Hd Ht].
    tstep IH; [exact Ht|]. intros [t' c'] (HL & Hdt & Hc'' & HV).
    tstep (ok_shr _ _ OK); [exact Hd|lia|lia|exact Hc''|]. intros [d' c] (Hr & Hc' & HE). ret.
    conj; [cbn; lia|apply below_cons; auto|lia|lia|].
    cbn [value length]. rewrite pw_S. nia.
Qed.

Lemma shr_within_ok nr s carry : digs nr -> 1 <= s -> 2 ^ s < B -> 0 <= carry < 2 ^ s ->
  total (shr_carry_assign_within_digit D nr s carry) (fun '(r, (n, c)) =>
    length r = length nr /\ digs r /\ 0 <= c < 2 ^ s
    /\ val r * 2 ^ s + c = val nr + p (length nr) * carry
    /\ (n <= length nr)%nat /\ val (firstn n r) = val r /\ normal (firstn n r)).
Proof.
  intros H Hs1 Hs2 Hc. unfold shr_carry_assign_within_digit.
  destruct (Z.eqb_spec s 0) as [->|Hs]; [lia|].
  tstep shr_loop_ok; [exact H|lia|lia|exact Hc|]. intros [r c] (? & ? & ? & ?).
  tstep (drop_val B); [lia|]. intros n (N1 & N2 & N3). ret.
  rewrite (firstn_all2 (n := length r) r) in N2 by lia. conj; auto; lia.
Qed.

Lemma shr_within_zero nr carry : 
  total (shr_carry_assign_within_digit D nr 0 carry) (fun '(r, (n, c)) =>
    r = nr /\ c = 0 /\ (n <= length nr)%nat /\ val (firstn n r) = val r /\ normal (firstn n r)).
Proof.
  unfold shr_carry_assign_within_digit. rewrite Z.eqb_refl.
  tstep (drop_val B); [lia|]. intros n (N1 & N2 & N3). ret.
  rewrite (firstn_all2 (n := length nr) nr) in N2 by lia. conj; auto; lia.
Qed.

Lemma div3_loop_ok nr carry : digs nr -> 0 <= carry < 3 ->
  total (div3_loop D nr carry) (fun '(r, c) =>
    length r = length nr /\ digs r /\ 0 <= c < 3
    /\ val r * 3 + c = val nr + p (length nr) * carry).
Proof.
  intros H Hc. induction nr as [|d t IH]; cbn [div3_loop].
  - ret. conj; auto; try lia. cbn [length value]. rewrite pw_0. lia.
  - apply below_cons in H. destruct H as [Hd Ht].
    tstep IH; [exact Ht|]. intros [t' c'] (HL & Hdt & Hc'' & HV).
    tstep (ok_div3 _ _ OK); [exact Hd|lia|]. intros [d' c] (Hr & Hc' & HE). ret.
    conj; [cbn; lia|apply below_cons; auto|lia|lia|].
    cbn [value length]. rewrite pw_S. nia.
Qed.

Lemma div3_carry_ok nr carry : digs nr -> 0 <= carry < 3 ->
  total (div3_carry_assign D nr carry) (fun '(r, (n, c)) =>
    length r = length nr /\ digs r /\ 0 <= c < 3
    /\ val r * 3 + c = val nr + p (length nr) * carry
    /\ (n <= length nr)%nat /\ val (firstn n r) = val r /\ normal (firstn n r)).
Proof.
  intros H Hc. unfold div3_carry_assign.
  tstep div3_loop_ok; [exact H|exact Hc|]. intros [r c] (? & ? & ? & ?).
  tstep (drop_val B); [lia|]. intros n (N1 & N2 & N3). ret.
  rewrite (firstn_all2 (n := length r) r) in N2 by lia. conj; auto; lia.
Qed.

(** ** adding one digit *)
Lemma add_assign_digit_ok nr x : digs nr -> 0 <= x < B ->
  total (add_assign_digit D nr x) (fun '(r, c) =>
    length r = length nr /\ digs r
    /\ match c with
       | None => val r = val nr + x
       | Some k => 0 < k < B /\ val r + p (length nr) * k = val nr + x
       end).
Proof.
  intros H Hx. unfold add_assign_digit. destruct (Z.eqb_spec x 0) as [->|Hx0].
  - ret. conj; auto. lia.
  - destruct nr as [|d t].
    + ret. conj; auto; try lia. cbn [value length]. rewrite pw_0. lia.
    + apply below_cons in H. destruct H as [Hd Ht].
      tstep (ok_add _ _ OK); [exact Hd|exact Hx|]. intros [d' u] [Hr He].
      destruct u; cbn [of_bool] in He.
      * tstep inc_assign_ok; [exact Ht|]. intros [t' c] (HL & Hdt & HV). ret.
        conj; [cbn; lia|apply below_cons; auto|]. pose proof HB.
        destruct c; cbn [of_bool value length] in *; rewrite ?pw_S; [conj; [lia|lia|nia]|nia].
      * ret. conj; [reflexivity|apply below_cons; auto|]. cbn [value]. lia.
Qed.
End SliceProof.
