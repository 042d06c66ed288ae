(** * CountProof: the operators determine digit count and value of their results. *)
From Coq Require Import ZArith NArith List Bool Lia.
From Verif Require Import Base Digit Slice Mul Div UBig Spec Hoare DigitOK ListLemmas SliceProof
  MulProof UBigProof DivProof TypedProof Cases ClaimsBasic ClaimsDiv ClaimsDivBig KaraExact SliceClaims
  SpecMul SpecToom ToomLen ClaimsToom PowExact SpecHist Hist SpecCount.
Import ListNotations.
Open Scope Z_scope.
Open Scope m_scope.

Section Len.
Variables (B : Z) (D : digit).
Hypothesis OK : digit_ok B D.
Notation val := (value B).
Notation digs := (below B).
Notation p n := (pw B n).
Let HB : 1 < B := SliceProof.HB B D OK.

Lemma wide_same l : digs l -> wide B (length l) (val l) = length l.
Proof.
  intros H. pose proof (value_bound B HB l H) as [_ Hu]. unfold wide, pw in *.
  destruct (Z.ltb_spec (val l) (B ^ Z.of_nat (length l))); [reflexivity|lia].
Qed.
Lemma wide_push l k : digs l -> 0 < k -> wide B (length l) (val (l ++ [k])) = S (length l).
Proof.
  intros H Hk. rewrite push_val. pose proof (value_bound B HB l H) as [Hl _]. unfold wide, pw in *.
  pose proof (Z.pow_pos_nonneg B (Z.of_nat (length l)) ltac:(lia) ltac:(lia)).
  destruct (Z.ltb_spec (val l + B ^ Z.of_nat (length l) * k) (B ^ Z.of_nat (length l))); [nia|reflexivity].
Qed.
(** [r] is a list of [n] digits, or such a list and one nonzero digit *)
Definition grown (n : nat) (r : digits) : Prop :=
  (length r = n \/ exists l k, r = l ++ [k] /\ length l = n /\ 0 < k).
Lemma grown_wide n r : digs r -> grown n r -> length r = wide B n (val r).
Proof.
  intros H [<-|(l & k & -> & <- & Hk)].
  - symmetry. apply wide_same, H.
  - apply below_app in H. rewrite wide_push by tauto. rewrite app_length. cbn [length]. lia.
Qed.

Lemma add_grown x y : digs x -> digs y ->
  total (add_assign D x y) (fun r => grown (Nat.max (length x) (length y)) r).
Proof.
  intros Hx Hy. unfold add_assign, add_assign_big_at_offset.
  destruct (Nat.leb_spec (length x) 0) as [H0|H0].
  { ret. left. assert (x = []) as -> by (destruct x; [reflexivity|cbn in H0; lia]). reflexivity. }
  destruct (Nat.leb_spec (length y) (length x - 0)) as [H1|H1].
  - eapply step_suffix; [lia|apply (add_assign_big_ok B D OK); [apply below_skipn; auto|auto|len]|].
    intros s c (L1 & D1 & V1). cbn [firstn skipn app] in *. ret.
    destruct c; [right; exists s, 1; conj; auto; lia|left; lia].
  - rewrite suffix_ok by lia. cbn [bind]. rewrite prefix_ok by lia. cbn [bind].
    set (m := (length x - 0)%nat) in *.
    assert (Ls : length (x ++ skipn m y) = length y) by len.
    eapply step_suffix; [lia|apply (add_assign_big_ok B D OK)|].
    { apply below_skipn, below_app. split; [assumption|apply below_skipn, Hy]. }
    { apply below_firstn; auto. } { len. }
    intros s c (L1 & D1 & V1). cbn [firstn skipn app] in *. ret.
    destruct c; [right; exists s, 1; conj; auto; lia|left; lia].
Qed.
Lemma add_d_grown x d : digs x -> 0 <= d < B -> total (add_assign_d D x d) (grown (length x)).
Proof.
  intros Hx Hd. unfold add_assign_d. tstep (add_assign_digit_ok B D OK); auto.
  intros [r c] (L & Dr & V). ret. destruct c as [k|]; [right; exists r, k; conj; auto; lia|left; exact L].
Qed.
Lemma mul_d_grown x d : digs x -> 0 < d < B -> total (mul_assign_d D x d) (grown (length x)).
Proof.
  intros Hx Hd. unfold mul_assign_d, ubig_mul_add_assign_digit.
  replace (d =? 0) with false by (symmetry; apply Z.eqb_neq; lia).
  tstep (mul_add_digit_ok B D OK); auto; [lia|lia|].
  intros [r c] H. ret. destruct (Z.eqb_spec c 0) as [->|Hz]; [left; tauto|].
  right. exists r, c. conj; auto; try tauto. lia.
Qed.
Lemma shl_grown x n : digs x -> 0 <= n -> 2 ^ n < B ->
  total ('(x, carry) <- shl_carry_assign_within_digit D x n 0 ;;
         Ret (if carry =? 0 then x else x ++ [carry])) (grown (length x)).
Proof.
  intros Hx Hn Hp. tstep (shl_within_ok B D OK); auto. intros [r c] (L & Dr & Hc & V). ret.
  destruct (Z.eqb_spec c 0) as [->|Hz]; [left; exact L|].
  right. exists r, c. conj; auto. lia.
Qed.
(** the digit count of the subtraction of a digit *)
Lemma sub_digit_length x d : digs x -> 0 <= d < B ->
  total (sub_assign_digit D x d) (fun '(_, res) => match res with
    | ROk n => n = kept B (Cell (length x) (val x)) d | RErr _ => True end).
Proof.
  intros Hx Hd. unfold sub_assign_digit, kept. cbn [width worth].
  pose proof (value_nonneg B HB x Hx) as V0.
  destruct (Z.eqb_spec d 0) as [->|Hz].
  - ret. pose proof (Z.mod_pos_bound (val x) B ltac:(lia)).
    destruct (Z.ltb_spec (val x mod B) 0); [lia|reflexivity].
  - destruct x as [|a l]; [ret; exact I|]. apply below_cons in Hx. destruct Hx as [Ha Hl].
    assert (E1 : val (a :: l) mod B = a).
    { replace (val (a :: l)) with (a + val l * B) by (cbn [value]; ring). rewrite Z.mod_add, Z.mod_small; lia. }
    assert (E2 : val (a :: l) / B = val l).
    { replace (val (a :: l)) with (a + val l * B) by (cbn [value]; ring). rewrite Z.div_add, Z.div_small; lia. }
    rewrite E1, E2. tstep (ok_sub B D OK); [exact Ha|exact Hd|].
    intros [r u] H. cbn [of_bool] in H.
    destruct u.
    + destruct l as [|b l0]; [cbn [dec_assign bind]; ret; exact I|].
      tstep (dec_assign_length B D OK); [exact Hl|]. intros [l' res] HL. ret.
      destruct res as [n|e]; [|exact I]. cbn [length].
      assert (a <? d = true) as -> by (apply Z.ltb_lt; cbn [of_bool] in H; lia). cbn [andb].
      rewrite HL. unfold pw.
      replace (Z.of_nat (S (S (length l0))) - 2) with (Z.of_nat (length (b :: l0) - 1)) by (cbn [length]; lia).
      destruct (val (b :: l0) =? _); cbn [length]; lia.
    + ret. assert (a <? d = false) as -> by (apply Z.ltb_ge; cbn [of_bool] in H; lia). reflexivity.
Qed.
End Len.

Section Typed.
Variable dbg : bool.
Variable t : dty.
Notation B := (radix t).
Notation D := (impl dbg t).
Notation val := (value B).
Notation digs := (below B).
Let OK : digit_ok B D := impl_ok dbg t.
Let HB : 1 < B := radix_gt t.

Lemma fits_radix n : is_binary t = false -> fits_single t n = (n <? B).
Proof. intros Hb. unfold fits_single. rewrite radix_dec by assumption. reflexivity. Qed.

(** a number of at least [n] digits, without leading zeros if longer *)
Lemma wide_between n r : digs r -> (n <= length r)%nat -> val r < B ^ Z.of_nat (S n) ->
  ((n < length r)%nat -> B ^ Z.of_nat (length r - 1) <= val r) -> length r = wide B n (val r).
Proof.
  intros Dr Hl Hu Ht. pose proof (value_bound B HB r Dr) as [_ Hb]. unfold wide, pw in *.
  destruct (Nat.eq_dec (length r) n) as [E|E].
  - rewrite E in Hb. destruct (Z.ltb_spec (val r) (B ^ Z.of_nat n)); [exact E|lia].
  - specialize (Ht ltac:(lia)).
    assert (length r = S n).
    { destruct (Nat.le_gt_cases (length r) (S n)) as [|K]; [lia|exfalso].
      pose proof (Z.pow_le_mono_r B (Z.of_nat (S n)) (Z.of_nat (length r - 1)) ltac:(lia) ltac:(lia)). lia. }
    replace (length r - 1)%nat with n in Ht by lia.
    destruct (Z.ltb_spec (val r) (B ^ Z.of_nat n)); [lia|assumption].
Qed.
Lemma snoc_lower l k : digs l -> 0 < k -> B ^ Z.of_nat (length l) <= val (l ++ [k]).
Proof.
  intros H Hk. rewrite push_val. pose proof (value_bound B HB l H) as [Hl _]. unfold pw.
  pose proof (Z.pow_pos_nonneg B (Z.of_nat (length l)) ltac:(lia) ltac:(lia)). nia.
Qed.

Lemma add_T_count x n : digs x -> storage t n ->
  total (add_assign_T dbg t x n) (fun r => digs r /\ val r = val x + n
    /\ length r = wide B (if n <? B then length x else Nat.max 2 (length x)) (val x + n)).
Proof.
  intros Hx Sn.
  assert (single : 0 <= n < B -> total (add_assign_d D x n) (fun r => digs r /\ val r = val x + n
    /\ length r = wide B (if n <? B then length x else Nat.max 2 (length x)) (val x + n))).
  { intros Hn. eapply total_post; [apply spec_and; [apply (add_assign_d_ok B D OK); auto|apply (add_d_grown B D OK); auto]|].
    intros r ((A1 & A2 & _) & G). conj; auto. destruct (Z.ltb_spec n B); [|lia].
    rewrite <- A2. apply (grown_wide B D OK); auto. }
  destruct (is_binary t) eqn:Hb.
  { unfold add_assign_T. rewrite Hb. apply single, storage_bin; auto. }
  destruct (Z.ltb_spec n B) as [Hlt|Hge].
  { unfold add_assign_T. rewrite Hb, fits_radix by assumption. replace (n <? B) with true by (symmetry; apply Z.ltb_lt; exact Hlt).
    apply single. pose proof (storage_nonneg t n Sn). lia. }
  pose proof (add_assign_T_ok dbg t x n Hx Sn) as HV.
  assert (Hf : fits_single t n = false) by (rewrite fits_radix by assumption; apply Z.ltb_ge; exact Hge).
  assert (HL : total (add_assign_T dbg t x n) (fun r => digs r ->
    (Nat.max 2 (length x) <= length r)%nat
    /\ ((Nat.max 2 (length x) < length r)%nat -> B ^ Z.of_nat (length r - 1) <= val r))).
  { unfold add_assign_T. rewrite Hb, Hf.
    pose proof (storage_pair t n Hb Sn Hf) as H. destruct (split_dec t n) as [h l].
    destruct H as (H1 & H2 & ->).
    eapply total_bind; [apply spec_and; [apply (add_assign_d_ok B D OK); auto|apply (add_d_grown B D OK); auto]|].
    intros r ((Dr & Vr & _) & G).
    set (r' := if ubig_is_zero r then [0] else r).
    assert (Hr' : digs r' /\ val r' = val r /\ (1 <= length r')%nat /\ (length x <= length r')%nat
      /\ ((Nat.max 2 (length x) < length r')%nat -> B ^ Z.of_nat (length r' - 1) <= val r')).
    { assert (Lr : (length x <= length r)%nat).
      { destruct G as [->|(l0 & k & -> & <- & _)]; [lia|rewrite app_length; lia]. }
      unfold r'. destruct r as [|a r]; cbn [ubig_is_zero].
      - conj; [apply below_cons; split; [lia|apply below_nil]|cbn [value]; ring|cbn [length]; lia|cbn [length] in *; lia|cbn [length]; lia].
      - conj; auto; [cbn; lia|]. intros HG. destruct G as [G|(l0 & k & E & L0 & Hk)]; [lia|].
        rewrite E in *. apply below_app in Dr.
        replace (length (l0 ++ [k]) - 1)%nat with (length l0) by (rewrite app_length; cbn; lia).
        apply snoc_lower; tauto. }
    destruct Hr' as (D' & V' & L' & LX & T').
    eapply step_suffix; [lia|apply (add_assign_digit_ok B D OK); [apply below_skipn; auto|lia]|].
    intros s c (Ls & Ds & Hc). ret. intros _.
    assert (Lf : length (firstn 1 r') = 1%nat) by len.
    assert (VV : val r' = val (firstn 1 r') + pw B 1 * val (skipn 1 r')) by (apply value_split; lia).
    rewrite pw_1 in VV.
    assert (Ds' : digs (firstn 1 r' ++ s)) by (apply below_app; auto using below_firstn).
    assert (Lq : length (firstn 1 r' ++ s) = length r') by (rewrite app_length, Lf, Ls, skipn_length; lia).
    destruct c as [k|].
    - destruct Hc as [Hk Hv]. rewrite app_length, Lq. cbn [length]. split; [lia|]. intros _.
      replace (length r' + 1 - 1)%nat with (length (firstn 1 r' ++ s)) by lia. apply snoc_lower; [assumption|lia].
    - rewrite Lq. split.
      + enough (2 <= length r')%nat by lia.
        destruct (Nat.le_gt_cases 2 (length r')) as [|K]; [assumption|exfalso].
        assert (Hl : length (skipn 1 r') = 0%nat) by len.
        destruct (skipn 1 r'); [|discriminate Hl].
        destruct s; [|cbn in Ls; lia]. cbn [value] in Hc. lia.
      + intros HG. specialize (T' HG). rewrite value_app, Lf, pw_1. nia. }
  eapply total_post; [apply spec_and; [exact HV|exact HL]|].
  intros r ((A1 & A2 & _) & HLr). destruct (HLr A1) as [A3 A4]. conj; auto.
  rewrite <- A2. apply wide_between; auto. rewrite A2.
  pose proof (value_bound B HB x Hx) as [_ Hu]. unfold pw in Hu.
  set (m := Nat.max 2 (length x)) in *.
  assert (val x < B ^ Z.of_nat m).
  { eapply Z.lt_le_trans; [exact Hu|]. apply Z.pow_le_mono_r; lia. }
  assert (n < B ^ Z.of_nat m).
  { apply Z.lt_le_trans with (B ^ 2); [|apply Z.pow_le_mono_r; lia].
    unfold storage in Sn. destruct t; try discriminate Hb; cbn in Sn |- *; lia. }
  rewrite Nat2Z.inj_succ, Z.pow_succ_r by lia. nia.
Qed.

Lemma mul_T_count x n : digs x -> storage t n ->
  total (mul_assign_T dbg t x n) (fun r => digs r /\ val r = val x * n
    /\ length r = if n =? 0 then 0%nat else if n <? B then wide B (length x) (val x * n)
                  else places B (val x * n)).
Proof.
  intros Hx Sn. pose proof (storage_nonneg t n Sn) as Hn0.
  assert (single : 0 <= n < B -> total (mul_assign_d D x n) (fun r => digs r /\ val r = val x * n
    /\ length r = if n =? 0 then 0%nat else if n <? B then wide B (length x) (val x * n)
                  else places B (val x * n))).
  { intros Hn. destruct (Z.eqb_spec n 0) as [->|Hz].
    { unfold mul_assign_d, ubig_mul_add_assign_digit. cbn. conj; auto using below_nil. lia. }
    destruct (Z.ltb_spec n B); [|lia].
    eapply total_post; [apply spec_and; [apply (mul_add_assign_digit_ok B D OK x n 0); auto; lia|apply (mul_d_grown B D OK x n); auto; lia]|].
    intros r ((A1 & A2 & _) & G). rewrite Z.add_0_r in A2. conj; auto.
    rewrite <- A2. apply (grown_wide B D OK); auto. }
  destruct (is_binary t) eqn:Hb.
  { unfold mul_assign_T. rewrite Hb. apply single, storage_bin; auto. }
  destruct (Z.ltb_spec n B) as [Hlt|Hge].
  { unfold mul_assign_T. rewrite Hb, fits_radix by assumption.
    replace (n <? B) with true by (symmetry; apply Z.ltb_lt; exact Hlt).
    apply single. lia. }
  destruct (Z.eqb_spec n 0); [lia|].
  assert (Hf : fits_single t n = false) by (rewrite fits_radix by assumption; apply Z.ltb_ge; exact Hge).
  unfold mul_assign_T. rewrite Hb, Hf.
  pose proof (storage_pair t n Hb Sn Hf) as H. destruct (split_dec t n) as [h l].
  destruct H as (H1 & H2 & E).
  eapply total_post; [apply (mul_pair_add_ok B D OK x l h 0); auto; lia|].
  intros r (A1 & A2 & A3). rewrite E. rewrite Z.add_0_r in A2. conj; auto.
  rewrite <- A2. symmetry. apply (normal_places B D OK); auto.
Qed.

Lemma kept_le c d : (kept B c d <= width c)%nat.
Proof. unfold kept. destruct (_ && _)%bool; lia. Qed.
Lemma sub_d_count x n : digs x -> 0 <= n < B ->
  spec (fun w => w = PExplicit Underflow /\ val x < n) (sub_assign_d D x n) (fun r =>
    digs r /\ val r = val x - n /\ length r = kept B (Cell (length x) (val x)) n).
Proof.
  intros Hx Hn. unfold sub_assign_d.
  pose proof (sub_digit_length B D OK x n Hx Hn) as HS.
  destruct (sub_digit_claim dbg t x n Hx Hn) as (r & res & E & L & Vr & H).
  rewrite E in *. cbn [bind]. cbn in HS.
  change (num t x) with (val x) in H. destruct (Z.ltb_spec (val x) n) as [Hlt|Hge].
  - subst res. cbn. auto.
  - destruct H as (m & -> & _ & Hm & EV). cbn [or_panic bind]. ret. subst m. unfold truncate.
    conj; [apply below_firstn, Vr|exact EV|]. rewrite firstn_length, L. apply Nat.min_l, kept_le.
Qed.
Lemma sub_T_count x n : digs x -> storage t n -> n < B ->
  spec (fun w => w = PExplicit Underflow /\ val x < n) (sub_assign_T dbg t x n) (fun r =>
    digs r /\ val r = val x - n /\ length r = kept B (Cell (length x) (val x)) n).
Proof.
  intros Hx Sn Hlt. pose proof (storage_nonneg t n Sn) as Hn0. unfold sub_assign_T.
  destruct (is_binary t) eqn:Hb; [apply sub_d_count; auto; lia|].
  rewrite fits_radix by assumption. replace (n <? B) with true by (symmetry; apply Z.ltb_lt; exact Hlt).
  apply sub_d_count; auto; lia.
Qed.
(** two digits *)
Lemma sub_T2_count x n : digs x -> storage t n -> B <= n ->
  let k := kept2 B (Cell (length x) (val x)) n in
  spec (fun w => w = (if (Z.of_nat (length x) =? 0) && (n mod B =? 0) then PIndex else PExplicit Underflow) /\ val x < n)
    (sub_assign_T dbg t x n) (fun r =>
    n <= val x /\ digs r /\ val r = (val x - n) mod B ^ Z.of_nat k /\ length r = k).
Proof.
  intros Hx Sn Hge k.
  assert (Hb : is_binary t = false).
  { destruct (is_binary t) eqn:Hb; [|reflexivity]. pose proof (storage_bin t n Hb Sn). lia. }
  unfold sub_assign_T. rewrite Hb, fits_radix by assumption.
  replace (n <? B) with false by (symmetry; apply Z.ltb_ge; exact Hge).
  assert (Hf : fits_single t n = false) by (rewrite fits_radix by assumption; apply Z.ltb_ge; exact Hge).
  pose proof (storage_pair t n Hb Sn Hf) as H.
  assert (El : split_dec t n = (n / B, n mod B)) by (unfold split_dec; rewrite radix_dec by assumption; reflexivity).
  rewrite El in *. unfold k, kept2. clear k. cbv zeta. cbn [worth]. set (h := n / B) in *. set (l := n mod B) in *.
  destruct H as (Hh & Hl & En). clear El.
  pose proof (value_nonneg B HB x Hx) as V0.
  eapply spec_bind; [eapply spec_weaken; [apply (sub_d_count x l Hx Hl)| |intros r H; exact H]|].
  - intros w [-> H]. split; [|lia]. destruct (Z.eqb_spec l 0) as [->|]; [lia|].
    rewrite andb_false_r. reflexivity.
  - intros r (Dr & Vr & Lr). destruct r as [|a r].
    + (* nothing left *)
      cbn [length] in Lr. cbn [value] in Vr. assert (Ex : val x = l) by lia.
      assert (Lx : length x = 0%nat).
      { unfold kept in Lr. cbn [width worth] in Lr. rewrite Ex, Z.mod_small in Lr by exact Hl.
        rewrite Z.ltb_irrefl in Lr. cbn [andb] in Lr. lia. }
      destruct x; [|discriminate Lx]. cbn [value] in Ex. rewrite <- Ex. cbn. split; [reflexivity|lia].
    + assert (Hx0 : length x <> 0%nat).
      { intros E0. pose proof (kept_le (Cell (length x) (val x)) l) as K. rewrite <- Lr in K. cbn [width length] in K. lia. }
      replace (Z.of_nat (length x) =? 0) with false by (symmetry; apply Z.eqb_neq; lia). cbn [andb].
      apply below_cons in Dr. destruct Dr as [Ha Dr]. cbn [value] in Vr.
      assert (EV : (val x - l) / B = val r).
      { rewrite <- Vr. rewrite Z.mul_comm, Z.div_add, Z.div_small by lia. lia. }
      rewrite <- Lr, EV. cbn [length]. rewrite Nat.sub_succ, Nat.sub_0_r.
      pose proof (sub_digit_length B D OK r h Dr ltac:(lia)) as HS.
      destruct (sub_digit_claim dbg t r h Dr ltac:(lia)) as (s & res & E & L & Vs & H).
      eapply step_suffix with (R := fun x => x = (s, res)); [cbn; lia| |].
      { cbn [skipn]. rewrite E. reflexivity. }
      intros s0 res0 [= -> ->]. cbn [firstn app]. rewrite E in HS. cbn in HS.
      change (num t r) with (val r) in H. destruct (Z.ltb_spec (val r) h) as [Hlt|Hge2].
      * subst res. cbn. split; [reflexivity|]. nia.
      * destruct H as (m & -> & EVs & Hm & EVm). cbn [or_panic bind]. ret. subst m.
        set (m := kept B {| width := length r; worth := val r |} h) in *.
        assert (Hd : digs (a :: s)) by (apply below_cons; auto).
        unfold truncate. conj.
        -- nia.
        -- apply below_firstn, Hd.
        -- change (num t s) with (val s) in EVs.
           assert (ET : val x - n = val (a :: s)) by (cbn [value]; rewrite EVs; nia).
           rewrite ET. assert (Hms : (m <= length (a :: s))%nat) by (cbn [length]; lia).
           rewrite (value_split B m (a :: s)) by exact Hms. unfold pw.
           pose proof (value_bound B HB (firstn m (a :: s)) (below_firstn B _ _ Hd)) as Hbd.
           rewrite firstn_length, Nat.min_l in Hbd by exact Hms. unfold pw in Hbd.
           rewrite Z.mul_comm, Z.mod_add by lia. symmetry. apply Z.mod_small. exact Hbd.
        -- rewrite firstn_length. apply Nat.min_l. cbn [length]. lia.
Qed.

Lemma bits_log : is_binary t = true -> Z.log2 B = bits t.
Proof. destruct t; intros H; try discriminate H; reflexivity. Qed.
Lemma hex_log : is_binary t = false -> 4 * (Z.log2 B / 4) = 4 * Z.of_nat (MAX_HEX_PLACES t).
Proof. destruct t; intros H; try discriminate H; reflexivity. Qed.

Lemma shl_bin_count x n : is_binary t = true -> digs x -> 0 <= n ->
  total (shl_assign dbg t x n) (fun r => digs r /\ val r = val x * 2 ^ n
    /\ length r = (Z.to_nat (n / bits t) + wide B (length x) (val x * 2 ^ (n mod bits t)))%nat).
Proof.
  intros Hb Hx Hn. pose proof (shl_assign_bin_ok dbg t x n Hb Hx Hn) as HV.
  pose proof (bits_pos t) as Hbt. pose proof (Z.mod_pos_bound n (bits t) Hbt) as Hm.
  assert (Hq : 0 <= n / bits t) by (apply Z.div_pos; lia).
  assert (HL : total (shl_assign dbg t x n) (fun r =>
    length r = (Z.to_nat (n / bits t) + wide B (length x) (val x * 2 ^ (n mod bits t)))%nat)).
  { unfold shl_assign. rewrite Hb.
    set (hi := n / bits t) in *. set (lo := n mod bits t) in *.
    assert (Hlo : total (if lo =? 0 then Ret x
             else '(self, carry) <- shl_carry_assign_within_digit D x lo 0 ;;
                  Ret (if carry =? 0 then self else self ++ [carry])) (fun r =>
      length r = wide B (length x) (val x * 2 ^ lo))).
    { destruct (Z.eqb_spec lo 0) as [->|Hz].
      - ret. rewrite Z.pow_0_r, Z.mul_1_r. symmetry. apply (wide_same B D OK), Hx.
      - assert (HP : 2 ^ lo < B) by (rewrite radix_bin by assumption; apply Z.pow_lt_mono_r; lia).
        eapply total_post; [apply spec_and; [apply shl_digit_ok; auto; lia|apply (shl_grown B D OK); auto; lia]|].
        intros r ((A1 & A2 & _) & G). rewrite <- A2. apply (grown_wide B D OK); auto. }
    tstep Hlo. intros r Lr. ret. destruct (Z.eqb_spec hi 0) as [->|Hz]; [exact Lr|].
    rewrite app_length, zeros_length, Lr. reflexivity. }
  eapply total_post; [apply spec_and; [exact HV|exact HL]|]. cbn beta. tauto.
Qed.

Lemma shl_dec_count x n : is_binary t = false -> digs x -> 0 <= n <= 4 * Z.of_nat (MAX_HEX_PLACES t) ->
  total (shl_assign dbg t x n) (fun r => digs r /\ val r = val x * 2 ^ n
    /\ length r = wide B (length x) (val x * 2 ^ n)).
Proof.
  intros Hb Hx Hn. unfold shl_assign. rewrite Hb.
  replace (n <=? 4 * Z.of_nat (MAX_HEX_PLACES t)) with true by (symmetry; apply Z.leb_le; lia).
  assert (HP : 2 ^ n < B) by (apply hex_places_dec; [exact Hb|lia]).
  eapply total_post; [apply spec_and; [apply shl_digit_ok; auto; lia|apply (shl_grown B D OK); auto; lia]|].
  intros r ((A1 & A2 & _) & G). conj; auto. rewrite <- A2. apply (grown_wide B D OK); auto.
Qed.

Lemma shr_bin_count x n : is_binary t = true -> digs x -> 0 <= n -> n / bits t <= Z.of_nat (length x) ->
  total (shr_assign dbg t x n) (fun r => digs r /\ val r = val x / 2 ^ n
    /\ length r = if n mod bits t =? 0 then (length x - Z.to_nat (n / bits t))%nat
                  else places B (val x / 2 ^ n)).
Proof.
  intros Hb Hx Hn Hl. pose proof (shr_assign_bin_val dbg t x n Hb Hx Hn Hl) as HV.
  pose proof (bits_pos t) as Hbt. pose proof (Z.mod_pos_bound n (bits t) Hbt) as Hm.
  assert (Hq : 0 <= n / bits t) by (apply Z.div_pos; lia).
  assert (HL : total (shr_assign dbg t x n) (fun r =>
    if n mod bits t =? 0 then length r = (length x - Z.to_nat (n / bits t))%nat else normal r)).
  { unfold shr_assign. rewrite Hb.
    set (hi := n / bits t) in *. set (lo := n mod bits t) in *.
    assert (Hhi : total (if hi =? 0 then Ret x
             else if Z.of_nat (length x) <? hi then Panic PIndex
             else Ret (skipn (Z.to_nat hi) x)) (fun r =>
      digs r /\ length r = (length x - Z.to_nat hi)%nat)).
    { destruct (Z.eqb_spec hi 0) as [->|Hz]; [ret; split; [exact Hx|lia]|].
      destruct (Z.ltb_spec (Z.of_nat (length x)) hi); [lia|]. ret.
      split; [apply below_skipn, Hx|apply skipn_length]. }
    tstep Hhi. intros r [Dr Lr]. destruct (Z.eqb_spec lo 0) as [Hz|Hz]; [ret; exact Lr|].
    eapply total_post; [apply (shr_digit_ok dbg t r lo Dr); [lia|]|cbn beta; tauto].
    rewrite radix_bin by assumption. apply Z.pow_lt_mono_r; lia. }
  eapply total_post; [apply spec_and; [exact HV|exact HL]|]. cbn beta. intros r ((A1 & A2 & _) & A3).
  conj; auto. destruct (n mod bits t =? 0); [exact A3|].
  rewrite <- A2. symmetry. apply (normal_places B D OK); auto.
Qed.
End Typed.
