(** * CountRun: the run of a program is the run of the machine of SpecCount.v. *)
From Coq Require Import ZArith NArith List Bool Lia.
From Verif Require Import Base Digit Slice Mul Div UBig Spec Hoare DigitOK ListLemmas SliceProof
  MulProof UBigProof DivProof DivTopProof TypedProof Cases ClaimsBasic ClaimsDiv ClaimsDivBig KaraExact SliceClaims
  SpecMul SpecToom ToomLen ClaimsToom PowExact SpecDiv SpecBz ClaimsBz SpecHist Hist HistProof SpecCount CountProof PowCount DivPad.
Import ListNotations.
Open Scope Z_scope.
Open Scope m_scope.

(** a cell determines the digits *)
Lemma fits_same t x y c : fits t x c -> fits t y c -> x = y.
Proof.
  intros (V1 & L1 & E1) (V2 & L2 & E2).
  apply (value_inj (radix t)); auto; [apply radix_gt|congruence|]. unfold num in *. congruence.
Qed.

Section Run.
Variable dbg : bool.
Variable t : dty.
Notation B := (radix t).
Notation D := (impl dbg t).
Let OK : digit_ok B D := impl_ok dbg t.
Let HB : 1 < B := radix_gt t.

Notation fits := (fits t).
Notation shows := (shows t).

Lemma put_shows r c i e v (G : Prop) w : shows r c ->
  spec (fun w' => w' = w /\ ~ G) e (fun x => G /\ fits x v) ->
  spec (fun w' => w' = w /\ ~ G) (x <- e ;; Ret (update r i x)) (fun r' => G /\ shows r' (update c i v)).
Proof.
  intros Hr He. eapply spec_bind; [exact He|]. intros x [HG Hx]. apply spec_ret. split; [exact HG|].
  intros k. unfold update. destruct (k =? i)%nat; [exact Hx|apply Hr].
Qed.

Lemma fits_normal x : valid t x -> normal x -> fits x (Cell (places B (num t x)) (num t x)).
Proof. intros V N. split; [exact V|]. cbn. split; [|reflexivity]. symmetry. apply (normal_places B D OK); assumption. Qed.
Lemma tight_normal x c : fits x c -> tight B c -> well_formed t x.
Proof.
  intros (V & L & E) T. split; [exact V|]. unfold tight in T. rewrite <- L, <- E in T.
  destruct x as [|k l _] using rev_ind; [apply normal_nil|].
  destruct (Z.eq_dec k 0) as [->|Hk]; [exfalso|apply normal_snoc; exact Hk].
  apply below_app in V. unfold num in T. rewrite push_val, Z.mul_0_r, Z.add_0_r in T.
  pose proof (places_le B D OK (value B l) (length l) (value_bound B HB l (proj1 V))) as K.
  rewrite app_length in T. cbn [length] in T. lia.
Qed.

(** the outcome of a product, a power or a decimal shift *)
Lemma ends_fits (P : Prop) m v : ends t P m v ->
  spec (fun w => w = PUnwrap Underflow /\ ~ ~ P) m (fun x => ~ P /\ fits x v).
Proof. intros [[HP ->]|[HP (x & -> & F)]]; cbn; tauto. Qed.
Lemma always {A} (G : Prop) P (e : M A) Q : G -> total e Q -> spec P e (fun x => G /\ Q x).
Proof. intros HG He. apply total_spec. eapply total_post; [exact He|]. auto. Qed.

Lemma add_fits x y c d : fits x c -> fits y d ->
  total (add_assign D x y) (fun r => fits r (Cell (wide B (Nat.max (width c) (width d)) (worth c + worth d)) (worth c + worth d))).
Proof.
  intros (V & <- & <-) (V' & <- & <-).
  eapply total_post; [apply spec_and; [apply (add_assign_ok B D OK); assumption|apply (add_grown B D OK); assumption]|].
  intros r ((A1 & A2 & _) & G). unfold SpecCount.fits, num. cbn [width worth]. conj; auto.
  rewrite <- A2. apply (grown_wide B D OK); assumption.
Qed.
Lemma sub_fits x y c d : fits x c -> fits y d ->
  let G := (width d <= width c)%nat /\ worth d <= worth c in
  spec (fun w => w = PExplicit Underflow /\ ~ G) (sub_assign D x y) (fun r => G /\
    fits r (Cell (left_over B (width c) (worth c) (width d) (worth d)) (worth c - worth d))).
Proof.
  intros (V & <- & <-) (V' & <- & <-) G. pose proof (sub_value B D OK x y V V') as HV. revert HV. unfold sub_assign.
  destruct (sub_at_claim dbg t x y 0 V V') as (r & res & -> & Vr & H). cbn [bind].
  change (B ^ Z.of_nat 0) with 1 in H. rewrite Z.mul_1_l, Nat.sub_0_r in H. cbn [Nat.add] in H.
  replace (upper B (num t x) 0) with (num t x) in H by (unfold upper; rewrite Z.pow_0_r, Z.div_1_r; reflexivity).
  destruct (Nat.ltb_spec (length x) (length y)) as [H1|H1]; cbn [orb] in H;
    [subst res; cbn; split; [reflexivity|unfold G; lia]|].
  destruct (Z.ltb_spec (num t x) (num t y)) as [H2|H2];
    [subst res; cbn; split; [reflexivity|unfold G; lia]|].
  destruct H as (-> & L & E). cbn [or_panic bind]. intros HV. ret. split; [split; assumption|].
  destruct (HV r eq_refl) as [_ EV]. unfold SpecCount.fits. cbn [width worth]. conj; auto.
Qed.
Lemma mul_fits x y c d : fits x c -> fits y d ->
  let J := jam B (width c) (worth c) (width d) (worth d) in
  spec (fun w => w = PUnwrap Underflow /\ ~ ~ J) (mul_assign D x y)
    (fun r => ~ J /\ fits r (Cell (places B (worth c * worth d)) (worth c * worth d))).
Proof.
  intros (V & <- & <-) (V' & <- & <-) J.
  eapply spec_weaken; [apply (mul_big_jam B D OK x y V V')| |].
  - intros w [H1 H2]. split; [exact H1|]. intros K. exact (K H2).
  - intros r ((D1 & N1 & E) & HJ). split; [exact HJ|]. change (value B x * value B y) with (num t x * num t y) in E.
    rewrite <- E. apply fits_normal; assumption.
Qed.
Lemma square_fits x c : fits x c -> (width c <= 1131)%nat ->
  let J := jam B (width c) (worth c) (width c) (worth c) in
  spec (fun w => w = PUnwrap Underflow /\ ~ ~ J) (square D x)
    (fun r => ~ J /\ fits r (Cell (places B (worth c * worth c)) (worth c * worth c))).
Proof.
  intros (V & <- & <-) HL J.
  eapply spec_weaken; [apply (square_jam B D OK x V HL)| |].
  - intros w [H1 H2]. split; [exact H1|]. intros K. exact (K H2).
  - intros r ((D1 & N1 & E) & HJ). split; [exact HJ|]. change (value B x * value B x) with (num t x * num t x) in E.
    rewrite <- E. apply fits_normal; assumption.
Qed.
(** divisions *)
Lemma undivided_lt x y c d : fits x c -> fits y d -> undivided c d = num_lt x y.
Proof.
  unfold undivided, precedes. intros (V & <- & <-) (V' & <- & <-).
  destruct (Nat.ltb_spec (length x) (length y)) as [H|H]; cbn [orb]; [symmetry; apply num_lt_shorter, H|].
  destruct (Nat.eqb_spec (length x) (length y)) as [H1|H1]; cbn [andb].
  - symmetry. apply (num_lt_same B HB); assumption.
  - destruct (num_lt x y) eqn:E; [|reflexivity]. apply num_lt_true_len in E. lia.
Qed.
Lemma div_fits x y c d : fits x c -> fits y d ->
  undivided c d = true \/ thin B d = true \/ tight B d /\ written t c d (known_division t) ->
  let G := undivided c d = true \/ worth d <> 0 /\ ~ no_room B c d /\ written t c d (fun x y => (20 <= length y)%nat -> ~ recursive_jam t x y) in
  let w0 := if worth d =? 0 then PExplicit DivisionByZero
            else if thin B d then PExplicit NoSpace else PUnwrap Underflow in
  spec (fun w => w = w0 /\ ~ G) (div_assign D x y)
    (fun r => G /\ fits r (if undivided c d then Cell 0 0 else Cell (places B (worth c / worth d)) (worth c / worth d)))
  /\ spec (fun w => w = w0 /\ ~ G) (rem_assign D x y)
    (fun r => G /\ fits r (if undivided c d then c else Cell (places B (worth c mod worth d)) (worth c mod worth d))).
Proof.
  intros Hx Hy HK G w0. destruct (undivided c d) eqn:EU.
  { rewrite (undivided_lt x y c d Hx Hy) in EU.
    destruct (nothing_divided dbg t x y (proj1 Hx) EU) as [-> ->]. cbn.
    split; (split; [left; reflexivity|]); [|exact Hx]. split; [apply below_nil|]. split; reflexivity. }
  assert (EG : G <-> worth d <> 0 /\ ~ no_room B c d /\ written t c d (fun x y => (20 <= length y)%nat -> ~ recursive_jam t x y)).
  { unfold G. split; [intros [K|K]; [discriminate K|exact K]|auto]. }
  rewrite (undivided_lt x y c d Hx Hy) in EU.
  assert (HS : forall P : digits -> digits -> Prop, P x y -> written t c d P).
  { intros P H x' y' Hx' Hy'.
    rewrite (fits_same t x' x c Hx' Hx), (fits_same t y' y d Hy' Hy). exact H. }
  assert (Hx' := Hx). assert (Hy' := Hy). destruct Hx' as (Vx & Lx & Ex), Hy' as (Vy & Ly & Ey).
  assert (Done : G -> divided dbg t x y ->
    spec (fun w => w = w0 /\ ~ G) (div_assign D x y)
      (fun r => G /\ fits r (Cell (places B (worth c / worth d)) (worth c / worth d)))
    /\ spec (fun w => w = w0 /\ ~ G) (rem_assign D x y)
      (fun r => G /\ fits r (Cell (places B (worth c mod worth d)) (worth c mod worth d)))).
  { intros HG (q & r & _ & _ & E1 & E2 & [Vq Nq] & [Vr Nr] & Eu & Er). rewrite E1, E2, <- Ex, <- Ey. cbn.
    assert (A1 : num t x / num t y = num t q) by (symmetry; apply (Z.div_unique _ _ _ (num t r)); lia).
    assert (A2 : num t x mod num t y = num t r) by (symmetry; apply (Z.mod_unique _ _ (num t q)); lia).
    rewrite A1, A2. split; (split; [exact HG|apply fits_normal; assumption]). }
  destruct (thin B d) eqn:Eth.
  { clear HK. unfold thin in Eth. apply andb_prop in Eth as Eth2. destruct Eth2 as [T1 T2].
    apply Nat.eqb_eq in T1. apply Z.ltb_lt in T2. rewrite T1 in Ly.
    destruct y as [|d0 [|d1 [|]]]; try discriminate Ly.
    assert (Hd : 0 <= d0 < B /\ 0 <= d1 < B) by (unfold valid in Vy; rewrite !below_cons in Vy; tauto).
    assert (Ed : worth d = d0 + B * d1) by (rewrite <- Ey; unfold num; cbn [value]; lia).
    assert (d1 = 0) as -> by nia. assert (Ed' : worth d = d0) by lia. clear Ed Ey T2.
    assert (Ew : w0 = if d0 =? 0 then PExplicit DivisionByZero else PExplicit NoSpace) by (unfold w0; rewrite Ed'; reflexivity).
    assert (ER : no_room B c d <-> (width c <= places B (worth c / d0))%nat).
    { unfold no_room, thin. rewrite Eth, Ed'. tauto. }
    rewrite Ed' in *. rewrite ER in EG. clearbody w0. subst w0.
    destruct (pair_outcome dbg t x d0 Vx (proj1 Hd) EU) as (O1 & O2 & O3).
    destruct (Z.eqb_spec d0 0) as [Z0|Z0].
    - destruct (O1 Z0) as [-> ->]. assert (~ G) by (rewrite EG; tauto). cbn. auto.
    - rewrite <- Lx, <- Ex in EG. rewrite <- Ex in *.
      destruct (Nat.le_gt_cases (length x) (places B (num t x / d0))) as [HL|HL].
      + destruct (O2 Z0 HL) as [-> ->]. assert (~ G) by (rewrite EG; tauto). cbn. auto.
      + apply Done; [|exact (O3 Z0 HL)]. apply EG. split; [exact Z0|]. split; [lia|]. apply HS. cbn. lia. }
  destruct HK as [HK|[HK|[Td HK]]]; [discriminate HK|discriminate HK|].
  pose proof (HK x y Hx Hy) as HK'. clear HK. rename HK' into HK.
  pose proof (tight_normal y d Hy Td) as Wy.
  assert (Nx : num_lt x y = true -> normal x) by (rewrite EU; discriminate).
  assert (NR : ~ no_room B c d) by (unfold no_room; rewrite Eth; intros [K _]; discriminate K).
  destruct (Nat.eq_dec (length y) 0) as [H0|H0].
  { destruct y; [|discriminate H0]. change (num t []) with 0 in Ey.
    destruct (div_zero_claim dbg t x) as (_ & _ & -> & ->).
    assert (~ G) by (rewrite EG, <- Ey; tauto). unfold w0. rewrite <- Ey. cbn. auto. }
  assert (Hy0 : y <> []) by (intros ->; apply H0; reflexivity).
  pose proof (num_pos t y Wy Hy0) as Py. rewrite Ey in Py.
  assert (Ew : w0 = PUnwrap Underflow) by (unfold w0; destruct (Z.eqb_spec (worth d) 0); [lia|reflexivity]).
  destruct (Nat.le_gt_cases 20 (length y)) as [H20|H20].
  - assert (J : (divided dbg t x y /\ ~ recursive_jam t x y)
      \/ (recursive_jam t x y /\ ClaimsDivBig.stops dbg t x y (PUnwrap Underflow))).
    { destruct HK as [K|[[K _]|[_ K]]]; [lia|lia|]. destruct (is_binary t) eqn:Hb.
      - destruct (ClaimsBz.div_jam_pad dbg t false x y Vx Nx Wy H20 (or_introl Hb) (or_intror K)) as [H|[H|[H _]]]; auto. discriminate H.
      - destruct K as [K1 K2].
        destruct (ClaimsBz.div_jam_pad dbg t false x y Vx Nx Wy H20 (or_intror K1) (or_introl (conj Hb (or_intror K2)))) as [H|[H|[H _]]]; auto.
        discriminate H. }
    destruct J as [[J1 J2]|[J1 (_ & _ & E1 & E2)]].
    + apply Done; [|exact J1]. apply EG. split; [lia|]. split; [exact NR|]. apply HS. intros _. exact J2.
    + rewrite E1, E2, Ew. cbn.
      assert (~ G) by (rewrite EG; intros (_ & _ & K); exact (K x y Hx Hy H20 J1)). auto.
  - apply Done.
    + apply EG. split; [lia|]. split; [exact NR|]. apply HS. intros; lia.
    + apply div_short_pad; auto. destruct HK as [K|[[_ K]|[K _]]]; [left; lia|right; exact K|lia].
Qed.

Lemma div_T_fits x n : valid t x -> storage t n -> n < B \/ scales t 2 n ->
  spec (fun w => w = PExplicit DivisionByZero /\ ~ n <> 0) (div_assign_T dbg t x n)
    (fun r => n <> 0 /\ fits r (Cell (places B (num t x / n)) (num t x / n)))
  /\ spec (fun w => w = PExplicit DivisionByZero /\ ~ n <> 0) (rem_assign_T dbg t x n)
    (fun r => n <> 0 /\ fits r (Cell (places B (num t x mod n)) (num t x mod n))).
Proof.
  intros V Sn H. destruct (Z.lt_ge_cases n B) as [Hlt|Hge].
  - split; (eapply spec_weaken; [first [apply (div_assign_T_ok dbg t x n V Sn Hlt)|apply (rem_assign_T_ok dbg t x n V Sn Hlt)]| |]).
    1, 3: intros w [K1 K2]; split; [exact K1|tauto].
    all: intros r (A0 & A1 & A2 & A3); split; [exact A0|];
      change (value B r) with (num t r) in A3; change (value B x) with (num t x) in A3;
      rewrite <- A3; apply fits_normal; assumption.
  - destruct H as [H|H]; [lia|].
    destruct (div_pair_claim dbg t x n V Sn Hge H) as (q & r & -> & -> & [Vq Nq] & [Vr Nr] & Eu & Er). cbn.
    assert (A1 : num t x / n = num t q) by (symmetry; apply (Z.div_unique _ _ _ (num t r)); lia).
    assert (A2 : num t x mod n = num t r) by (symmetry; apply (Z.mod_unique _ _ (num t q)); lia).
    rewrite A1, A2. split; (split; [lia|apply fits_normal; assumption]).
Qed.

Lemma step_shows s r c : typed t s -> charted t s c -> shows r c ->
  spec (fun w => w = says t s c /\ ~ goes t s c) (model_step dbg t s r)
    (fun r' => goes t s c /\ shows r' (after t s c)).
Proof.
  intros Ht Hc Hr.
  assert (V : forall k, valid t (r k)) by (intros k; apply Hr).
  assert (L : forall k, width (c k) = length (r k)) by (intros k; symmetry; apply Hr).
  assert (E : forall k, worth (c k) = num t (r k)) by (intros k; symmetry; apply Hr).
  destruct s; cbn [typed charted] in *; unfold model_step, after, says, goes; cbv zeta; apply put_shows; auto.
  - apply always; [exact I|]. apply add_fits; apply Hr.
  - apply (sub_fits _ _ _ _ (Hr i) (Hr j)).
  - apply (mul_fits _ _ _ _ (Hr i) (Hr j)).
  - apply (div_fits _ _ _ _ (Hr i) (Hr j) Hc).
  - apply (div_fits _ _ _ _ (Hr i) (Hr j) Hc).
  - apply (square_fits _ _ (Hr i) Hc).
  - assert (EC : c i = Cell (length (r i)) (num t (r i))) by (rewrite <- L, <- E; destruct (c i); reflexivity).
    rewrite EC in *. cbn [width worth] in *. apply ends_fits, pow_ends; [|exact Hc].
    rewrite <- EC. apply Hr.
  - assert (EC : c i = Cell (length (r i)) (num t (r i))) by (rewrite <- L, <- E; destruct (c i); reflexivity).
    rewrite EC. cbn [width worth]. destruct (is_binary t) eqn:Hb.
    + apply always; [left; reflexivity|]. rewrite (bits_log dbg t Hb).
      eapply total_post; [apply (shl_bin_count dbg t (r i) n Hb (V i) Ht)|].
      intros x (A1 & A2 & A3). unfold SpecCount.fits. cbn [width worth]. auto.
    + destruct (one_pass B n) eqn:Ho.
      * apply always; [right; left; reflexivity|]. unfold one_pass in Ho. rewrite (hex_log dbg t Hb) in Ho.
        apply Z.leb_le in Ho. eapply total_post; [apply (shl_dec_count dbg t (r i) n Hb (V i) (conj Ht Ho))|].
        intros x (A1 & A2 & A3). unfold SpecCount.fits. cbn [width worth]. auto.
      * destruct Hc as [Hc|[Hc|HL]]; [discriminate Hc|discriminate Hc|].
        unfold one_pass in Ho. rewrite (hex_log dbg t Hb) in Ho. apply Z.leb_gt in Ho.
        assert (F : fits (r i) (Cell (length (r i)) (num t (r i)))) by (rewrite <- EC; apply Hr).
        eapply spec_weaken; [apply (ends_fits _ _ _ (shl_large_ends dbg t (r i) n _ _ Hb F Ht Ho HL))| |].
        -- intros w [K1 K2]. split; [exact K1|]. intros [K|[K|K]]; [discriminate K|discriminate K|auto].
        -- intros x [K1 K2]. split; [right; right; exact K1|exact K2].
  - destruct (is_binary t) eqn:Hb; cbn [andb].
    + rewrite (bits_log dbg t Hb). rewrite L, E.
      destruct (Z.le_gt_cases (n / bits t) (Z.of_nat (length (r i)))) as [Hle|Hgt].
      * apply always; [exact Hle|]. eapply total_post; [apply (shr_bin_count dbg t (r i) n Hb (V i) Ht Hle)|].
        intros x (A1 & A2 & A3). unfold SpecCount.fits. destruct (n mod bits t =? 0); cbn [width worth]; auto.
      * rewrite (shr_assign_bin_panic dbg t (r i) n Hb Hgt). cbn. split; [reflexivity|lia].
    + rewrite (hex_log dbg t Hb). rewrite E.
      destruct (Z.le_gt_cases n (4 * Z.of_nat (MAX_HEX_PLACES t))) as [Hle|Hgt].
      * apply always; [exact Hle|]. eapply total_post; [apply (shr_assign_dec_ok dbg t (r i) n Hb (V i) (conj Ht Hle))|].
        intros x (A1 & A2 & A3). change (value B (r i)) with (num t (r i)) in A2. rewrite <- A2. apply fits_normal; assumption.
      * rewrite (shr_assign_dec_panic dbg t (r i) n Hb Hgt). cbn [spec]. split; [reflexivity|lia].
  - apply always; [exact I|]. rewrite L, E.
    eapply total_post; [apply (add_T_count dbg t (r i) n (V i) Ht)|].
    intros x (A1 & A2 & A3). unfold SpecCount.fits. cbn [width worth]. auto.
  - assert (EC : c i = Cell (length (r i)) (num t (r i))) by (rewrite <- L, <- E; destruct (c i); reflexivity).
    rewrite EC. cbn [width worth]. destruct (Z.ltb_spec n B) as [Hlt|Hge].
    + replace (B <=? n) with false by (symmetry; apply Z.leb_gt; exact Hlt). cbn [andb].
      eapply spec_weaken; [apply (sub_T_count dbg t (r i) n (V i) Ht Hlt)| |].
      * intros w [K1 K2]. split; [exact K1|]. unfold num. lia.
      * intros x (A1 & A2 & A3). split; [unfold num; pose proof (value_nonneg B HB x A1); lia|].
        unfold SpecCount.fits. cbn [width worth]. conj; auto.
    + replace (B <=? n) with true by (symmetry; apply Z.leb_le; exact Hge). cbn [andb].
      eapply spec_weaken; [apply (sub_T2_count dbg t (r i) n (V i) Ht Hge)| |].
      * intros w [K1 K2]. split; [exact K1|]. unfold num. lia.
      * intros x (A0 & A1 & A2 & A3). split; [exact A0|].
        unfold SpecCount.fits. cbn [width worth]. conj; auto.
  - apply always; [exact I|]. rewrite L, E.
    eapply total_post; [apply (mul_T_count dbg t (r i) n (V i) Ht)|].
    intros x (A1 & A2 & A3). unfold SpecCount.fits. destruct (Z.eqb_spec n 0) as [->|Hz].
    + cbn [width worth]. conj; auto. unfold num. lia.
    + destruct (n <? B); cbn [width worth]; auto.
  - rewrite E. apply (div_T_fits (r i) n (V i) Ht Hc).
  - rewrite E. apply (div_T_fits (r i) n (V i) Ht Hc).
  - apply always; [exact I|]. apply (Hr j).
  - apply always; [exact I|]. destruct (from_T_ok t n Ht) as (A1 & A2 & A3).
    change (num t (from_T t n) = n) in A3. ret. rewrite <- A3 at 2 3. apply fits_normal; assumption.
Qed.

Lemma run_shows p : Forall (typed t) p -> forall r c, charted_run t p c -> shows r c ->
  spec (stop_says t p c) (model_run dbg t p r) (fun r' => all_go t p c /\ shows r' (final t p c)).
Proof.
  induction p as [|s p IH]; intros Ht r c Hc Hr; cbn [model_run all_go final stop_says]; [ret; auto|].
  inversion_clear Ht. destruct Hc as [Hc Hn]. pose proof (step_shows s r c H Hc Hr) as HS.
  destruct (model_step dbg t s r) as [r1|w|]; cbn [spec bind] in *; [|tauto|contradiction].
  destruct HS as [HG HS]. eapply spec_weaken; [apply (IH H0 r1 _ (Hn HG) HS)| |].
  - intros w Hw. right. auto.
  - intros r' [A1 A2]. auto.
Qed.
End Run.

(** all steps go, or one stops; the message is determined *)
Lemma go_or_stop t p : forall c w, all_go t p c -> ~ stop_says t p c w.
Proof.
  induction p as [|s p IH]; intros c w HG HS; cbn in HG, HS; [exact HS|].
  destruct HG as [G1 G2], HS as [[S1 _]|[_ S2]]; [auto|exact (IH _ _ G2 S2)].
Qed.
Lemma one_message t p : forall c w w', stop_says t p c w -> stop_says t p c w' -> w = w'.
Proof.
  induction p as [|s p IH]; intros c w w' H H'; cbn in H, H'; [contradiction|].
  destruct H as [[S1 E1]|[G1 R1]], H' as [[S2 E2]|[G2 R2]]; try contradiction; [congruence|].
  exact (IH _ _ _ R1 R2).
Qed.

Lemma run_claim dbg t p r c : Forall (typed t) p -> charted_run t p c -> shows t r c ->
  (all_go t p c <-> exists r', model_run dbg t p r = Ret r')
  /\ (forall r', model_run dbg t p r = Ret r' -> shows t r' (final t p c))
  /\ (forall w, model_run dbg t p r = Panic w <-> stop_says t p c w)
  /\ model_run dbg t p r <> NoFuel.
Proof.
  intros Ht Hc Hr. pose proof (run_shows dbg t p Ht r c Hc Hr) as H.
  destruct (model_run dbg t p r) as [r1|w1|]; cbn [spec] in H; [| |contradiction].
  - destruct H as [HG HS]. split; [|split; [|split]].
    + split; [eauto|intros _; exact HG].
    + intros r' [= <-]. exact HS.
    + intros w. split; [discriminate|]. intros K. exfalso. exact (go_or_stop t p c w HG K).
    + discriminate.
  - split; [|split; [|split]].
    + split; [|intros [? ?]; discriminate]. intros HG. exfalso. exact (go_or_stop t p c w1 HG H).
    + discriminate.
    + intros w. split; [intros [= <-]; exact H|]. intros K. f_equal. exact (one_message t p c _ _ H K).
    + discriminate.
Qed.

Lemma build_claim t p r c : Forall (typed t) p -> charted_run t p c -> shows t r c ->
  match model_run true t p r, model_run false t p r with
  | Ret a, Ret b => forall k, a k = b k
  | Panic v, Panic w => v = w
  | _, _ => False
  end.
Proof.
  intros Ht Hc Hr. pose proof (run_shows true t p Ht r c Hc Hr) as H1.
  pose proof (run_shows false t p Ht r c Hc Hr) as H2.
  destruct (model_run true t p r) as [a|v|]; cbn [spec] in H1; [| |contradiction];
    (destruct (model_run false t p r) as [b|w|]; cbn [spec] in H2; [| |contradiction]).
  - intros k. apply (fits_same t _ _ (final t p c k)); [apply H1|apply H2].
  - exact (go_or_stop _ _ _ _ (proj1 H1) H2).
  - exact (go_or_stop _ _ _ _ (proj1 H2) H1).
  - exact (one_message _ _ _ _ _ H1 H2).
Qed.

Lemma plain_charted t p : Forall (plain t) p -> forall c, charted_run t p c.
Proof.
  induction 1 as [|s p Hs Hp IH]; intros c; cbn [charted_run]; [exact I|]. split; [|intros _; apply IH].
  destruct s; cbn [plain charted] in *; auto; try contradiction.
  - intros k Hk HE. pose proof (Z.pow_le_mono_r 2 1 (k + 1) ltac:(lia) ltac:(lia)). lia.
  - destruct Hs as [H|H]; auto.
Qed.
