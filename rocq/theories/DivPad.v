(** * DivPad: division by numbers with leading zeros. *)
From Coq Require Import ZArith List Bool Lia.
From Verif Require Import Base Digit Slice Mul Div UBig Spec SpecDiv SpecMul Hoare DigitOK ListLemmas
  SliceProof MulProof UBigProof DivProof DivTopProof DivSize KaraExact TypedProof Cases ClaimsBasic ClaimsDiv ClaimsDivBig SpecBz ClaimsBz.
Import ListNotations.
Open Scope Z_scope.
Open Scope m_scope.

(** Nothing is divided if the dividend has fewer digits, or as many and is smaller. *)
Lemma nothing_divided dbg t x y : valid t x -> num_lt x y = true ->
  div_assign (impl dbg t) x y = Ret [] /\ rem_assign (impl dbg t) x y = Ret x.
Proof.
  intros V E. assert (Hy : y <> []).
  { intros ->. apply num_lt_true_len in E as L. destruct x; [discriminate E|cbn in L; lia]. }
  destruct (total_inv _ _ (new_ok (radix t) x V)) as (r & Er & _).
  unfold div_assign, rem_assign, div_assign_big, rem_assign_big. rewrite !(div_big_small (impl dbg t) x y) by assumption.
  cbn [bind]. unfold truncate. rewrite firstn_all, Er. cbn [bind firstn or_panic].
  split; [destruct (_ <? _)%nat|destruct (_ <=? _)%nat]; reflexivity.
Qed.

(** ** One digit and a leading zero *)
Section Pair.
Variables (dbg : bool) (t : dty).
Notation B := (radix t).
Notation D := (impl dbg t).
Let OK : digit_ok B D := impl_ok dbg t.
Let HB : 1 < B := radix_gt t.

Definition one_of (r : Z) : digits := if r =? 0 then [] else [r].
Lemma rem_list n r : (1 <= n)%nat -> firstn (if r =? 0 then 0 else 1) (if r =? 0 then zeros n else r :: zeros (n - 1))
  = one_of r.
Proof. intros H. unfold one_of. destruct (r =? 0); reflexivity. Qed.

Lemma pair_big x d : valid t x -> (2 <= length x)%nat -> 0 <= d < B -> num_lt x [d; 0] = false ->
  exists q nq, length q = length x /\ valid t q /\ (nq <= length x)%nat
  /\ (d <> 0 -> num t (firstn nq q) = num t x / d /\ normal (firstn nq q))
  /\ div_big D x [d; 0] (zeros (length x - 2 + 1)) =
     if d =? 0 then Ret (x, zeros (length x - 2 + 1), RErr DivisionByZero)
     else if (length x - 2 + 1 <? nq)%nat then Ret (q, zeros (length x - 2 + 1), RErr NoSpace)
     else let r := num t x mod d in
       Ret (if r =? 0 then zeros (length x) else r :: zeros (length x - 1),
            firstn nq q ++ skipn nq (zeros (length x - 2 + 1)), ROk (nq, if r =? 0 then 0%nat else 1%nat)).
Proof.
  intros Vx Lx Hd E.
  destruct (total_inv _ _ (div_assign_digit_ok B D OK x d Vx Hd)) as ([q res] & Ed & H).
  assert (EL : div_big D x [d; 0] (zeros (length x - 2 + 1)) =
    '((num, quot, _), r) <- div_big_with_work D x [d; 0] (zeros (length x - 2 + 1)) [] ;; Ret (num, quot, r))
    by (unfold div_big; cbn [length]; reflexivity).
  rewrite EL. clear EL. unfold div_big_with_work, div_big_with_work_gen. rewrite E. cbn [length Nat.eqb].
  rewrite zeros_length. rewrite Nat.ltb_irrefl. cbn [andb get nth_error bind].
  unfold div_assign_digit_pair. change (0 =? 0) with true. cbv iota. rewrite Ed. cbn [bind].
  destruct res as [[nq r]|e].
  - destruct H as (Hd0 & Lq & Dq & Vq & Er & Hn & Vn & Nn). exists q, nq. conj; auto.
    { intros _. split; [unfold num; congruence|exact Nn]. }
    replace (d =? 0) with false by (symmetry; apply Z.eqb_neq; exact Hd0).
    destruct (Nat.ltb_spec (length x - 2 + 1) nq) as [H1|H1]; [reflexivity|].
    rewrite copy_prefix_ok by (len; lia). cbn [bind]. rewrite Lq. cbv zeta. unfold num. rewrite <- Er.
    destruct (Z.eqb_spec r 0) as [->|Hr]; [reflexivity|].
    rewrite set_ok by (len; lia). cbn [bind firstn app].
    replace (skipn 1 (zeros (length x))) with (zeros (length x - 1)); [reflexivity|].
    destruct (length x) as [|n]; [lia|]. cbn. rewrite Nat.sub_0_r. reflexivity.
  - destruct H as (-> & -> & ->). exists x, 0%nat. conj; auto; try lia.
Qed.

(** the quotient has to fit into one digit less than the dividend has *)
Lemma pair_outcome x d : valid t x -> 0 <= d < B -> num_lt x [d; 0] = false ->
  (d = 0 -> div_assign D x [d; 0] = Panic (PExplicit DivisionByZero)
            /\ rem_assign D x [d; 0] = Panic (PExplicit DivisionByZero))
  /\ (d <> 0 -> (length x <= places B (num t x / d))%nat ->
       div_assign D x [d; 0] = Panic (PExplicit NoSpace) /\ rem_assign D x [d; 0] = Panic (PExplicit NoSpace))
  /\ (d <> 0 -> (places B (num t x / d) < length x)%nat -> divided dbg t x [d; 0]).
Proof.
  intros Vx Hd E. assert (Lx : (2 <= length x)%nat) by (apply num_lt_false_len in E; exact E).
  destruct (pair_big x d Vx Lx Hd E) as (q & nq & Lq & Vq & Hn & HV & ED).
  assert (E1 : div_assign_big D x [d; 0] = 
    '((rem, self), r) <- div_big D x [d; 0] (zeros (length x - 2 + 1)) ;;
    match r with
    | RErr e => Ret (self, RErr e)
    | ROk (nquot, nrem) => r <- ubig_new (truncate nrem rem) ;; Ret (truncate nquot self, ROk r)
    end).
  { unfold div_assign_big. cbn [length]. destruct (Nat.ltb_spec (length x) 2); [lia|reflexivity]. }
  assert (E2 : rem_assign_big D x [d; 0] =
    '((self, _), r) <- div_big D x [d; 0] (zeros (length x - 2 + 1)) ;;
    match r with
    | RErr e => Ret (self, RErr e)
    | ROk (_, nrem) => Ret (truncate nrem self, ROk tt)
    end).
  { unfold rem_assign_big. cbn [length]. destruct (Nat.leb_spec 2 (length x)); [reflexivity|lia]. }
  rewrite ED in E1, E2.
  assert (HQ : d <> 0 -> nq = places B (num t x / d)).
  { intros H. destruct (HV H) as [H1 H2]. rewrite <- H1.
    unfold num. rewrite (normal_places B D OK) by (auto; apply below_firstn; exact Vq). len. }
  split; [|split].
  - intros ->. change (0 =? 0) with true in E1, E2. cbn [bind] in E1, E2. unfold div_assign, rem_assign.
    rewrite E1, E2. split; reflexivity.
  - intros H HL. replace (d =? 0) with false in E1, E2 by (symmetry; apply Z.eqb_neq; exact H).
    destruct (Nat.ltb_spec (length x - 2 + 1) nq) as [_|K]; [|rewrite (HQ H) in K; lia].
    cbn [bind] in E1, E2. unfold div_assign, rem_assign. rewrite E1, E2. split; reflexivity.
  - intros H HL. replace (d =? 0) with false in E1, E2 by (symmetry; apply Z.eqb_neq; exact H).
    destruct (Nat.ltb_spec (length x - 2 + 1) nq) as [K|_]; [rewrite (HQ H) in K; lia|].
    cbv zeta in E1, E2. cbn [bind] in E1, E2. unfold truncate in E1, E2.
    rewrite rem_list in E1, E2 by lia. rewrite firstn_exact in E1 by len.
    set (r := num t x mod d) in *.
    pose proof (Z.mod_pos_bound (num t x) d ltac:(lia)) as Hr. fold r in Hr.
    assert (Wr : well_formed t (one_of r) /\ num t (one_of r) = r).
    { unfold one_of. destruct (Z.eqb_spec r 0) as [->|Hr0].
      - split; [split; [apply below_nil|apply normal_nil]|reflexivity].
      - split; [split; [apply below_cons; split; [lia|apply below_nil]|apply normal_single; exact Hr0]|].
        unfold num. cbn [value]. lia. }
    assert (En : ubig_new (one_of r) = Ret (one_of r)).
    { destruct Wr as [[V N] _]. destruct (total_inv _ _ (new_ok B _ V)) as (s & Es & S1 & S2 & S3).
      refine (eq_trans Es _). f_equal. apply (normal_inj B HB); auto. }
    rewrite En in E1. cbn [bind] in E1.
    assert (Ey : num t [d; 0] = d) by (unfold num; cbn [value]; lia).
    destruct (HV H) as [Q1 Q2].
    eapply divided_intro; [exact E1|exact E2| | | | | | |]; rewrite ?Ey; try apply Wr; try lia.
    split; [apply below_firstn; exact Vq|exact Q2].
Qed.
End Pair.

(** ** Three digits or more: debug builds of binary types and D64 *)
Lemma shl_width_panics t x : is_binary t = true -> x <> [] ->
  shl_carry_assign_within_digit (impl true t) x (bits t) 0 = Panic POverflow.
Proof.
  intros Hb Hx. destruct x as [|d x]; [contradiction|].
  destruct t; try discriminate Hb; reflexivity.
Qed.
Lemma zero_shift t : is_binary t = true -> d_max_shift (impl true t) 0 = Ret (bits t).
Proof. destruct t; intros Hb; try discriminate Hb; reflexivity. Qed.

Lemma padded_panics t x y : is_binary t = true \/ t = D64 -> (2 <= length y)%nat -> num_lt x (y ++ [0]) = false ->
  ClaimsDivBig.stops true t x (y ++ [0]) POverflow.
Proof.
  intros Hb Ly E. assert (L := E). apply num_lt_false_len in L.
  assert (Ln : length (y ++ [0]) = S (length y)) by (rewrite app_length; cbn; lia).
  apply stops_intro; [|exact L].
  assert (Hy : y ++ [0] <> []) by (intros K; rewrite K in Ln; discriminate Ln).
  unfold div_big, div_big_with_work, div_big_with_work_gen. rewrite E.
  set (nd := length (y ++ [0])) in *.
  destruct (Nat.leb_spec nd 2); [lia|]. cbn [orb].
  destruct (Nat.eqb_spec nd 0); [lia|]. destruct (Nat.eqb_spec nd 1); [lia|]. destruct (Nat.eqb_spec nd 2); [lia|].
  rewrite zeros_length, Nat.ltb_irrefl. cbn [andb].
  assert (G : get (y ++ [0]) (nd - 1) = Ret 0).
  { unfold get. rewrite nth_error_app2 by lia. replace (nd - 1 - length y)%nat with 0%nat by lia. reflexivity. }
  assert (Et : d_dbg (impl true t) = true) by (destruct t; reflexivity).
  assert (B1 : (2 <? nd)%nat = true) by (apply Nat.ltb_lt; lia).
  assert (B2 : (nd <=? length x)%nat = true) by (apply Nat.leb_le; exact L).
  set (k := (length x - nd + 1)%nat).
  assert (Hz : bits t =? 0 = false) by (destruct t; reflexivity).
  destruct (Nat.ltb_spec nd BZ_CUTOFF) as [Hc|Hc].
  - unfold div_big_long, debug_work, debug_assert. fold nd. fold k. rewrite Et, B1, B2, !zeros_length.
    rewrite (Nat.leb_refl k). cbn [orb].
    assert (B3 : (calc_div_long_work_size nd <=? BZ_CUTOFF)%nat = true)
      by (apply Nat.leb_le; unfold calc_div_long_work_size; lia).
    rewrite B3. unfold guard. cbn [bind]. rewrite G. cbn [bind].
    destruct Hb as [Hb| ->]; [|reflexivity]. rewrite (zero_shift t Hb). cbn [bind].
    rewrite Hz, (shl_width_panics t _ Hb Hy). reflexivity.
  - unfold div_big_bz, debug_work, debug_assert. fold nd. fold k. rewrite Et, B1, E, !zeros_length.
    rewrite !Nat.leb_refl. unfold guard. cbn [negb bind].
    unfold BZ_CUTOFF in Hc. destruct (block_size_ok nd Hc) as [_ Hbs].
    rewrite copy_into_ok by (len; fold nd; lia). cbn [bind].
    set (sd := firstn (block_size nd - nd) (zeros (block_size nd)) ++ (y ++ [0]) ++ skipn (block_size nd) (zeros (block_size nd))).
    assert (G' : get sd (block_size nd - 1) = Ret 0).
    { unfold sd, get. rewrite nth_error_app2 by (len; lia).
      rewrite nth_error_app1 by (len; fold nd; lia).
      rewrite firstn_length_le by (len; lia). replace (block_size nd - 1 - (block_size nd - nd))%nat with (nd - 1)%nat by lia.
      exact G. }
    rewrite G'. cbn [bind]. destruct Hb as [Hb| ->]; [|reflexivity]. rewrite (zero_shift t Hb). cbn [bind].
    rewrite (shl_width_panics t sd Hb); [reflexivity|].
    intros K. unfold get in G'. rewrite K in G'. destruct (block_size nd - 1)%nat; discriminate G'.
Qed.

(** ** The forms used by the properties *)
Lemma precedes_lt t x y : valid t x -> valid t y ->
  precedes (length x) (num t x) (length y) (num t y) = num_lt x y.
Proof.
  intros V V'. unfold precedes.
  destruct (Nat.ltb_spec (length x) (length y)) as [H|H]; cbn [orb]; [symmetry; apply num_lt_shorter, H|].
  destruct (Nat.eqb_spec (length x) (length y)) as [H1|H1]; cbn [andb].
  - symmetry. apply (num_lt_same (radix t) (radix_gt t)); assumption.
  - destruct (num_lt x y) eqn:E; [|reflexivity]. apply num_lt_true_len in E. lia.
Qed.
Lemma undivided_claim dbg t x y : valid t x -> valid t y ->
  precedes (length x) (num t x) (length y) (num t y) = true ->
  div_assign (impl dbg t) x y = Ret [] /\ rem_assign (impl dbg t) x y = Ret x.
Proof. intros V V'. rewrite precedes_lt by assumption. apply nothing_divided, V. Qed.
Lemma thin_valid t d : 0 <= d < radix t -> valid t [d; 0].
Proof. intros H. pose proof (radix_gt t). apply below_cons. split; [lia|]. apply below_cons. split; [lia|apply below_nil]. Qed.
Lemma thin_claim dbg t x d : valid t x -> 0 <= d < radix t ->
  precedes (length x) (num t x) 2 d = false ->
  (d = 0 -> div_assign (impl dbg t) x [d; 0] = Panic (PExplicit DivisionByZero)
            /\ rem_assign (impl dbg t) x [d; 0] = Panic (PExplicit DivisionByZero))
  /\ (d <> 0 -> (length x <= places (radix t) (num t x / d))%nat ->
       div_assign (impl dbg t) x [d; 0] = Panic (PExplicit NoSpace)
       /\ rem_assign (impl dbg t) x [d; 0] = Panic (PExplicit NoSpace))
  /\ (d <> 0 -> (places (radix t) (num t x / d) < length x)%nat -> divided dbg t x [d; 0]).
Proof.
  intros V Hd H. apply pair_outcome; auto. rewrite <- (precedes_lt t) by (auto using thin_valid).
  unfold num at 2. cbn [value length]. replace (d + radix t * (0 + radix t * 0)) with d by lia. exact H.
Qed.
Lemma padded_claim t x y : is_binary t = true \/ t = D64 -> valid t x -> valid t y -> (2 <= length y)%nat ->
  precedes (length x) (num t x) (S (length y)) (num t y) = false ->
  ClaimsDivBig.stops true t x (y ++ [0]) POverflow.
Proof.
  intros Hb V V' L H. apply padded_panics; auto. rewrite <- (precedes_lt t); auto.
  - replace (length (y ++ [0])) with (S (length y)) by (rewrite app_length; cbn; lia).
    replace (num t (y ++ [0])) with (num t y) by (unfold num; rewrite push_val; lia). exact H.
  - apply below_app. split; [exact V'|]. pose proof (radix_gt t). apply below_cons. split; [lia|apply below_nil].
Qed.
Lemma short_pad_claim dbg t x y : valid t x -> well_formed t y -> y <> [] ->
  precedes (length x) (num t x) (length y) (num t y) = false ->
  (length y < 20)%nat -> (length y = 1%nat \/ divides t x y) -> divided dbg t x y.
Proof.
  intros V W Hy H. rewrite precedes_lt in H by (auto; apply W). apply div_short_pad; auto. rewrite H. discriminate.
Qed.
Lemma large_pad_claim dbg t x y : valid t x -> well_formed t y -> (20 <= length y)%nat ->
  precedes (length x) (num t x) (length y) (num t y) = false ->
  (if is_binary t then ~ recursive_tie t x y else scales t (length y) (num t y) /\ ~ recursive_open t x y) ->
  (recursive_jam t x y -> ClaimsDivBig.stops dbg t x y (PUnwrap Underflow))
  /\ (~ recursive_jam t x y -> divided dbg t x y).
Proof.
  intros V W L H HK. rewrite precedes_lt in H by (auto; apply W).
  assert (Nx : num_lt x y = true -> normal x) by (rewrite H; discriminate).
  assert (J : (divided dbg t x y /\ ~ recursive_jam t x y)
    \/ (recursive_jam t x y /\ ClaimsDivBig.stops dbg t x y (PUnwrap Underflow))).
  { destruct (is_binary t) eqn:Hb.
    - destruct (ClaimsBz.div_jam_pad dbg t false x y V Nx W L (or_introl Hb) (or_intror HK)) as [J|[J|[J _]]]; auto. discriminate J.
    - destruct HK as [K1 K2].
      destruct (ClaimsBz.div_jam_pad dbg t false x y V Nx W L (or_intror K1) (or_introl (conj Hb (or_intror K2)))) as [J|[J|[J _]]]; auto.
      discriminate J. }
  tauto.
Qed.
