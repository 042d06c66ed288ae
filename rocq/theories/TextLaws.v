(** * TextLaws: printing what was parsed and parsing what was printed. *)
From Coq Require Import ZArith List Bool Lia.
From Verif Require Import Base Digit Slice Mul Div UBig Text Spec Hoare DigitOK ListLemmas
  SliceProof MulProof UBigProof DivProof TypedProof TextProof Cases ClaimsBasic ClaimsMul ClaimsText.
Import ListNotations.
Open Scope Z_scope.
Open Scope m_scope.

(** ** Minimal numerals are unique. *)
Lemma numeral_rev base s : numeral_value base s = value base (rev (map char_value s)).
Proof.
  induction s as [|c s IH] using rev_ind; [reflexivity|].
  rewrite nv_app, map_app, rev_app_distr. cbn [map rev app value length].
  rewrite IH, nv_cons, nv_nil. cbn [length]. change (Z.of_nat 1) with 1. change (Z.of_nat 0) with 0.
  rewrite Z.pow_1_r, Z.pow_0_r. ring.
Qed.

Lemma char_inj base c d : good_base base -> char_of_base base c -> char_of_base base d ->
  ~ 65 <= c <= 90 -> ~ 65 <= d <= 90 -> char_value c = char_value d -> c = d.
Proof.
  unfold good_base, char_of_base, dec_char, hex_char, char_value.
  intros Hb Hc Hd Lc Ld.
  destruct (Z.leb_spec c 57), (Z.leb_spec d 57), (Z.leb_spec 97 c), (Z.leb_spec 97 d); lia.
Qed.

Lemma map_inj base s s' : good_base base -> Forall (char_of_base base) s -> Forall (char_of_base base) s' ->
  lower_case s -> lower_case s' -> map char_value s = map char_value s' -> s = s'.
Proof.
  intros Hb. revert s'. induction s as [|c s IH]; intros [|d s'] H H' L L' E; cbn in E; try discriminate; auto.
  inversion H; inversion H'; inversion L; inversion L'; subst. injection E as E1 E2. f_equal.
  - eapply char_inj; eauto.
  - apply IH; auto.
Qed.

Lemma minimal_unique base s s' : good_base base -> numeral_of base s -> numeral_of base s' ->
  minimal s -> minimal s' -> lower_case s -> lower_case s' ->
  numeral_value base s = numeral_value base s' -> s = s'.
Proof.
  intros Hb [N1 F1] [N2 F2] M1 M2 L1 L2 E.
  assert (HB : 1 < base) by (unfold good_base in Hb; lia).
  (* the character values without the leading zero of "0" *)
  assert (Hdig : forall s, Forall (char_of_base base) s -> below base (rev (map char_value s))).
  { intros u Fu. unfold below. apply Forall_rev. apply Forall_forall. intros v Hv.
    apply in_map_iff in Hv. destruct Hv as (c & <- & Hc). rewrite Forall_forall in Fu.
    apply (char_digit_yes base c Hb). auto. }
  assert (Hpos : forall s, s <> [] -> Forall (char_of_base base) s -> hd 48 s <> 48 -> lower_case s ->
    normal (rev (map char_value s)) /\ 0 < numeral_value base s).
  { intros u Nu Fu Hu Lu. destruct u as [|c u]; [contradiction|]. cbn [hd] in Hu.
    assert (char_value c <> 0).
    { inversion Fu; subst. inversion Lu; subst.
      intros Hc. apply Hu. apply (char_inj base); auto; [apply zero_char, Hb|lia]. }
    cbn [map rev]. split; [apply normal_snoc; assumption|].
    rewrite nv_cons. inversion Fu; subst.
    pose proof (nv_bound base u Hb ltac:(assumption)).
    destruct (char_digit_yes base c Hb ltac:(assumption)) as [_ ?].
    assert (0 < base ^ Z.of_nat (length u)) by (apply Z.pow_pos_nonneg; lia). nia. }
  assert (Hz : numeral_value base [48] = 0) by (rewrite nv_cons, nv_nil; cbn; lia).
  destruct M1 as [->|M1], M2 as [->|M2]; auto.
  - destruct (Hpos s' N2 F2 M2 L2). lia.
  - destruct (Hpos s N1 F1 M1 L1). lia.
  - apply (map_inj base); auto.
    rewrite <- (rev_involutive (map char_value s)), <- (rev_involutive (map char_value s')). f_equal.
    rewrite !numeral_rev in E.
    apply (normal_inj base HB); auto; [apply (Hpos s)|apply (Hpos s')]; auto.
Qed.

Lemma dec_lower s : Forall (char_of_base 10) s -> lower_case s.
Proof. intros H. eapply Forall_impl; [|exact H]. cbn. unfold char_of_base, dec_char. lia. Qed.

(** ** parse, then print *)
Lemma parse_print_dec_claim dbg t s : is_binary t = false -> numeral_of 10 s -> minimal s ->
  exists r, from_str dbg t s = Ret (ROk r) /\ fmt_display_dec t plain r = s.
Proof.
  intros Hb N M. destruct (parse_dec_claim dbg t s N) as (r & E & W & V). exists r. split; [exact E|].
  destruct (dec_claim t r Hb W) as (s' & -> & N' & V' & M').
  apply (minimal_unique 10); auto; [left; reflexivity|apply dec_lower, N'|apply dec_lower, N|congruence].
Qed.

Lemma parse_print_bin_claim dbg t s : is_binary t = true -> numeral_of 10 s -> minimal s ->
  numeral_value 10 s < radix t ^ 15 ->
  exists r, from_str dbg t s = Ret (ROk r) /\ fmt_display_bin dbg t plain r = Ret s.
Proof.
  intros Hb N M HL. destruct (parse_dec_claim dbg t s N) as (r & E & W & V). exists r. split; [exact E|].
  destruct (display_bin_claim dbg t r Hb W) as (s' & E' & N' & V' & M').
  - destruct r as [|d r]; [cbn; lia|]. destruct W as [Vr Nr].
    pose proof (normal_lower (radix t) (radix_gt t) _ Vr Nr ltac:(discriminate)) as Hlow.
    destruct (Nat.lt_ge_cases (length (d :: r)) 16) as [|Hg]; [assumption|exfalso].
    assert (radix t ^ 15 <= pw (radix t) (length (d :: r) - 1)).
    { unfold pw. apply Z.pow_le_mono_r; [pose proof (radix_gt t); lia|lia]. }
    unfold num in V. lia.
  - rewrite E'. f_equal.
    apply (minimal_unique 10); auto; [left; reflexivity|apply dec_lower, N'|apply dec_lower, N|congruence].
Qed.

Lemma parse_print_hex_claim dbg t s : is_binary t = true -> numeral_of 16 s -> minimal s -> lower_case s ->
  exists r, from_str dbg t (hex_prefix ++ s) = Ret (ROk r) /\ fmt_hex t false plain r = s
    /\ fmt_hex t false alternate r = hex_prefix ++ s.
Proof.
  intros Hb N M L. destruct (parse_hex_claim dbg t s N) as (r & E & W & V). exists r. split; [exact E|].
  destruct (hex_claim t false r Hb W) as (s' & E1 & E2 & N' & V' & M' & L').
  assert (s' = s) as ->.
  { apply (minimal_unique 16); auto; [right; reflexivity|congruence]. }
  auto.
Qed.

(** ** print, then parse: binary types in decimal *)
Lemma print_parse_bin_claim dbg t x : is_binary t = true -> well_formed t x -> (length x < 16)%nat ->
  exists s, fmt_display_bin dbg t plain x = Ret s /\ from_str dbg t s = Ret (ROk x).
Proof.
  intros Hb W HL. destruct (display_bin_claim dbg t x Hb W HL) as (s & E & N & V & _).
  exists s. split; [exact E|]. destruct (parse_dec_claim dbg t s N) as (r & E' & W' & V').
  rewrite E'. do 2 f_equal. apply (wf_eq t); auto. congruence.
Qed.

(** printing is injective *)
Lemma print_inj_dec_claim t x y : is_binary t = false -> well_formed t x -> well_formed t y ->
  fmt_display_dec t plain x = fmt_display_dec t plain y -> x = y.
Proof.
  intros Hb Wx Wy E. destruct (dec_claim t x Hb Wx) as (s & E1 & _ & V1 & _).
  destruct (dec_claim t y Hb Wy) as (s' & E2 & _ & V2 & _). apply (wf_eq t); auto. congruence.
Qed.

(** ** the same text over types of different width *)
Lemma transfer_claim dbg t u x : is_binary t = false -> is_binary u = false -> well_formed t x ->
  exists y, from_str dbg u (fmt_display_dec t plain x) = Ret (ROk y) /\ well_formed u y /\ num u y = num t x
    /\ fmt_display_dec u plain y = fmt_display_dec t plain x.
Proof.
  intros Ht Hu W. destruct (dec_claim t x Ht W) as (s & E & N & V & M). rewrite E.
  destruct (parse_dec_claim dbg u s N) as (y & E' & W' & V'). exists y. repeat split; auto; try apply W'; [congruence|].
  destruct (parse_print_dec_claim dbg u s Hu N M) as (y' & E2 & E3).
  assert (y' = y) as -> by congruence. exact E3.
Qed.
