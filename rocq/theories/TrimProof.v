(** * TrimProof: expressions without leading zeros. *)
From Coq Require Import ZArith NArith List Bool Lia.
From Verif Require Import Base Digit Slice UBig Text Calc Spec SpecMul SpecToom SpecHist SpecCount SpecCalc
  DigitOK ListLemmas TypedProof KaraExact CountProof CountRun PowCount CalcProof ExprProof TallyProof SumProof.
From Verif Require Import Expr SpecExpr SpecTally SpecTrim.
Import ListNotations.
Open Scope Z_scope.

Section Trim.
Variable t : dty.
Notation B := (radix t).
Let HB : 1 < B := radix_gt t.
Let OK := impl_ok true t.

Lemma zero_places : places B 0 = 0%nat.
Proof. destruct t; reflexivity. Qed.
Lemma tight_norm v : tight B (Cell (places B v) v).
Proof. reflexivity. Qed.
Lemma places_unfold v : 0 < v -> places B v = S (places B (v / B)).
Proof.
  intros Hv. pose proof (places_lt B (impl true t) OK v ltac:(lia)) as L. unfold pw in L.
  assert (Hq : 0 <= v / B) by (apply Z.div_pos; lia).
  pose proof (places_lt B (impl true t) OK (v / B) Hq) as Q. unfold pw in Q.
  apply Nat.le_antisymm.
  - apply (places_le B (impl true t) OK). split; [lia|]. unfold pw. rewrite Nat2Z.inj_succ, Z.pow_succ_r by lia.
    pose proof (Z.mul_succ_div_gt v B ltac:(lia)). nia.
  - destruct (places B v) as [|m] eqn:E; [change (B ^ Z.of_nat 0) with 1 in L; lia|]. apply le_n_S.
    apply (places_le B (impl true t) OK). split; [exact Hq|]. unfold pw.
    rewrite Nat2Z.inj_succ, Z.pow_succ_r in L by lia. apply Z.div_lt_upper_bound; lia.
Qed.
Lemma places_shift v k : 0 <= v -> (places B v - k)%nat = places B (v / B ^ Z.of_nat k).
Proof.
  intros Hv. revert v Hv. induction k as [|k IH]; intros v Hv.
  - change (B ^ Z.of_nat 0) with 1. rewrite Z.div_1_r. lia.
  - assert (Hk : 0 < B ^ Z.of_nat k) by (apply Z.pow_pos_nonneg; lia).
    rewrite Nat2Z.inj_succ, Z.pow_succ_r, <- Z.div_div by lia.
    assert (Hq : 0 <= v / B) by (apply Z.div_pos; lia).
    rewrite <- IH by exact Hq. destruct (Z.eq_dec v 0) as [->|H0].
    + rewrite Z.div_0_l by lia. rewrite zero_places. reflexivity.
    + rewrite (places_unfold v) by lia. reflexivity.
Qed.
Lemma wide_tight v k : 0 <= v -> 0 <= k < B -> wide B (places B v) (v * k) = places B (v * k) \/ k = 0.
Proof.
  intros Hv Hk. destruct (Z.eq_dec k 0) as [->|H0]; [right; reflexivity|left].
  rewrite (wide_max true t).
  - pose proof (places_mono' true t v (v * k)). nia.
  - split; [nia|]. pose proof (places_lt B (impl true t) OK v Hv) as L. unfold pw in L.
    rewrite Nat2Z.inj_succ, Z.pow_succ_r by lia. nia.
Qed.

Lemma trim_tight e : forall c, comes_to t e (Value c) -> trim t e -> tight B c.
Proof.
  induction e as [s|a IHa b IHb|a IHa b IHb|a IHa b IHb|a IHa b IHb|a IHa b IHb|a IHa n|a IHa n|a IHa n];
    intros c H T; cbn [comes_to trim] in *.
  - destruct H as [(v & H & E)|[_ E]]; [injection E as ->; reflexivity|discriminate E].
  - destruct (two_value _ _ _ _ _ H) as (p & q & Hp & Hq & G & ->).
    specialize (IHa p Hp (proj1 T)). specialize (IHb q Hq (proj2 T)).
    destruct (fate_value true t _ _ Hp) as (x & _ & Fx). destruct (fate_value true t _ _ Hq) as (y & _ & Fy).
    pose proof (fits_bound t _ _ Fx) as Bx. pose proof (fits_bound t _ _ Fy) as By.
    unfold tight in *. cbn [after update Nat.eqb operands width worth].
    rewrite (wide_sum true t _ _ _ _ Bx By), IHa, IHb.
    pose proof (places_mono' true t (worth p) (worth p + worth q) ltac:(lia)).
    pose proof (places_mono' true t (worth q) (worth p + worth q) ltac:(lia)). lia.
  - contradiction.
  - destruct (two_value _ _ _ _ _ H) as (p & q & Hp & Hq & G & ->). reflexivity.
  - destruct (two_value _ _ _ _ _ H) as (p & q & Hp & Hq & G & ->).
    cbn [after update Nat.eqb operands]. destruct (SpecCount.undivided p q); [|reflexivity].
    unfold tight. cbn [width worth]. symmetry. exact zero_places.
  - destruct (two_value _ _ _ _ _ H) as (p & q & Hp & Hq & G & ->).
    cbn [after update Nat.eqb operands]. destruct (SpecCount.undivided p q); [|reflexivity]. exact (IHa p Hp T).
  - destruct (one_value _ _ _ _ H) as (p & Hp & ->). cbn [after update Nat.eqb operands]. unfold raised.
    destruct (N.eqb_spec n 1) as [->|Hn].
    + change (Z.of_N 1 =? 1) with true. cbn match. unfold tight. cbn [width worth].
      change (Z.of_N 1) with 1. rewrite Z.pow_1_r. exact (IHa p Hp T).
    + destruct (Z.eqb_spec (Z.of_N n) 1) as [E|E]; [lia|reflexivity].
  - destruct (one_value _ _ _ _ H) as (p & Hp & ->). cbn [after update Nat.eqb operands].
    destruct (fate_value true t _ _ Hp) as (x & _ & Fx). pose proof (fits_bound t _ _ Fx) as Bx.
    destruct (is_binary t) eqn:Eb.
    + destruct T as [T Hn]. specialize (IHa p Hp T). unfold tight in *. cbn [width worth].
      rewrite Z.div_small, Z.mod_small by exact Hn. cbn [Z.to_nat Nat.add]. rewrite IHa.
      destruct (wide_tight (worth p) (2 ^ n)) as [E|E]; [lia| |exact E|].
      { split; [apply Z.pow_nonneg; lia|]. apply (Z.lt_le_trans _ (2 ^ Z.log2 B)); [apply Z.pow_lt_mono_r; lia|].
        apply Z.log2_spec. lia. }
      { pose proof (Z.pow_pos_nonneg 2 n ltac:(lia) ltac:(lia)). lia. }
    + destruct (one_pass B n) eqn:Eo; [|reflexivity].
      destruct T as [T Hn]. specialize (IHa p Hp T). unfold tight in *. cbn [width worth]. rewrite IHa.
      unfold one_pass in Eo. apply Z.leb_le in Eo.
      assert (Hl : 4 * (Z.log2 B / 4) <= Z.log2 B) by (apply Z.mul_div_le; lia).
      assert (Hlog : 2 ^ Z.log2 B < B).
      { clear -Eb. destruct t; try discriminate Eb; reflexivity. }
      destruct (wide_tight (worth p) (2 ^ n)) as [E|E]; [lia| |exact E|].
      { split; [apply Z.pow_nonneg; lia|]. apply (Z.le_lt_trans _ (2 ^ Z.log2 B)); [apply Z.pow_le_mono_r; lia|exact Hlog]. }
      { pose proof (Z.pow_pos_nonneg 2 n ltac:(lia) ltac:(lia)). lia. }
  - destruct (one_value _ _ _ _ H) as (p & Hp & ->). cbn [after update Nat.eqb operands].
    destruct (is_binary t && (n mod Z.log2 B =? 0))%bool eqn:E; [|reflexivity].
    destruct T as [T Hn]. specialize (IHa p Hp T). apply andb_true_iff in E. destruct E as [Eb Em]. apply Z.eqb_eq in Em.
    destruct (fate_value true t _ _ Hp) as (x & _ & Fx). pose proof (fits_bound t _ _ Fx) as Bx.
    unfold tight in *. cbn [width worth]. rewrite IHa.
    assert (Hlog : 0 < Z.log2 B /\ 2 ^ Z.log2 B = B) by (clear -Eb; destruct t; try discriminate Eb; split; reflexivity).
    assert (Hq : 0 <= n / Z.log2 B) by (apply Z.div_pos; lia).
    rewrite places_shift by lia. f_equal. f_equal. rewrite Z2Nat.id by exact Hq.
    rewrite <- (proj2 Hlog) at 1. rewrite <- Z.pow_mul_r by lia. f_equal.
    pose proof (Z.div_mod n (Z.log2 B) ltac:(lia)). lia.
Qed.
Lemma trim_divisors_tight e : trim_divisors t e -> tight_divisors t e.
Proof.
  induction e; cbn [trim_divisors tight_divisors]; try tauto.
  - intros (Ha & Hb & Hc). split; [auto|]. split; [auto|]. intros d Hd. exact (trim_tight _ d Hd Hc).
  - intros (Ha & Hb & Hc). split; [auto|]. split; [auto|]. intros d Hd. exact (trim_tight _ d Hd Hc).
Qed.
End Trim.

Lemma integer_unique e : forall v w, integer e v -> integer e w -> v = w.
Proof.
  induction e as [s|a IHa b IHb|a IHa b IHb|a IHa b IHb|a IHa b IHb|a IHa b IHb|a IHa n|a IHa n|a IHa n];
    intros v w H K; cbn [integer] in *; [exact (literal_unique s v w H K)|..];
    try (destruct H as (p & q & Hp & Hq & ->), K as (p' & q' & Hp' & Hq' & ->);
         rewrite (IHa p p' Hp Hp'), (IHb q q' Hq Hq'); reflexivity);
    destruct H as (p & Hp & ->), K as (p' & Hp' & ->); rewrite (IHa p p' Hp Hp'); reflexivity.
Qed.

Lemma trim_text_claim dbg t e c : comes_to t e (Value c) -> trim t e -> trim_divisors t e -> exists x s,
  evaluate dbg t e = Ret (ROk x) /\ well_formed t x /\ integer e (num t x)
  /\ compute dbg t e = Ret (ROk s) /\ canonical (is_binary t) s (num t x).
Proof.
  intros H T TD. destruct (fate_value dbg t e c H) as (x & E & F).
  pose proof (tight_normal dbg t x c F (trim_tight t e c H T)) as W. exists x, (print t x).
  split; [exact E|]. split; [exact W|]. split; [|split; [apply compute_ret, E|apply print_canonical, W]].
  rewrite (proj2 (proj2 F)). exact (value_claim t e c H (trim_divisors_tight t e TD)).
Qed.
Lemma equal_claim dbg dbg' t e e' c c' v : comes_to t e (Value c) -> comes_to t e' (Value c') ->
  trim t e -> trim t e' -> trim_divisors t e -> trim_divisors t e' -> integer e v -> integer e' v ->
  evaluate dbg t e = evaluate dbg' t e'.
Proof.
  intros H H' T T' D D' I I'.
  destruct (trim_text_claim dbg t e c H T D) as (x & _ & -> & W & N & _).
  destruct (trim_text_claim dbg' t e' c' H' T' D') as (y & _ & -> & W' & N' & _).
  do 2 f_equal. apply (ClaimsMul.wf_eq t); auto.
  rewrite (integer_unique e _ _ N I). rewrite (integer_unique e' _ _ N' I'). reflexivity.
Qed.
Lemma equal_text_claim dbg dbg' t t' e e' c c' v : is_binary t = is_binary t' ->
  comes_to t e (Value c) -> comes_to t' e' (Value c') ->
  trim t e -> trim t' e' -> trim_divisors t e -> trim_divisors t' e' -> integer e v -> integer e' v ->
  exists s, compute dbg t e = Ret (ROk s) /\ compute dbg' t' e' = Ret (ROk s) /\ canonical (is_binary t) s v.
Proof.
  intros Eb H H' T T' D D' I I'.
  destruct (trim_text_claim dbg t e c H T D) as (x & s & _ & _ & N & E & C).
  destruct (trim_text_claim dbg' t' e' c' H' T' D') as (y & s' & _ & _ & N' & E' & C').
  rewrite (integer_unique e _ _ N I) in C. rewrite (integer_unique e' _ _ N' I'), <- Eb in C'.
  exists s. split; [exact E|]. split; [|exact C]. rewrite E'. do 2 f_equal. exact (canonical_unique _ _ _ _ C' C).
Qed.
Lemma trim_value_claim t e c : comes_to t e (Value c) -> trim_divisors t e -> integer e (worth c).
Proof. intros H D. exact (value_claim t e c H (trim_divisors_tight t e D)). Qed.
(** two identities *)
Lemma integer_some t e c : comes_to t e (Value c) -> trim_divisors t e -> exists v, integer e v.
Proof. intros H D. exists (worth c). exact (trim_value_claim t e c H D). Qed.
Lemma distribute_claim dbg dbg' t a b d c c' :
  comes_to t (Times a (Plus b d)) (Value c) -> comes_to t (Plus (Times a b) (Times a d)) (Value c') ->
  trim_divisors t a -> trim_divisors t b -> trim_divisors t d ->
  evaluate dbg t (Times a (Plus b d)) = evaluate dbg' t (Plus (Times a b) (Times a d)).
Proof.
  intros H H' Da Db Dd. destruct (integer_some t _ c H ltac:(cbn; tauto)) as [v I]. pose proof I as J.
  destruct J as (p & q & Hp & (r & s & Hr & Hs & ->) & ->).
  apply (equal_claim dbg dbg' t _ _ c c' (p * (r + s)) H H'); try (cbn; tauto); try exact I.
  exists (p * r), (p * s). split; [exists p, r; auto|]. split; [exists p, s; auto|]. lia.
Qed.
Lemma binomial_claim dbg dbg' t a b c c' :
  let e := Power (Plus a b) 2 in
  let e' := Plus (Plus (Power a 2) (Times (Times a b) (Lit [50]))) (Power b 2) in
  comes_to t e (Value c) -> comes_to t e' (Value c') -> trim_divisors t a -> trim_divisors t b ->
  evaluate dbg t e = evaluate dbg' t e'.
Proof.
  intros e e' H H' Da Db. destruct (integer_some t e c H ltac:(cbn; tauto)) as [v I]. pose proof I as J.
  destruct J as (p & (r & s & Hr & Hs & ->) & ->).
  apply (equal_claim dbg dbg' t e e' c c' ((r + s) ^ Z.of_N 2) H H'); try (cbn; tauto); try exact I.
  exists (r ^ 2 + r * s * 2), (s ^ 2). split; [|split; [exists s; auto|cbn [Z.of_N]; lia]].
  exists (r ^ 2), (r * s * 2). split; [exists r; auto|]. split; [|reflexivity].
  exists (r * s), 2. split; [exists r, s; auto|]. split; [left; numeral_fact|reflexivity].
Qed.
