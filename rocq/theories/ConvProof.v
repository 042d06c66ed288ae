(** * ConvProof: texts to decimal texts. *)
From Coq Require Import ZArith List Bool Lia.
From Verif Require Import Base Digit Slice UBig Text Calc Spec SpecDec SpecBz SpecCalc DigitOK ListLemmas TypedProof
  ClaimsText DecExact DecJam CalcProof ExprProof.
Import ListNotations.
Open Scope Z_scope.
Open Scope m_scope.

Lemma convert_claim dbg t a v : literal a v -> is_binary t = false \/ v < radix t ^ 15 ->
  exists s, convert dbg t a = Ret (ROk s) /\ canonical false s v.
Proof.
  intros Ha H. destruct (parse_literal dbg t a v Ha) as (x & E & W & <-). unfold convert. rewrite E. cbn [bind].
  destruct (is_binary t) eqn:Eb.
  - destruct H as [H|H]; [discriminate H|].
    pose proof (length_bound t x 15 W H) as L.
    destruct (display_bin_claim dbg t x Eb W ltac:(lia)) as (s & -> & N & V & M). exists s.
    split; [reflexivity|]. split; [exact N|]. split; [exact V|exact M].
  - destruct (dec_claim t x Eb W) as (s & Es & N & V & M). rewrite Es. exists s.
    split; [reflexivity|]. split; [exact N|]. split; [exact V|exact M].
Qed.
Lemma convert_exact_claim dbg t a v : is_binary t = true -> literal a v -> v < radix t ^ 5102 -> cut_smoothly t v ->
  (scale_jams t v \/ cut_jams t v -> convert dbg t a = Panic (PUnwrap Underflow))
  /\ (~ (scale_jams t v \/ cut_jams t v) -> exists s w, convert dbg t a = Ret (ROk s) /\ canonical false s w
       /\ w <= v /\ (w = v <-> filled t v)).
Proof.
  intros Eb Ha H C. destruct (parse_literal dbg t a v Ha) as (x & E & W & Ex). unfold convert. rewrite E. cbn [bind].
  rewrite Eb. subst v.
  assert (L : Z.of_nat (length x) <= 5102).
  { pose proof (length_bound t x (Z.to_nat 5102) W) as L. rewrite Z2Nat.id in L by lia. specialize (L H). lia. }
  destruct (display_jam_claim dbg t x Eb W L C) as [H1 H2]. split; intros J.
  - rewrite (H1 J). reflexivity.
  - destruct (H2 J) as (s & -> & N & M & Hle & Hiff). exists s, (numeral_value 10 s). cbn [bind].
    split; [reflexivity|]. split; [|split; [exact Hle|exact Hiff]]. split; [exact N|]. split; [reflexivity|exact M].
Qed.
Lemma convert_short_claim t v : is_binary t = true -> 0 <= v < radix t ^ 120 -> ~ (scale_jams t v \/ cut_jams t v).
Proof.
  intros Eb H. destruct (FibExact.represent t 120 v H) as (x & W & <- & L). apply conversion_short; assumption.
Qed.
Lemma convert_error_claim dbg t a : no_literal a -> convert dbg t a = Ret (RErr InvalidNumber).
Proof. intros H. unfold convert. rewrite (refuse_literal dbg t a H). reflexivity. Qed.
(** converting twice is converting once *)
Lemma convert_twice_claim dbg dbg' t t' a v s : literal a v ->
  is_binary t = false \/ v < radix t ^ 15 -> is_binary t' = false \/ v < radix t' ^ 15 ->
  convert dbg t a = Ret (ROk s) -> convert dbg' t' s = Ret (ROk s) /\ convert dbg' t' a = Ret (ROk s).
Proof.
  intros Ha H H' E. destruct (convert_claim dbg t a v Ha H) as (s1 & E1 & C1). rewrite E in E1. injection E1 as <-.
  destruct (convert_claim dbg' t' a v Ha H') as (s2 & E2 & C2).
  destruct (convert_claim dbg' t' s v (canonical_literal _ _ _ C1) H') as (s3 & E3 & C3).
  rewrite E2, E3, (canonical_unique _ _ _ _ C2 C1), (canonical_unique _ _ _ _ C3 C1). auto.
Qed.
