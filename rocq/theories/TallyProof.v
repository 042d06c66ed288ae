(** * TallyProof: the outcome of every expression from digit counts and values. *)
From Coq Require Import ZArith NArith List Bool Lia.
From Verif Require Import Base Digit Slice UBig Text Calc Spec SpecDiv SpecMul SpecToom SpecBz SpecHist SpecCount SpecCalc Hoare
  DigitOK ListLemmas TextProof TypedProof Hist CountProof CountRun PowCount TextLaws LeadZero CalcProof ExprProof.
From Verif Require KaraExact.
From Verif Require Import Expr SpecExpr SpecTally.
Import ListNotations.
Open Scope Z_scope.
Open Scope m_scope.

Section Tally.
Variables (dbg : bool) (t : dty).
Notation D := (impl dbg t).
Notation B := (radix t).

(** what evaluation gives *)
Definition shown (m : M (result digits)) (o : fate) : Prop :=
  match o with
  | Value c => exists x, m = Ret (ROk x) /\ fits t x c
  | Refused => m = Ret (RErr InvalidNumber)
  | Stop w => m = Panic w
  end.

Lemma step_fate s (g : digits -> digits -> M digits) :
  (forall r, model_step dbg t s r = (v <- g (r 0%nat) (r 1%nat) ;; Ret (update r 0%nat v))) ->
  forall c d x y, typed t s -> charted t s (operands c d) -> fits t x c -> fits t y d ->
  match g x y with
  | Ret v => goes t s (operands c d) /\ fits t v (after t s (operands c d) 0%nat)
  | Panic w => w = says t s (operands c d) /\ ~ goes t s (operands c d)
  | NoFuel => False
  end.
Proof.
  intros Hs c d x y Ht Hc Fx Fy.
  pose (r := fun k : nat => match k with O => x | _ => y end).
  assert (Hr : shows t r (operands c d)) by (intros [|k]; assumption).
  pose proof (step_shows dbg t s r (operands c d) Ht Hc Hr) as H. rewrite Hs in H. cbn [r] in H.
  change (r 0%nat) with x in H. change (r 1%nat) with y in H.
  destruct (g x y) as [v|w|]; cbn [bind spec] in H; [|exact H|exact H].
  destruct H as [G K]. split; [exact G|]. exact (K 0%nat).
Qed.
Lemma operation_shown s g : (forall r, model_step dbg t s r = (v <- g (r 0%nat) (r 1%nat) ;; Ret (update r 0%nat v))) ->
  forall c d x y o, operation t s c d o -> fits t x c -> fits t y d -> shown (r <- g x y ;; Ret (ROk r)) o.
Proof.
  intros Hs c d x y o (Ht & Hc & Ho) Fx Fy. pose proof (step_fate s g Hs c d x y Ht Hc Fx Fy) as H.
  destruct (g x y) as [v|w|]; [| |contradiction]; destruct Ho as [[G ->]|[G ->]]; cbn [bind shown].
  - exists v. split; [reflexivity|apply H].
  - destruct (G (proj1 H)).
  - destruct (proj2 H G).
  - rewrite (proj1 H). reflexivity.
Qed.
Lemma two_shown s g p q (P Q : fate -> Prop) o :
  (forall r, model_step dbg t s r = (v <- g (r 0%nat) (r 1%nat) ;; Ret (update r 0%nat v))) ->
  (forall o, P o -> shown p o) -> (forall o, Q o -> shown q o) -> of_two t s P Q o -> shown (both g p q) o.
Proof.
  intros Hs HP HQ (o1 & H1 & K1). specialize (HP o1 H1). destruct o1 as [c| |w]; cbn [then_ shown] in *.
  - destruct HP as (x & -> & Fx). destruct K1 as (o2 & H2 & K2). specialize (HQ o2 H2).
    destruct o2 as [d| |w]; cbn [then_ shown] in *.
    + destruct HQ as (y & -> & Fy). cbn [both bind]. exact (operation_shown s g Hs c d x y o K2 Fx Fy).
    + subst o q. reflexivity.
    + subst o q. reflexivity.
  - subst o p. reflexivity.
  - subst o p. reflexivity.
Qed.
Lemma one_shown s g p (P : fate -> Prop) o :
  (forall r, model_step dbg t s r = (v <- g (r 0%nat) ;; Ret (update r 0%nat v))) ->
  (forall o, P o -> shown p o) -> of_one t s P o -> shown (single g p) o.
Proof.
  intros Hs HP (o1 & H1 & K1). specialize (HP o1 H1). destruct o1 as [c| |w]; cbn [then_ shown] in *.
  - destruct HP as (x & -> & Fx). cbn [single bind].
    exact (operation_shown s (fun x _ => g x) Hs c c x x o K1 Fx Fx).
  - subst o p. reflexivity.
  - subst o p. reflexivity.
Qed.

Lemma fate_shown e : forall o, comes_to t e o -> shown (evaluate dbg t e) o.
Proof.
  induction e as [s|a IHa b IHb|a IHa b IHb|a IHa b IHb|a IHa b IHb|a IHa b IHb|a IHa n|a IHa n|a IHa n];
    intros o; cbn [comes_to evaluate]; intros H.
  - destruct H as [(v & H & ->)|[H ->]]; cbn [shown].
    + destruct (parse_literal dbg t s v H) as (x & E & W & N). exists x. split; [exact E|].
      exact (wf_fits dbg t x v W N).
    + exact (refuse_literal dbg t s H).
  - exact (two_shown (SAdd 0 1) (add_assign D) _ _ _ _ o (fun r => eq_refl) IHa IHb H).
  - exact (two_shown (SSub 0 1) (sub_assign D) _ _ _ _ o (fun r => eq_refl) IHa IHb H).
  - exact (two_shown (SMul 0 1) (mul_assign D) _ _ _ _ o (fun r => eq_refl) IHa IHb H).
  - exact (two_shown (SDiv 0 1) (div_assign D) _ _ _ _ o (fun r => eq_refl) IHa IHb H).
  - exact (two_shown (SRem 0 1) (rem_assign D) _ _ _ _ o (fun r => eq_refl) IHa IHb H).
  - exact (one_shown (SPow 0 n) (fun x => pow D x n) _ _ o (fun r => eq_refl) IHa H).
  - exact (one_shown (SShl 0 n) (fun x => shl_assign dbg t x n) _ _ o (fun r => eq_refl) IHa H).
  - exact (one_shown (SShr 0 n) (fun x => shr_assign dbg t x n) _ _ o (fun r => eq_refl) IHa H).
Qed.

(** the operations of simple expressions have an outcome *)
Lemma operation_some s g : (forall r, model_step dbg t s r = (v <- g (r 0%nat) (r 1%nat) ;; Ret (update r 0%nat v))) ->
  typed t s -> forall c d x y, charted t s (operands c d) -> fits t x c -> fits t y d -> exists o, operation t s c d o.
Proof.
  intros Hs Ht c d x y Hc Fx Fy. pose proof (step_fate s g Hs c d x y Ht Hc Fx Fy) as H. unfold operation.
  destruct (g x y) as [v|w|]; [| |contradiction]; eexists; (split; [exact Ht|]); (split; [exact Hc|]).
  - left. split; [apply H|reflexivity].
  - right. split; [apply H|reflexivity].
Qed.
Lemma two_some s g a b : (forall r, model_step dbg t s r = (v <- g (r 0%nat) (r 1%nat) ;; Ret (update r 0%nat v))) ->
  typed t s -> (forall c d, comes_to t a (Value c) -> comes_to t b (Value d) -> charted t s (operands c d)) ->
  (exists o, comes_to t a o) -> (exists o, comes_to t b o) ->
  exists o, of_two t s (comes_to t a) (comes_to t b) o.
Proof.
  intros Hs Ht Hc [o1 H1] [o2 H2]. pose proof (fate_shown a o1 H1) as F1. pose proof (fate_shown b o2 H2) as F2.
  unfold of_two. destruct o1 as [c| |w]; [|exists Refused, Refused; auto; cbn; auto|exists (Stop w), (Stop w); cbn; auto].
  destruct o2 as [d| |w].
  - destruct F1 as (x & _ & Fx), F2 as (y & _ & Fy).
    destruct (operation_some s g Hs Ht c d x y (Hc c d H1 H2) Fx Fy) as [o Ho].
    exists o, (Value c). split; [exact H1|]. exists (Value d). split; [exact H2|exact Ho].
  - exists Refused, (Value c). split; [exact H1|]. exists Refused. split; [exact H2|reflexivity].
  - exists (Stop w), (Value c). split; [exact H1|]. exists (Stop w). split; [exact H2|reflexivity].
Qed.
Lemma one_some s g a : (forall r, model_step dbg t s r = (v <- g (r 0%nat) ;; Ret (update r 0%nat v))) ->
  typed t s -> (forall c d, charted t s (operands c d)) ->
  (exists o, comes_to t a o) -> exists o, of_one t s (comes_to t a) o.
Proof.
  intros Hs Ht Hc [o1 H1]. pose proof (fate_shown a o1 H1) as F1. unfold of_one. destruct o1 as [c| |w].
  - destruct F1 as (x & _ & Fx).
    destruct (operation_some s (fun x _ => g x) Hs Ht c c x x (Hc c c) Fx Fx) as [o Ho].
    exists o, (Value c). split; [exact H1|exact Ho].
  - exists Refused, Refused. split; [exact H1|reflexivity].
  - exists (Stop w), (Stop w). split; [exact H1|reflexivity].
Qed.
Lemma plain_step s : plain t s -> forall c, charted t s c.
Proof. intros H c. apply (plain_charted t [s] (Forall_cons _ H (Forall_nil _)) c). Qed.
Lemma digit_charted s a w c d : literal s w -> w < B -> comes_to t a (Value c) -> comes_to t (Lit s) (Value d) ->
  charted t (SDiv 0 1) (operands c d).
Proof.
  intros Hs Hw Ha Hd. right. right. pose proof (radix_gt t) as HB. cbn [operands].
  destruct Hd as [(v & Hv & E)|[_ E]]; [|discriminate E]. injection E as ->.
  rewrite (literal_unique s v w Hv Hs) in *. split; [reflexivity|].
  intros x y _ (Vy & Ly & Ny). left. cbn [width] in Ly. rewrite Ly.
  apply (KaraExact.places_le B D (impl_ok dbg t)). unfold pw. change (B ^ Z.of_nat 1) with (B ^ 1). rewrite Z.pow_1_r.
  split; [exact (literal_nonneg s w Hs)|exact Hw].
Qed.
Lemma simple_some e : simple t e -> exists o, comes_to t e o.
Proof.
  induction e as [s|a IHa b IHb|a IHa b IHb|a IHa b IHb|a IHa b IHb|a IHa b IHb|a IHa n|a IHa n|a IHa n];
    cbn [simple comes_to]; intros H; try contradiction.
  - destruct H as [[v H]|H]; [exists (Value (Cell (places B v) v)); left; exists v; auto|exists Refused; auto].
  - apply (two_some (SAdd 0 1) (add_assign D) a b (fun r => eq_refl) I); [intros; apply plain_step; exact I|tauto|tauto].
  - apply (two_some (SSub 0 1) (sub_assign D) a b (fun r => eq_refl) I); [intros; apply plain_step; exact I|tauto|tauto].
  - apply (two_some (SMul 0 1) (mul_assign D) a b (fun r => eq_refl) I); [intros; apply plain_step; exact I|tauto|tauto].
  - destruct H as (Ha & s & w & -> & Hs & Hw).
    apply (two_some (SDiv 0 1) (div_assign D) a (Lit s) (fun r => eq_refl) I);
      [intros c d Hc Hd; exact (digit_charted s a w c d Hs Hw Hc Hd)|tauto|].
    exists (Value (Cell (places B w) w)). left. exists w. auto.
  - destruct H as (Ha & s & w & -> & Hs & Hw).
    apply (two_some (SRem 0 1) (rem_assign D) a (Lit s) (fun r => eq_refl) I);
      [intros c d Hc Hd; exact (digit_charted s a w c d Hs Hw Hc Hd)|tauto|].
    exists (Value (Cell (places B w) w)). left. exists w. auto.
  - apply (one_some (SPow 0 n) (fun x => pow D x n) a (fun r => eq_refl) I); [intros; apply plain_step; apply H|tauto].
  - apply (one_some (SShl 0 n) (fun x => shl_assign dbg t x n) a (fun r => eq_refl)); [apply H|intros; apply plain_step; apply H|tauto].
  - apply (one_some (SShr 0 n) (fun x => shr_assign dbg t x n) a (fun r => eq_refl)); [apply H|intros; apply plain_step; exact I|tauto].
Qed.
End Tally.

(** ** Statements *)
Lemma fate_claim dbg t e o : comes_to t e o ->
  match o with
  | Value c => exists x, evaluate dbg t e = Ret (ROk x) /\ fits t x c
      /\ exists s, compute dbg t e = Ret (ROk s) /\ literal s (worth c)
         /\ (tight (radix t) c -> canonical (is_binary t) s (worth c))
  | Refused => compute dbg t e = Ret (RErr InvalidNumber)
  | Stop w => compute dbg t e = Panic w
  end.
Proof.
  intros H. pose proof (fate_shown dbg t e o H) as F. destruct o as [c| |w]; cbn [shown] in F.
  - destruct F as (x & E & F). exists x. split; [exact E|]. split; [exact F|]. exists (print t x).
    split; [apply compute_ret, E|]. rewrite <- (proj2 (proj2 F)).
    split; [apply print_literal, F|].
    intros T. apply print_canonical.
    exact (tight_normal dbg t x c F T).
  - unfold compute. rewrite F. reflexivity.
  - unfold compute. rewrite F. reflexivity.
Qed.

Lemma operation_unique t s c d o o' : operation t s c d o -> operation t s c d o' -> o = o'.
Proof. intros (_ & _ & [[G ->]|[G ->]]) (_ & _ & [[G' ->]|[G' ->]]); auto; contradiction. Qed.
Lemma two_unique t s (P Q : fate -> Prop) o o' : (forall p p', P p -> P p' -> p = p') -> (forall p p', Q p -> Q p' -> p = p') ->
  of_two t s P Q o -> of_two t s P Q o' -> o = o'.
Proof.
  intros HP HQ (p & H & K) (p' & H' & K'). rewrite <- (HP p p' H H') in K'. clear p' H'.
  destruct p as [c| |w]; cbn [then_] in *; [|congruence..].
  destruct K as (q & H1 & K), K' as (q' & H1' & K'). rewrite <- (HQ q q' H1 H1') in K'. clear q' H1'.
  destruct q as [d| |w]; cbn [then_] in *; [|congruence..]. exact (operation_unique t s c d o o' K K').
Qed.
Lemma one_unique t s (P : fate -> Prop) o o' : (forall p p', P p -> P p' -> p = p') ->
  of_one t s P o -> of_one t s P o' -> o = o'.
Proof.
  intros HP (p & H & K) (p' & H' & K'). rewrite <- (HP p p' H H') in K'. clear p' H'.
  destruct p as [c| |w]; cbn [then_] in *; [|congruence..]. exact (operation_unique t s c c o o' K K').
Qed.
Lemma fate_unique t e : forall o o', comes_to t e o -> comes_to t e o' -> o = o'.
Proof.
  induction e as [s|a IHa b IHb|a IHa b IHb|a IHa b IHb|a IHa b IHb|a IHa b IHb|a IHa n|a IHa n|a IHa n];
    intros o o' H H'; cbn [comes_to] in *;
    try exact (two_unique _ _ _ _ o o' IHa IHb H H'); try exact (one_unique _ _ _ o o' IHa H H').
  destruct H as [(v & H & ->)|[H ->]], H' as [(w & H' & ->)|[H' ->]]; try reflexivity.
  - rewrite (literal_unique s v w H H'). reflexivity.
  - destruct H' as (_ & _ & _ & K). destruct (K v H).
  - destruct H as (_ & _ & _ & K). destruct (K w H').
Qed.
Lemma either_claim t e : simple t e -> exists o, comes_to t e o /\ forall o', comes_to t e o' -> o' = o.
Proof.
  intros H. destruct (simple_some true t e H) as [o Ho]. exists o. split; [exact Ho|].
  intros o' H'. exact (fate_unique t e o' o H' Ho).
Qed.

(** values *)
Lemma two_value t s a b c : of_two t s (comes_to t a) (comes_to t b) (Value c) -> exists p q,
  comes_to t a (Value p) /\ comes_to t b (Value q) /\ goes t s (operands p q) /\ c = after t s (operands p q) 0%nat.
Proof.
  intros (p & H & K). destruct p as [p| |w]; cbn [then_] in K; [|discriminate K..].
  destruct K as (q & H1 & K). destruct q as [q| |w]; cbn [then_] in K; [|discriminate K..].
  destruct K as (_ & _ & [[G E]|[_ E]]); [|discriminate E]. injection E as ->. exists p, q. auto.
Qed.
Lemma one_value t s a c : of_one t s (comes_to t a) (Value c) -> exists p,
  comes_to t a (Value p) /\ c = after t s (operands p p) 0%nat.
Proof.
  intros (p & H & K). destruct p as [p| |w]; cbn [then_] in K; [|discriminate K..].
  destruct K as (_ & _ & [[G E]|[_ E]]); [|discriminate E]. injection E as ->. exists p. auto.
Qed.
Lemma undivided_less t e f c d : comes_to t e (Value c) -> comes_to t f (Value d) -> tight (radix t) d ->
  SpecCount.undivided c d = true -> 0 <= worth c < worth d.
Proof.
  intros H K T U. destruct (fate_shown true t e _ H) as (x & _ & Fx). destruct (fate_shown true t f _ K) as (y & _ & Fy).
  pose proof (tight_normal true t y d Fy T) as Wy. split; [exact (fits_nonneg t x c Fx)|].
  pose proof (radix_gt t) as HB. unfold SpecCount.undivided, precedes in U.
  destruct Fx as (V & L & E), Fy as (V' & L' & E'). rewrite <- E, <- E', <- L, <- L' in *. apply orb_true_iff in U.
  destruct U as [U|U]; [|apply andb_true_iff in U; apply Z.ltb_lt, U].
  apply Nat.ltb_lt in U. assert (Hy : y <> []) by (intros ->; cbn in U; lia).
  pose proof (normal_lower _ HB y V' (proj2 Wy) Hy) as A. pose proof (value_bound _ HB x V) as C. unfold num, pw in *.
  assert (radix t ^ Z.of_nat (length x) <= radix t ^ Z.of_nat (length y - 1)) by (apply Z.pow_le_mono_r; lia). lia.
Qed.
Lemma value_claim t e : forall c, comes_to t e (Value c) -> tight_divisors t e -> integer e (worth c).
Proof.
  induction e as [s|a IHa b IHb|a IHa b IHb|a IHa b IHb|a IHa b IHb|a IHa b IHb|a IHa n|a IHa n|a IHa n];
    intros c H T; cbn [comes_to integer tight_divisors] in *.
  - destruct H as [(v & H & E)|[_ E]]; [injection E as ->; exact H|discriminate E].
  - destruct (two_value _ _ _ _ _ H) as (p & q & Hp & Hq & G & ->). exists (worth p), (worth q).
    split; [apply IHa; tauto|]. split; [apply IHb; tauto|reflexivity].
  - destruct (two_value _ _ _ _ _ H) as (p & q & Hp & Hq & G & ->). exists (worth p), (worth q).
    split; [apply IHa; tauto|]. split; [apply IHb; tauto|reflexivity].
  - destruct (two_value _ _ _ _ _ H) as (p & q & Hp & Hq & G & ->). exists (worth p), (worth q).
    split; [apply IHa; tauto|]. split; [apply IHb; tauto|reflexivity].
  - destruct (two_value _ _ _ _ _ H) as (p & q & Hp & Hq & G & ->). exists (worth p), (worth q).
    split; [apply IHa; tauto|]. split; [apply IHb; tauto|].
    cbn [after update Nat.eqb operands]. destruct (SpecCount.undivided p q) eqn:U; [|reflexivity].
    symmetry. apply Z.div_small. apply (undivided_less t a b); tauto || (apply T; assumption).
  - destruct (two_value _ _ _ _ _ H) as (p & q & Hp & Hq & G & ->). exists (worth p), (worth q).
    split; [apply IHa; tauto|]. split; [apply IHb; tauto|].
    cbn [after update Nat.eqb operands]. destruct (SpecCount.undivided p q) eqn:U; [|reflexivity].
    symmetry. apply Z.mod_small. apply (undivided_less t a b); tauto || (apply T; assumption).
  - destruct (one_value _ _ _ _ H) as (p & Hp & ->). exists (worth p). split; [apply IHa; tauto|reflexivity].
  - destruct (one_value _ _ _ _ H) as (p & Hp & ->). exists (worth p). split; [apply IHa; tauto|].
    cbn [after update Nat.eqb operands]. destruct (is_binary t); [reflexivity|]. destruct (one_pass (radix t) n); reflexivity.
  - destruct (one_value _ _ _ _ H) as (p & Hp & ->). exists (worth p). split; [apply IHa; tauto|].
    cbn [after update Nat.eqb operands]. destruct (is_binary t && (n mod Z.log2 (radix t) =? 0))%bool; reflexivity.
Qed.
Lemma build_fate t e : (exists o, comes_to t e o) -> evaluate true t e = evaluate false t e.
Proof.
  intros [o H]. pose proof (fate_shown true t e o H) as F. pose proof (fate_shown false t e o H) as F'.
  destruct o as [c| |w]; cbn [shown] in *; [|congruence..].
  destruct F as (x & -> & Fx), F' as (y & -> & Fy). rewrite (fits_same t x y c Fx Fy). reflexivity.
Qed.

(** texts *)
Lemma numeral_unique base u u' : good_base base -> Forall (char_of_base base) u -> Forall (char_of_base base) u' ->
  lower_case u -> lower_case u' -> length u = length u' -> numeral_value base u = numeral_value base u' -> u = u'.
Proof.
  intros Hb F F' L L' E V. assert (HB : 1 < base) by (unfold good_base in Hb; lia).
  assert (Hdig : forall s, Forall (char_of_base base) s -> below base (rev (map char_value s))).
  { intros v Fv. unfold below. apply Forall_rev. apply Forall_forall. intros w Hw.
    apply in_map_iff in Hw. destruct Hw as (c & <- & Hc). rewrite Forall_forall in Fv.
    apply (char_digit_yes base c Hb). auto. }
  apply (map_inj base); auto.
  rewrite <- (rev_involutive (map char_value u)), <- (rev_involutive (map char_value u')). f_equal.
  rewrite !numeral_rev in V. apply (value_inj base); auto. rewrite !rev_length, !map_length. exact E.
Qed.
Lemma text_good t : good_base (text_base t).
Proof. unfold text_base, good_base. destruct (is_binary t); auto. Qed.
Lemma cell_text_unique t c s s' : cell_text t c s -> cell_text t c s' -> s = s'.
Proof.
  intros [[T C]|[T (u & -> & P & F & V & L)]] [[T' C']|[T' (u' & -> & P' & F' & V' & L')]]; try contradiction.
  - exact (canonical_unique _ _ _ _ C C').
  - do 2 f_equal. apply (numeral_unique (text_base t)); auto; [apply text_good| |congruence].
    assert (1 < text_base t) by (pose proof (text_good t) as G; unfold good_base in G; lia).
    rewrite <- P' in P. apply Z.pow_inj_r in P; lia.
Qed.
Lemma lead_print t y : valid t y -> exists u, print t (y ++ [0]) = (if is_binary t then hex_prefix else []) ++ 48 :: u
  /\ text_base t ^ Z.of_nat (length u) = radix t ^ Z.of_nat (length y)
  /\ Forall (char_of_base (text_base t)) u /\ numeral_value (text_base t) u = num t y /\ lower_case u.
Proof.
  intros V. pose proof (radix_gt t) as HB.
  assert (V0 : valid t (y ++ [0])) by (apply below_app; split; [exact V|constructor; [lia|constructor]]).
  assert (N0 : num t (y ++ [0]) = num t y) by (unfold num; rewrite value_app; cbn [value]; lia).
  unfold print, text_base. destruct (is_binary t) eqn:Eb.
  - destruct (lead_hex_zero t false y Eb V) as (u & E & P). destruct (lead_hex t false (y ++ [0]) Eb V0) as (s & E1 & E2 & N & Vs & L).
    rewrite E1 in E. subst s. exists u. split; [exact E2|]. split; [exact P|].
    destruct N as [_ N]. split; [inversion N; assumption|]. split; [|inversion L; assumption].
    rewrite N0, nv_cons in Vs. cbn [char_value Z.leb] in Vs. change (char_value 48) with 0 in Vs. lia.
  - destruct (lead_dec_zero t y Eb V) as (u & E & P). destruct (lead_dec t (y ++ [0]) Eb V0) as (s & E1 & N & Vs).
    rewrite E. rewrite E1 in E. subst s. exists u. split; [reflexivity|]. split; [exact P|].
    destruct N as [_ N]. assert (F : Forall (char_of_base 10) u) by (inversion N; assumption).
    split; [exact F|]. split; [|apply dec_lower, F].
    rewrite N0, nv_cons in Vs. change (char_value 48) with 0 in Vs. lia.
Qed.
Lemma text_claim dbg t e c : comes_to t e (Value c) -> exists s, compute dbg t e = Ret (ROk s) /\ cell_text t c s
  /\ forall s', cell_text t c s' -> s' = s.
Proof.
  intros H. destruct (fate_shown dbg t e _ H) as (x & E & F). exists (print t x).
  split; [apply compute_ret, E|]. assert (K : cell_text t c (print t x)).
  { destruct F as (V & L & N). destruct (Nat.eq_dec (width c) (places (radix t) (worth c))) as [T|T].
    - left. rewrite <- N. split; [exact T|]. apply print_canonical.
      exact (tight_normal dbg t x c (conj V (conj L N)) T).
    - right. split; [exact T|]. destruct (snoc_cases x) as [->|(y & d & ->)].
      { exfalso. apply T. rewrite <- L, <- N. symmetry. apply (length_places dbg t []). split; [exact V|apply normal_nil]. }
      destruct (Z.eq_dec d 0) as [->|Hd].
      2:{ exfalso. apply T. rewrite <- L, <- N. symmetry. apply (length_places dbg t (y ++ [d])).
          split; [exact V|apply normal_snoc, Hd]. }
      assert (Vy : valid t y) by (apply below_app in V; apply V).
      destruct (lead_print t y Vy) as (u & -> & P & Fu & Nu & Lu). exists u. split; [reflexivity|]. split.
      { rewrite P, <- L, app_length. cbn [length]. f_equal. lia. }
      split; [exact Fu|]. split; [|exact Lu]. rewrite Nu, <- N. unfold num. rewrite value_app. cbn [value]. lia. }
  split; [exact K|]. intros s' K'. exact (cell_text_unique t c s' _ K' K).
Qed.

(** comparison and decimal display *)
Lemma compare_claim dbg t a b c d : comes_to t a (Value c) -> comes_to t b (Value d) -> exists x y,
  evaluate dbg t a = Ret (ROk x) /\ evaluate dbg t b = Ret (ROk y)
  /\ ubig_cmp x y = match (width c ?= width d)%nat with Eq => worth c ?= worth d | o => o end
  /\ (ubig_eqb x y = true <-> c = d)
  /\ (tight (radix t) c -> tight (radix t) d ->
      ubig_cmp x y = (worth c ?= worth d) /\ (ubig_eqb x y = true <-> worth c = worth d)).
Proof.
  intros H K. destruct (fate_shown dbg t a _ H) as (x & Ex & Fx). destruct (fate_shown dbg t b _ K) as (y & Ey & Fy).
  exists x, y. split; [exact Ex|]. split; [exact Ey|].
  assert (A : ubig_cmp x y = match (width c ?= width d)%nat with Eq => worth c ?= worth d | o => o end).
  { rewrite (lead_cmp t x y (proj1 Fx) (proj1 Fy)). destruct Fx as (_ & <- & <-), Fy as (_ & <- & <-). reflexivity. }
  assert (B : ubig_eqb x y = true <-> c = d).
  { rewrite (lead_eq t x y (proj1 Fx) (proj1 Fy)). destruct Fx as (_ & -> & ->), Fy as (_ & -> & ->).
    destruct c as [m v], d as [n w]. cbn [width worth]. split; [intros [-> ->]; reflexivity|intros [= -> ->]; auto]. }
  split; [exact A|]. split; [exact B|]. intros T T'.
  assert (Wx := tight_normal dbg t x c Fx T). assert (Wy := tight_normal dbg t y d Fy T'). split.
  - rewrite <- (proj2 (proj2 Fx)), <- (proj2 (proj2 Fy)). exact (ClaimsBasic.cmp_claim t x y Wx Wy).
  - rewrite B. unfold tight in *. destruct c as [m v], d as [n w]. cbn [width worth] in *. subst m n.
    split; [intros [= _ E]; exact E|intros ->; reflexivity].
Qed.
Lemma display_claim dbg t e c : is_binary t = true -> (width c < 16)%nat -> comes_to t e (Value c) -> exists x s,
  evaluate dbg t e = Ret (ROk x) /\ fmt_display_bin dbg t Text.plain x = Ret s /\ canonical false s (worth c).
Proof.
  intros Hb L H. destruct (fate_shown dbg t e _ H) as (x & Ex & Fx). destruct Fx as (V & Lx & N).
  destruct (lead_display dbg t x Hb V) as (s & Es & A); [rewrite Lx; exact L|].
  exists x, s. split; [exact Ex|]. split; [exact Es|]. rewrite <- N. exact A.
Qed.
