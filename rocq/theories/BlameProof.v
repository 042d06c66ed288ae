(** * BlameProof: every panic of an expression is the fault of one part. *)
From Coq Require Import ZArith NArith String List Bool Lia.
From Verif Require Import Base Digit Slice UBig Text Calc Panics Spec SpecDiv SpecMul SpecToom SpecBz SpecHist SpecCount SpecCalc
  Hist CountProof ClaimsToom.
From Verif Require Import Expr SpecExpr SpecTally TallyProof SpecBlame.
Import ListNotations.
Open Scope Z_scope.

Section Blame.
Variable t : dty.
Notation B := (radix t).

Lemma part_refl e : part e e.
Proof. destruct e; left; reflexivity. Qed.
Lemma part_trans a : forall e s, part e a -> part a s -> part e s.
Proof.
  induction e as [u|p IHp q IHq|p IHp q IHq|p IHp q IHq|p IHp q IHq|p IHp q IHq|p IHp n|p IHp n|p IHp n];
    intros s H Hs; cbn [part] in H; destruct H as [->|H]; try exact Hs; try contradiction;
    cbn [part]; right; try (destruct H as [H|H]; [left|right]); auto.
Qed.

(** an operation on two parts stops for itself, or one of them does *)
Lemma two_blamed s (P Q : fate -> Prop) w : of_two t s P Q (Stop w) ->
  P (Stop w) \/ Q (Stop w)
  \/ exists c d, P (Value c) /\ Q (Value d) /\ charted t s (operands c d) /\ ~ goes t s (operands c d) /\ w = says t s (operands c d).
Proof.
  intros (p & Hp & K). destruct p as [c| |w']; cbn [then_] in K; [|discriminate K|injection K as ->; auto].
  destruct K as (q & Hq & K). destruct q as [d| |w']; cbn [then_] in K; [|discriminate K|injection K as ->; auto].
  right. right. exists c, d. destruct K as (_ & Hc & [[_ E]|[G E]]); [discriminate E|]. injection E as E. auto.
Qed.
Lemma one_blamed s (P : fate -> Prop) w : of_one t s P (Stop w) ->
  P (Stop w) \/ exists c, P (Value c) /\ charted t s (operands c c) /\ ~ goes t s (operands c c) /\ w = says t s (operands c c).
Proof.
  intros (p & Hp & K). destruct p as [c| |w']; cbn [then_] in K; [|discriminate K|injection K as ->; auto].
  right. exists c. destruct K as (_ & Hc & [[_ E]|[G E]]); [discriminate E|]. injection E as E. auto.
Qed.

Lemma sub_fault c d : ~ ((width d <= width c)%nat /\ worth d <= worth c) -> (width c < width d)%nat \/ worth c < worth d.
Proof. lia. Qed.
Lemma jam_fault a b c d : comes_to t a (Value c) -> comes_to t b (Value d) ->
  ~ ~ jam B (width c) (worth c) (width d) (worth d) -> jam B (width c) (worth c) (width d) (worth d).
Proof.
  intros Ha Hb H. destruct (fate_shown false t a _ Ha) as (x & _ & Fx). destruct (fate_shown false t b _ Hb) as (y & _ & Fy).
  destruct Fx as (Vx & Lx & Nx). destruct Fy as (Vy & Ly & Ny). rewrite <- Lx, <- Nx, <- Ly, <- Ny in *.
  change (jam_product t x y). change (~ ~ jam_product t x y) in H. apply jam_computed; [exact Vx|exact Vy|].
  destruct (jam_check t x y) eqn:E; [reflexivity|]. exfalso. apply H. intros J. apply jam_computed in J; [|exact Vx|exact Vy].
  rewrite J in E. discriminate E.
Qed.
Lemma div_fault c d w : 
  ~ (SpecCount.undivided c d = true \/ worth d <> 0 /\ ~ no_room B c d
     /\ written t c d (fun x y => (20 <= length y)%nat -> ~ recursive_jam t x y)) ->
  w = (if worth d =? 0 then PExplicit DivisionByZero else if thin B d then PExplicit NoSpace else PUnwrap Underflow) ->
  SpecCount.undivided c d = false
  /\ (w = PExplicit DivisionByZero /\ worth d = 0
      \/ w = PExplicit NoSpace /\ worth d <> 0 /\ no_room B c d
      \/ w = PUnwrap Underflow /\ worth d <> 0 /\ (20 <= width d)%nat /\ ~ written t c d (fun x y => ~ recursive_jam t x y)).
Proof.
  intros G ->. split; [destruct (SpecCount.undivided c d); [exfalso; auto|reflexivity]|].
  destruct (Z.eqb_spec (worth d) 0) as [E|E]; [auto|right].
  assert (W : (width d < 20)%nat -> written t c d (fun x y => (20 <= length y)%nat -> ~ recursive_jam t x y)).
  { intros Hd x y _ (_ & Ly & _) H. lia. }
  destruct (thin B d) eqn:ET.
  - left. split; [reflexivity|]. split; [exact E|].
    destruct (le_lt_dec (width c) (places B (worth c / worth d))) as [h|h]; [split; assumption|exfalso].
    apply G. right. split; [exact E|]. split; [intros [_ K]; lia|]. apply W.
    apply andb_true_iff in ET. destruct ET as [ET _]. apply Nat.eqb_eq in ET. lia.
  - right. split; [reflexivity|]. split; [exact E|].
    assert (NR : ~ no_room B c d) by (intros [K _]; rewrite K in ET; discriminate ET).
    split; [|intros HW; apply G; right; split; [exact E|]; split; [exact NR|]; intros x y Fx Fy _; exact (HW x y Fx Fy)].
    destruct (le_lt_dec 20 (width d)) as [h|h]; [exact h|exfalso].
    apply G. right. split; [exact E|]. split; [intros [K _]; rewrite K in ET; discriminate ET|]. exact (W h).
Qed.

Definition found e w : Prop := exists s, part e s /\ at_fault t w s /\ comes_to t s (Stop w).
Lemma found_in e a w : part e a -> found a w -> found e w.
Proof. intros H (s & H1 & H2). exists s. split; [exact (part_trans a e s H H1)|exact H2]. Qed.
Lemma blame e : forall w, comes_to t e (Stop w) -> found e w.
Proof.
  induction e as [u|a IHa b IHb|a IHa b IHb|a IHa b IHb|a IHa b IHb|a IHa b IHb|a IHa n|a IHa n|a IHa n]; intros w H.
  - destruct H as [(v & _ & E)|[_ E]]; discriminate E.
  - pose proof H as H0. cbn [comes_to] in H. apply two_blamed in H.
    destruct H as [H|[H|(c & d & Ha & Hb & Hc & G & E)]].
    + apply (found_in _ a); [right; left; apply part_refl|auto].
    + apply (found_in _ b); [right; right; apply part_refl|auto].
    + cbn in G. tauto.
  - pose proof H as H0. cbn [comes_to] in H. apply two_blamed in H.
    destruct H as [H|[H|(c & d & Ha & Hb & Hc & G & E)]].
    + apply (found_in _ a); [right; left; apply part_refl|auto].
    + apply (found_in _ b); [right; right; apply part_refl|auto].
    + exists (Minus a b). split; [left; reflexivity|]. split; [|exact H0]. split; [exact E|].
      exists c, d. split; [exact Ha|]. split; [exact Hb|]. exact (sub_fault c d G).
  - pose proof H as H0. cbn [comes_to] in H. apply two_blamed in H.
    destruct H as [H|[H|(c & d & Ha & Hb & Hc & G & E)]].
    + apply (found_in _ a); [right; left; apply part_refl|auto].
    + apply (found_in _ b); [right; right; apply part_refl|auto].
    + exists (Times a b). split; [left; reflexivity|]. split; [|exact H0]. split; [exact E|].
      exists c, d. split; [exact Ha|]. split; [exact Hb|]. exact (jam_fault a b c d Ha Hb G).
  - pose proof H as H0. cbn [comes_to] in H. apply two_blamed in H.
    destruct H as [H|[H|(c & d & Ha & Hb & Hc & G & E)]].
    + apply (found_in _ a); [right; left; apply part_refl|auto].
    + apply (found_in _ b); [right; right; apply part_refl|auto].
    + exists (Over a b). split; [left; reflexivity|]. split; [|exact H0].
      exists c, d. split; [exact Ha|]. split; [exact Hb|]. exact (div_fault c d w G E).
  - pose proof H as H0. cbn [comes_to] in H. apply two_blamed in H.
    destruct H as [H|[H|(c & d & Ha & Hb & Hc & G & E)]].
    + apply (found_in _ a); [right; left; apply part_refl|auto].
    + apply (found_in _ b); [right; right; apply part_refl|auto].
    + exists (Modulo a b). split; [left; reflexivity|]. split; [|exact H0].
      exists c, d. split; [exact Ha|]. split; [exact Hb|]. exact (div_fault c d w G E).
  - pose proof H as H0. cbn [comes_to] in H. apply one_blamed in H.
    destruct H as [H|(c & Ha & Hc & G & E)].
    + apply (found_in _ a); [right; apply part_refl|auto].
    + exists (Power a n). split; [left; reflexivity|]. split; [|exact H0]. split; [exact E|]. exists c. split; [exact Ha|exact G].
  - pose proof H as H0. cbn [comes_to] in H. apply one_blamed in H.
    destruct H as [H|(c & Ha & Hc & G & E)].
    + apply (found_in _ a); [right; apply part_refl|auto].
    + exists (ShiftL a n). split; [left; reflexivity|]. split; [|exact H0]. split; [exact E|].
      cbn [goes] in G. split; [destruct (is_binary t); [exfalso; auto|reflexivity]|].
      split; [destruct (one_pass B n); [exfalso; auto|reflexivity]|]. exists c. split; [exact Ha|]. intros K. apply G. auto.
  - pose proof H as H0. cbn [comes_to] in H. apply one_blamed in H.
    destruct H as [H|(c & Ha & Hc & G & E)].
    + apply (found_in _ a); [right; apply part_refl|auto].
    + exists (ShiftR a n). split; [left; reflexivity|]. split; [|exact H0]. exists c. split; [exact Ha|].
      cbn [goes says] in G, E. change (operands c c 0%nat) with c in G. subst w.
      destruct (is_binary t); [left|right]; (split; [reflexivity|split; [reflexivity|lia]]).
Qed.
End Blame.

Lemma blame_claim dbg t e w : comes_to t e (Stop w) ->
  exists s, part e s /\ at_fault t w s /\ evaluate dbg t s = Panic w /\ evaluate dbg t e = Panic w.
Proof.
  intros H. destruct (blame t e w H) as (s & H1 & H2 & H3). exists s. split; [exact H1|]. split; [exact H2|].
  split; [exact (fate_shown dbg t s _ H3)|exact (fate_shown dbg t e _ H)].
Qed.

Lemma part_divisors t s : forall e, part e s -> tight_divisors t e -> tight_divisors t s.
Proof.
  induction e as [u|a IHa b IHb|a IHa b IHb|a IHa b IHb|a IHa b IHb|a IHa b IHb|a IHa n|a IHa n|a IHa n];
    cbn [part]; intros [->|H] T; try exact T; try contradiction; cbn [tight_divisors] in T; try (destruct H as [H|H]); tauto.
Qed.
Lemma fewer_less t a b c d : comes_to t a (Value c) -> comes_to t b (Value d) -> tight (radix t) d ->
  (width c < width d)%nat \/ worth c < worth d -> worth c < worth d.
Proof.
  intros Ha Hb T [H|H]; [|exact H]. apply (undivided_less t a b c d Ha Hb T).
  unfold SpecCount.undivided, precedes. apply Nat.ltb_lt in H. rewrite H. reflexivity.
Qed.
(** a difference that stops is negative, or takes away a number with leading zeros *)
Lemma negative_claim t e : comes_to t e (Stop (PExplicit Underflow)) ->
  exists a b c d, part e (Minus a b) /\ comes_to t a (Value c) /\ comes_to t b (Value d)
    /\ (worth c < worth d \/ ~ tight (radix t) d)
    /\ (tight_divisors t e -> integer a (worth c) /\ integer b (worth d)).
Proof.
  intros H. destruct (blame t e _ H) as (s & H1 & H2 & _).
  destruct s as [u|a b|a b|a b|a b|a b|a n|a n|a n]; cbn [at_fault] in H2; try contradiction;
    try (destruct H2 as [E _]; discriminate E).
  - destruct H2 as (_ & c & d & Ha & Hb & HV). exists a, b, c, d. split; [exact H1|]. split; [exact Ha|]. split; [exact Hb|].
    split.
    + destruct (Nat.eq_dec (width d) (places (radix t) (worth d))) as [T|T]; [|right; exact T].
      left. exact (fewer_less t a b c d Ha Hb T HV).
    + intros T. apply (part_divisors t _ e H1) in T. destruct T as [T1 T2].
      split; [exact (value_claim t a c Ha T1)|exact (value_claim t b d Hb T2)].
  - destruct H2 as (c & d & _ & _ & _ & [[E _]|[[E _]|[E _]]]); discriminate E.
  - destruct H2 as (c & d & _ & _ & _ & [[E _]|[[E _]|[E _]]]); discriminate E.
  - destruct H2 as (c & _ & [[E _]|[E _]]); discriminate E.
Qed.
Lemma by_zero_claim t e : comes_to t e (Stop (PExplicit DivisionByZero)) ->
  exists a b, (part e (Over a b) \/ part e (Modulo a b)) /\ (exists d, comes_to t b (Value d) /\ worth d = 0)
    /\ (tight_divisors t e -> integer b 0).
Proof.
  intros H. destruct (blame t e _ H) as (s & H1 & H2 & _).
  destruct s as [u|a b|a b|a b|a b|a b|a n|a n|a n]; cbn [at_fault] in H2; try contradiction;
    try (destruct H2 as [E _]; discriminate E).
  - destruct H2 as (c & d & _ & Hb & _ & [[_ E]|[[E _]|[E _]]]); [|discriminate E|discriminate E].
    exists a, b. split; [left; exact H1|]. split; [exists d; auto|]. intros T. apply (part_divisors t _ e H1) in T.
    rewrite <- E. exact (value_claim t b d Hb (proj1 (proj2 T))).
  - destruct H2 as (c & d & _ & Hb & _ & [[_ E]|[[E _]|[E _]]]); [|discriminate E|discriminate E].
    exists a, b. split; [right; exact H1|]. split; [exists d; auto|]. intros T. apply (part_divisors t _ e H1) in T.
    rewrite <- E. exact (value_claim t b d Hb (proj1 (proj2 T))).
  - destruct H2 as (c & _ & [[E _]|[E _]]); discriminate E.
Qed.
Lemma growing_part s : forall e, part e s -> growing e -> growing s.
Proof.
  induction e as [u|a IHa b IHb|a IHa b IHb|a IHa b IHb|a IHa b IHb|a IHa b IHb|a IHa n|a IHa n|a IHa n];
    cbn [part]; intros [->|H] T; try exact T; try contradiction; cbn [growing] in T; try (destruct H as [H|H]); tauto.
Qed.
Lemma growing_claim t e w : growing e -> comes_to t e (Stop w) ->
  w = PUnwrap Underflow /\ exists s, part e s /\ at_fault t w s
    /\ match s with Times _ _ | Power _ _ => True | ShiftL _ _ => is_binary t = false | _ => False end.
Proof.
  intros G H. destruct (blame t e w H) as (s & H1 & H2 & _). pose proof (growing_part s e H1 G) as Gs.
  destruct s as [u|a b|a b|a b|a b|a b|a n|a n|a n]; cbn [growing at_fault] in *; try contradiction;
    (split; [apply H2|]); eexists; (split; [exact H1|]); (split; [exact H2|]); tauto.
Qed.
(** the message names the operator of the part *)
Lemma said_claim dbg t e w : comes_to t e (Stop w) -> exists s, part e s /\ at_fault t w s
  /\ printed (family_of s) (evaluate dbg t s) =
     match w with
     | PIndex => None
     | PUnimplemented => Some "not implemented"%string
     | PUnwrap _ => Some "called `Result::unwrap()` on an `Err` value: Underflow"%string
     | PExplicit Underflow => Some "Failed to subtract: Underflow"%string
     | PExplicit e => Some ((match s with Over _ _ => "Failed to perform division: " | _ => "Failed to compute remainder: " end)
         ++ (match e with DivisionByZero => "Division by zero" | _ => "Not enough space to store the result" end))%string
     | _ => None
     end.
Proof.
  intros H. destruct (blame_claim dbg t e w H) as (s & H1 & H2 & H3 & _). exists s. split; [exact H1|].
  split; [exact H2|]. rewrite H3. cbn [printed].
  destruct s as [u|a b|a b|a b|a b|a b|a n|a n|a n]; cbn [at_fault family_of] in *; try contradiction.
  - destruct H2 as [-> _]. reflexivity.
  - destruct H2 as [-> _]. reflexivity.
  - destruct H2 as (c & d & _ & _ & _ & [[-> _]|[[-> _]|[-> _]]]); reflexivity.
  - destruct H2 as (c & d & _ & _ & _ & [[-> _]|[[-> _]|[-> _]]]); reflexivity.
  - destruct H2 as [-> _]. reflexivity.
  - destruct H2 as [-> _]. reflexivity.
  - destruct H2 as (c & _ & [[-> _]|[-> _]]); reflexivity.
Qed.

Lemma two_refused t s (P Q : fate -> Prop) : of_two t s P Q Refused -> P Refused \/ Q Refused.
Proof.
  intros (p & Hp & K). destruct p as [c| |w]; cbn [then_] in K; [|auto|discriminate K].
  destruct K as (q & Hq & K). destruct q as [d| |w]; cbn [then_] in K; [|auto|discriminate K].
  destruct K as (_ & _ & [[_ E]|[_ E]]); discriminate E.
Qed.
Lemma one_refused t s (P : fate -> Prop) : of_one t s P Refused -> P Refused.
Proof.
  intros (p & Hp & K). destruct p as [c| |w]; cbn [then_] in K; [|auto|discriminate K].
  destruct K as (_ & _ & [[_ E]|[_ E]]); discriminate E.
Qed.
Lemma refused_claim t e : comes_to t e Refused -> exists s, part e (Lit s) /\ no_literal s.
Proof.
  induction e as [u|a IHa b IHb|a IHa b IHb|a IHa b IHb|a IHa b IHb|a IHa b IHb|a IHa n|a IHa n|a IHa n];
    cbn [comes_to]; intros H.
  1:{ destruct H as [(v & _ & E)|[H _]]; [discriminate E|]. exists u. split; [left; reflexivity|exact H]. }
  1-5: apply two_refused in H; destruct H as [H|H];
    [destruct (IHa H) as (s & H1 & H2)|destruct (IHb H) as (s & H1 & H2)]; exists s; cbn [part]; auto.
  all: apply one_refused in H; destruct (IHa H) as (s & H1 & H2); exists s; cbn [part]; auto.
Qed.
Lemma total_claim dbg t e : simple t e ->
  (exists x, evaluate dbg t e = Ret (ROk x) /\ valid t x)
  \/ (evaluate dbg t e = Ret (RErr InvalidNumber) /\ exists s, part e (Lit s) /\ no_literal s)
  \/ (exists w, evaluate dbg t e = Panic w /\ exists s, part e s /\ at_fault t w s /\ evaluate dbg t s = Panic w).
Proof.
  intros H. destruct (either_claim t e H) as (o & Ho & _). pose proof (fate_shown dbg t e o Ho) as S.
  destruct o as [c| |w]; cbn [shown] in S.
  - left. destruct S as (x & E & F). exists x. split; [exact E|apply F].
  - right. left. split; [exact S|exact (refused_claim t e Ho)].
  - right. right. exists w. split; [exact S|]. destruct (blame_claim dbg t e w Ho) as (s & H1 & H2 & H3 & _). exists s. auto.
Qed.

(** ** The reasons are exact *)
Lemma two_known t s a b c d o : of_two t s (comes_to t a) (comes_to t b) o ->
  comes_to t a (Value c) -> comes_to t b (Value d) -> ~ goes t s (operands c d) -> o = Stop (says t s (operands c d)).
Proof.
  intros (p & Hp & K) Ha Hb G. rewrite (fate_unique t a p (Value c) Hp Ha) in K. cbn [then_] in K.
  destruct K as (q & Hq & K). rewrite (fate_unique t b q (Value d) Hq Hb) in K. cbn [then_] in K.
  destruct K as (_ & _ & [[G' _]|[_ E]]); [contradiction|exact E].
Qed.
Lemma one_known t s a c o : of_one t s (comes_to t a) o ->
  comes_to t a (Value c) -> ~ goes t s (operands c c) -> o = Stop (says t s (operands c c)).
Proof.
  intros (p & Hp & K) Ha G. rewrite (fate_unique t a p (Value c) Hp Ha) in K. cbn [then_] in K.
  destruct K as (_ & _ & [[G' _]|[_ E]]); [contradiction|exact E].
Qed.
Lemma div_stops t c d w : SpecCount.undivided c d = false
  /\ (w = PExplicit DivisionByZero /\ worth d = 0
      \/ w = PExplicit NoSpace /\ worth d <> 0 /\ no_room (radix t) c d
      \/ w = PUnwrap Underflow /\ worth d <> 0 /\ (20 <= width d)%nat /\ ~ written t c d (fun x y => ~ recursive_jam t x y)) ->
  ~ (SpecCount.undivided c d = true \/ worth d <> 0 /\ ~ no_room (radix t) c d
     /\ written t c d (fun x y => (20 <= length y)%nat -> ~ recursive_jam t x y))
  /\ w = (if worth d =? 0 then PExplicit DivisionByZero else if thin (radix t) d then PExplicit NoSpace else PUnwrap Underflow).
Proof.
  intros [U [[-> E]|[(-> & E & R)|(-> & E & L & W)]]]; rewrite U.
  - split; [intros [K|[K _]]; [discriminate K|contradiction]|]. rewrite E. reflexivity.
  - split; [intros [K|(_ & K & _)]; [discriminate K|contradiction]|].
    apply Z.eqb_neq in E. rewrite E, (proj1 R). reflexivity.
  - split.
    + intros [K|(_ & _ & K)]; [discriminate K|]. apply W. intros x y Fx Fy. apply (K x y Fx Fy).
      destruct Fy as (_ & -> & _). exact L.
    + apply Z.eqb_neq in E. rewrite E. unfold thin. replace (width d =? 2)%nat with false; [reflexivity|].
      symmetry. apply Nat.eqb_neq. lia.
Qed.
Lemma fault_claim t e w o : at_fault t w e -> comes_to t e o -> o = Stop w.
Proof.
  destruct e as [u|a b|a b|a b|a b|a b|a n|a n|a n]; cbn [at_fault]; intros F H; try contradiction; cbn [comes_to] in H.
  - destruct F as (-> & c & d & Ha & Hb & K). apply (two_known t _ a b c d o H Ha Hb). intros [G1 G2]. cbn in G1, G2. lia.
  - destruct F as (-> & c & d & Ha & Hb & K). apply (two_known t _ a b c d o H Ha Hb). intros G. exact (G K).
  - destruct F as (c & d & Ha & Hb & K). destruct (div_stops t c d w K) as [G ->]. exact (two_known t _ a b c d o H Ha Hb G).
  - destruct F as (c & d & Ha & Hb & K). destruct (div_stops t c d w K) as [G ->]. exact (two_known t _ a b c d o H Ha Hb G).
  - destruct F as (-> & c & Ha & K). exact (one_known t _ a c o H Ha K).
  - destruct F as (-> & Eb & E1 & c & Ha & K). apply (one_known t _ a c o H Ha). cbn [goes]. rewrite Eb, E1.
    intros [G|[G|G]]; [discriminate G|discriminate G|exact (K G)].
  - destruct F as (c & Ha & K). rewrite (one_known t _ a c o H Ha).
    + cbn [says]. destruct K as [(-> & -> & _)|(-> & -> & _)]; reflexivity.
    + cbn [goes]. change (operands c c 0%nat) with c. destruct K as [(_ & -> & K)|(_ & -> & K)]; lia.
Qed.

(** ** Any expression, known outcome or not *)
Lemma both_returns f p q x : both f p q = Ret (ROk x) -> (exists y, p = Ret (ROk y)) /\ exists y, q = Ret (ROk y).
Proof.
  unfold both. destruct p as [[y|e]|w|]; cbn [bind]; try discriminate.
  destruct q as [[z|e]|w|]; cbn [bind]; try discriminate. intros _. split; eexists; reflexivity.
Qed.
Lemma single_returns f p x : single f p = Ret (ROk x) -> exists y, p = Ret (ROk y).
Proof. unfold single. destruct p as [[y|e]|w|]; cbn [bind]; try discriminate. intros _. eexists; reflexivity. Qed.
Lemma parts_claim dbg t s : forall e x, evaluate dbg t e = Ret (ROk x) -> part e s -> exists y, evaluate dbg t s = Ret (ROk y).
Proof.
  induction e as [u|a IHa b IHb|a IHa b IHb|a IHa b IHb|a IHa b IHb|a IHa b IHb|a IHa n|a IHa n|a IHa n];
    intros x H; cbn [part]; (intros [->|P]; [exists x; exact H|]); cbn [evaluate] in H.
  1: contradiction.
  1-5: apply both_returns in H; destruct H as [(y & Ha) (z & Hb)]; destruct P as [P|P]; [exact (IHa y Ha P)|exact (IHb z Hb P)].
  all: apply single_returns in H; destruct H as (y & Ha); exact (IHa y Ha P).
Qed.
Lemma leads_claim dbg t s : forall e, leads e s ->
  (forall w, evaluate dbg t s = Panic w -> evaluate dbg t e = Panic w)
  /\ (forall r, evaluate dbg t s = Ret (RErr r) -> evaluate dbg t e = Ret (RErr r)).
Proof.
  induction e as [u|a IHa b IHb|a IHa b IHb|a IHa b IHb|a IHa b IHb|a IHa b IHb|a IHa n|a IHa n|a IHa n];
    cbn [leads]; (intros [->|P]; [split; intros ? H; exact H|]).
  1: contradiction.
  all: destruct (IHa P) as [H1 H2]; split; intros u H; cbn [evaluate];
    [specialize (H1 u H); rewrite H1; reflexivity|specialize (H2 u H); rewrite H2; reflexivity].
Qed.
