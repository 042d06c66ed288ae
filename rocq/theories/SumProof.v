(** * SumProof: sums and products in any order. *)
From Coq Require Import ZArith List Bool Lia Permutation.
From Verif Require Import Base Digit Slice UBig Text Calc Spec SpecMul SpecToom SpecHist SpecCount SpecCalc Hoare
  DigitOK ListLemmas TypedProof KaraExact CountRun PowCount CalcProof ExprProof TallyProof.
From Verif Require Import Expr SpecExpr SpecTally SpecSum.
Import ListNotations.
Open Scope Z_scope.
Open Scope m_scope.

Section Sums.
Variables (dbg : bool) (t : dty).
Notation D := (impl dbg t).
Notation B := (radix t).
Let HB : 1 < B := radix_gt t.
Let OK := impl_ok dbg t.

Lemma fits_bound x c : fits t x c -> 0 <= worth c < B ^ Z.of_nat (width c).
Proof. intros (V & <- & <-). exact (value_bound B HB x V). Qed.
Lemma fits_places x c : fits t x c -> (places B (worth c) <= width c)%nat.
Proof. intros F. apply (places_le B D OK). exact (fits_bound x c F). Qed.
Lemma wide_max k v : 0 <= v < B ^ Z.of_nat (S k) -> wide B k v = Nat.max k (places B v).
Proof.
  intros H. unfold wide. destruct (Z.ltb_spec v (B ^ Z.of_nat k)) as [L|L].
  - pose proof (places_le B D OK v k) as P. unfold pw in P. specialize (P ltac:(lia)). lia.
  - pose proof (places_le B D OK v (S k)) as P. unfold pw in P. specialize (P H).
    pose proof (places_lt B D OK v ltac:(lia)) as Q. unfold pw in Q.
    destruct (Nat.le_gt_cases (places B v) k) as [G|G]; [|lia]. exfalso.
    assert (B ^ Z.of_nat (places B v) <= B ^ Z.of_nat k) by (apply Z.pow_le_mono_r; lia). lia.
Qed.
Lemma sum_app l k : sum (l ++ k) = sum l + sum k.
Proof. unfold sum. induction l as [|a l IH]; cbn; [lia|]. rewrite IH. lia. Qed.
Lemma product_app l k : product (l ++ k) = product l * product k.
Proof. unfold product. induction l as [|a l IH]; cbn [app fold_right]; [lia|]. rewrite IH. lia. Qed.
Lemma sum_one x c : fits t x c -> sum_cell t [c] = c.
Proof.
  intros F. pose proof (fits_places x c F) as P. destruct c as [m v]. unfold sum_cell, sum.
  cbn [map width worth fold_right list_max] in *. rewrite Z.add_0_r. f_equal. lia.
Qed.
Lemma wide_sum m n v w : 0 <= v < B ^ Z.of_nat m -> 0 <= w < B ^ Z.of_nat n ->
  wide B (Nat.max m n) (v + w) = Nat.max (Nat.max m n) (places B (v + w)).
Proof.
  intros H K. apply wide_max. split; [lia|].
  assert (B ^ Z.of_nat m <= B ^ Z.of_nat (Nat.max m n)) by (apply Z.pow_le_mono_r; lia).
  assert (B ^ Z.of_nat n <= B ^ Z.of_nat (Nat.max m n)) by (apply Z.pow_le_mono_r; lia).
  assert (E : B ^ Z.of_nat (S (Nat.max m n)) = B * B ^ Z.of_nat (Nat.max m n)).
  { rewrite Nat2Z.inj_succ, Z.pow_succ_r by lia. reflexivity. }
  assert (0 < B ^ Z.of_nat (Nat.max m n)) by (apply Z.pow_pos_nonneg; lia). rewrite E. nia.
Qed.
Lemma places_mono' v w : 0 <= v <= w -> (places B v <= places B w)%nat.
Proof.
  intros H. apply (places_le B D OK). split; [lia|]. pose proof (places_lt B D OK w ltac:(lia)). lia.
Qed.

Lemma fate_value e c : comes_to t e (Value c) -> exists x, evaluate dbg t e = Ret (ROk x) /\ fits t x c.
Proof. exact (fate_shown dbg t e (Value c)). Qed.
Lemma sum_comes e : forall cs, worths t (terms e) cs -> comes_to t e (Value (sum_cell t cs)).
Proof.
  induction e as [s|a IHa b IHb|a IHa b IHb|a IHa b IHb|a IHa b IHb|a IHa b IHb|a IHa n|a IHa n|a IHa n];
    intros cs H; try (inversion H as [|u c l k K N]; subst; inversion N; subst;
      destruct (fate_value _ _ K) as (x & _ & F); rewrite (sum_one x c F); exact K).
  cbn [terms] in H. apply Forall2_app_inv_l in H. destruct H as (cs1 & cs2 & H1 & H2 & ->).
  specialize (IHa cs1 H1). specialize (IHb cs2 H2).
  destruct (fate_value _ _ IHa) as (x & _ & Fx). destruct (fate_value _ _ IHb) as (y & _ & Fy).
  cbn [comes_to]. exists (Value (sum_cell t cs1)). split; [exact IHa|]. exists (Value (sum_cell t cs2)). split; [exact IHb|].
  split; [exact I|]. split; [exact I|]. left. split; [exact I|]. f_equal.
  pose proof (fits_bound _ _ Fx) as Bx. pose proof (fits_bound _ _ Fy) as By.
  cbv zeta. unfold after, update. cbn [Nat.eqb operands].
  rewrite (wide_sum _ _ _ _ Bx By). unfold sum_cell in *. cbn [width worth] in *.
  rewrite !map_app, sum_app, list_max_app.
  pose proof (places_mono' (sum (map worth cs1)) (sum (map worth cs1) + sum (map worth cs2)) ltac:(lia)).
  pose proof (places_mono' (sum (map worth cs2)) (sum (map worth cs1) + sum (map worth cs2)) ltac:(lia)).
  f_equal. lia.
Qed.

(** an expression with a value has terms and factors with values *)
Lemma both_some f p q r : both f p q = Ret (ROk r) -> exists x y, p = Ret (ROk x) /\ q = Ret (ROk y) /\ f x y = Ret r.
Proof.
  unfold both. destruct p as [[x|e]|w|]; cbn [bind]; try discriminate.
  destruct q as [[y|e]|w|]; cbn [bind]; try discriminate.
  destruct (f x y) as [z|w|] eqn:E; cbn [bind]; try discriminate. intros [= ->]. eauto.
Qed.
Lemma known_value a x : (exists o, comes_to t a o) -> evaluate dbg t a = Ret (ROk x) -> exists c, comes_to t a (Value c).
Proof.
  intros [o H] E. pose proof (fate_shown dbg t a o H) as F. destruct o as [c| |w]; cbn [shown] in F; [eauto| |];
    exfalso; exact (eq_ind (Ret (ROk x)) (fun m => match m with Ret (ROk _) => True | _ => False end) I _ (eq_trans (eq_sym E) F)).
Qed.
Lemma sum_worths e : forall x, known t (terms e) -> evaluate dbg t e = Ret (ROk x) -> exists cs, worths t (terms e) cs.
Proof.
  induction e as [s|a IHa b IHb|a IHa b IHb|a IHa b IHb|a IHa b IHb|a IHa b IHb|a IHa n|a IHa n|a IHa n];
    intros x K E; try (inversion K as [|u l Ku _]; subst; destruct (known_value _ x Ku E) as [c Hc];
      exists [c]; constructor; [exact Hc|constructor]).
  cbn [terms] in *. apply Forall_app in K. destruct K as [Ka Kb]. cbn [evaluate] in E.
  apply both_some in E. destruct E as (u & v & Eu & Ev & _).
  destruct (IHa u Ka Eu) as [c1 H1]. destruct (IHb v Kb Ev) as [c2 H2]. exists (c1 ++ c2). apply Forall2_app; assumption.
Qed.
Lemma product_worths e : forall x, known t (factors e) -> evaluate dbg t e = Ret (ROk x) -> exists cs,
  worths t (factors e) cs /\ fits t x (product_cell t cs) /\ product (map worth cs) = num t x /\ cs <> [].
Proof.
  induction e as [s|a IHa b IHb|a IHa b IHb|a IHa b IHb|a IHa b IHb|a IHa b IHb|a IHa n|a IHa n|a IHa n];
    intros x K E; try (inversion K as [|u l Ku _]; subst; destruct (known_value _ x Ku E) as [c Hc];
      exists [c]; split; [constructor; [exact Hc|constructor]|];
      destruct (fate_value _ c Hc) as (x' & E' & F'); rewrite E in E'; injection E' as <-;
      split; [exact F'|]; split; [cbn; destruct F' as (_ & _ & <-); lia|discriminate]).
  cbn [factors] in *. apply Forall_app in K. destruct K as [Ka Kb]. cbn [evaluate] in E.
  apply both_some in E. destruct E as (u & v & Eu & Ev & E).
  destruct (IHa u Ka Eu) as (c1 & H1 & F1 & P1 & N1). destruct (IHb v Kb Ev) as (c2 & H2 & F2 & P2 & N2).
  exists (c1 ++ c2). split; [apply Forall2_app; assumption|].
  pose proof (mul_fits dbg t u v _ _ F1 F2) as S. rewrite E in S. cbn [spec] in S. destruct S as [_ S].
  assert (Q : product (map worth (c1 ++ c2)) = num t u * num t v) by (rewrite map_app, product_app, P1, P2; reflexivity).
  rewrite <- (proj2 (proj2 F1)), <- (proj2 (proj2 F2)) in S.
  split; [|split].
  - replace (product_cell t (c1 ++ c2)) with (Cell (places B (num t u * num t v)) (num t u * num t v)); [exact S|].
    rewrite <- Q. destruct c1 as [|c c1]; [contradiction|]. destruct c2 as [|d c2]; [contradiction|].
    destruct c1; reflexivity.
  - rewrite Q. symmetry. exact (proj2 (proj2 S)).
  - destruct c1; [contradiction|discriminate].
Qed.

Lemma worths_perm l l' : Permutation l l' -> forall cs, worths t l cs -> exists cs', worths t l' cs' /\ Permutation cs cs'.
Proof.
  induction 1 as [|a l l' P IH|a b l|l l' l'' P IH P' IH']; intros cs H.
  - exists cs. auto.
  - inversion H as [|? c ? k A K]; subst. destruct (IH k K) as (k' & K' & Q). exists (c :: k').
    split; [constructor; assumption|constructor; exact Q].
  - inversion H as [|? c ? k A K]; subst. inversion K as [|? d ? k' A' K']; subst. exists (d :: c :: k').
    split; [repeat constructor; assumption|constructor].
  - destruct (IH cs H) as (k & K & Q). destruct (IH' k K) as (k' & K' & Q'). exists k'.
    split; [exact K'|exact (perm_trans Q Q')].
Qed.
Lemma sum_perm l l' : Permutation l l' -> sum l = sum l'.
Proof. induction 1; unfold sum in *; cbn [fold_right]; lia. Qed.
Lemma product_perm l l' : Permutation l l' -> product l = product l'.
Proof. induction 1; unfold product in *; cbn [fold_right]; [reflexivity|congruence|lia|congruence]. Qed.
Lemma max_perm l l' : Permutation l l' -> list_max l = list_max l'.
Proof. induction 1; unfold list_max in *; cbn [fold_right]; lia. Qed.
Lemma sum_cell_perm l l' : Permutation l l' -> sum_cell t l = sum_cell t l'.
Proof.
  intros P. unfold sum_cell. rewrite (sum_perm _ _ (Permutation_map worth P)), (max_perm _ _ (Permutation_map width P)).
  reflexivity.
Qed.
Lemma product_cell_perm l l' : Permutation l l' -> product_cell t l = product_cell t l'.
Proof.
  intros P. pose proof (product_perm _ _ (Permutation_map worth P)) as E. pose proof (Permutation_length P) as L.
  destruct l as [|a [|b l]], l' as [|a' [|b' l']]; try discriminate L; try reflexivity.
  - apply Permutation_length_1 in P. rewrite P. reflexivity.
  - unfold product_cell. rewrite E. reflexivity.
Qed.
Lemma known_perm l l' : Permutation l l' -> known t l -> known t l'.
Proof. intros P. apply (Permutation_Forall P). Qed.

Lemma sum_order_half e e' x : Permutation (terms e) (terms e') -> known t (terms e) ->
  evaluate dbg t e = Ret (ROk x) -> evaluate dbg t e' = Ret (ROk x).
Proof.
  intros P K E. destruct (sum_worths e x K E) as [cs H]. destruct (worths_perm _ _ P cs H) as (cs' & H' & Q).
  destruct (fate_value _ _ (sum_comes e cs H)) as (u & Eu & Fu).
  destruct (fate_value _ _ (sum_comes e' cs' H')) as (v & Ev & Fv). rewrite E in Eu. injection Eu as <-.
  rewrite <- (sum_cell_perm cs cs' Q) in Fv. rewrite Ev. rewrite (fits_same t x v _ Fu Fv). reflexivity.
Qed.
Lemma sum_order_claim e e' x : Permutation (terms e) (terms e') -> known t (terms e) ->
  evaluate dbg t e = Ret (ROk x) <-> evaluate dbg t e' = Ret (ROk x).
Proof.
  intros P K. split; apply sum_order_half; auto; [apply Permutation_sym, P|apply (known_perm _ _ P K)].
Qed.
Lemma product_order_claim e e' x y : Permutation (factors e) (factors e') -> known t (factors e) ->
  evaluate dbg t e = Ret (ROk x) -> evaluate dbg t e' = Ret (ROk y) -> x = y.
Proof.
  intros P K E E'. destruct (product_worths e x K E) as (cs & H & F & _).
  destruct (product_worths e' y (known_perm _ _ P K) E') as (cs' & H' & F' & _).
  destruct (worths_perm _ _ P cs H) as (cs2 & H2 & Q).
  assert (cs2 = cs') as ->.
  { clear -H2 H'. revert cs' H'. induction H2 as [|a c l k A K IH]; intros cs' H'; inversion H' as [|? d ? k' A' K']; subst; [reflexivity|].
    pose proof (fate_unique t a _ _ A A') as [= ->]. f_equal. apply IH, K'. }
  rewrite <- (product_cell_perm cs cs' Q) in F'. exact (fits_same t x y _ F F').
Qed.
End Sums.

Lemma sum_value_claim dbg t e cs : worths t (terms e) cs ->
  comes_to t e (Value (sum_cell t cs)) /\ exists x, evaluate dbg t e = Ret (ROk x) /\ fits t x (sum_cell t cs).
Proof. intros H. pose proof (sum_comes dbg t e cs H) as K. split; [exact K|exact (fate_value dbg t e _ K)]. Qed.
Lemma product_value_claim dbg t e x : known t (factors e) -> evaluate dbg t e = Ret (ROk x) ->
  exists cs, worths t (factors e) cs /\ fits t x (product_cell t cs) /\ num t x = product (map worth cs).
Proof.
  intros K E. destruct (product_worths dbg t e x K E) as (cs & H & F & P & _). exists cs. auto.
Qed.
