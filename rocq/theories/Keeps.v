(** * Keeps: digits below the base stay below the base.

    Nothing is assumed about lengths, normal form or the contents of scratch
    buffers: whenever a function returns, the digit lists it hands back have all
    their digits below the base if those it received had. *)
From Coq Require Import ZArith List Bool Lia.
From Verif Require Import Base Digit Slice Mul Div UBig Spec Hoare DigitOK ListLemmas Gives TypedProof.
Import ListNotations.
Open Scope Z_scope.
Open Scope m_scope.

(** What it means for a returned value to be in order: every digit and digit list
    in it is below the base. *)
Class Fine (A : Type) := fine : Z -> A -> Prop.
#[global] Instance fine_Z : Fine Z := fun B d => 0 <= d < B.
#[global] Instance fine_list : Fine (list Z) := below.
#[global] Instance fine_digits : Fine digits := below.
#[global] Instance fine_nat : Fine nat := fun _ _ => True.
#[global] Instance fine_bool : Fine bool := fun _ _ => True.
#[global] Instance fine_unit : Fine unit := fun _ _ => True.
#[global] Instance fine_pair A C `{Fine A} `{Fine C} : Fine (A * C) :=
  fun B x => fine B (fst x) /\ fine B (snd x).
#[global] Instance fine_option A `{Fine A} : Fine (option A) :=
  fun B x => match x with Some a => fine B a | None => True end.
#[global] Instance fine_result A `{Fine A} : Fine (result A) :=
  fun B x => match x with ROk a => fine B a | RErr _ => True end.

Definition keeps {A} `{Fine A} (B : Z) (e : M A) : Prop := gives e (fine B).

Section Rules.
Variable B : Z.
Hypothesis HB : 1 < B.

Lemma keeps_ret {A} `{Fine A} (a : A) : fine B a -> keeps B (Ret a).
Proof. apply gives_ret. Qed.
Lemma keeps_panic {A} `{Fine A} w : keeps B (Panic w : M A).
Proof. apply gives_panic. Qed.
Lemma keeps_nofuel {A} `{Fine A} : keeps B (NoFuel : M A).
Proof. intros a E. discriminate E. Qed.
Lemma keeps_bind {A C} `{Fine A} `{Fine C} (e : M A) (k : A -> M C) :
  keeps B e -> (forall a, fine B a -> keeps B (k a)) -> keeps B (bind e k).
Proof. apply gives_bind. Qed.
Lemma keeps_total {A} `{Fine A} (e : M A) Q : total e Q -> (forall a, Q a -> fine B a) -> keeps B e.
Proof. intros T HQ a ->. apply HQ, T. Qed.

Lemma keeps_sub_slice l i j : below B l -> keeps B (sub_slice l i j).
Proof.
  intros H. unfold sub_slice. destruct (_ && _); [|apply keeps_panic].
  apply keeps_ret. apply below_firstn, below_skipn, H.
Qed.
Lemma keeps_prefix l i : below B l -> keeps B (prefix l i).
Proof. apply keeps_sub_slice. Qed.
Lemma keeps_suffix l i : below B l -> keeps B (suffix l i).
Proof. apply keeps_sub_slice. Qed.
Lemma keeps_split_at l n : below B l -> keeps B (split_at l n).
Proof.
  intros H. unfold split_at. destruct (_ <=? _)%nat; [|apply keeps_panic].
  apply keeps_ret. split; [apply below_firstn, H|apply below_skipn, H].
Qed.
Lemma keeps_get l i : below B l -> keeps B (get l i).
Proof.
  intros H. unfold get. destruct (nth_error l i) eqn:E; [|apply keeps_panic].
  apply keeps_ret. exact (below_nth B l i z H E).
Qed.
Lemma keeps_set l i v : below B l -> 0 <= v < B -> keeps B (set l i v).
Proof.
  intros H Hv. unfold set. destruct (_ <? _)%nat; [|apply keeps_panic].
  apply keeps_ret. apply below_app. split; [apply below_firstn, H|].
  apply below_cons. split; [exact Hv|apply below_skipn, H].
Qed.
Lemma keeps_with_slice {A} `{Fine A} l i j (f : digits -> M (digits * A)) :
  below B l -> (forall s, below B s -> keeps B (f s)) -> keeps B (with_slice l i j f).
Proof.
  intros H1 H2. unfold with_slice. apply keeps_bind; [apply keeps_sub_slice, H1|].
  intros s Hs. apply keeps_bind; [apply H2, Hs|]. intros [s' a] [F1 F2]. apply keeps_ret.
  split; [|exact F2]. apply below_app. split; [apply below_firstn, H1|].
  apply below_app. split; [exact F1|apply below_skipn, H1].
Qed.
Lemma keeps_with_prefix {A} `{Fine A} l n (f : digits -> M (digits * A)) :
  below B l -> (forall s, below B s -> keeps B (f s)) -> keeps B (with_prefix l n f).
Proof. apply keeps_with_slice. Qed.
Lemma keeps_with_suffix {A} `{Fine A} l n (f : digits -> M (digits * A)) :
  below B l -> (forall s, below B s -> keeps B (f s)) -> keeps B (with_suffix l n f).
Proof. apply keeps_with_slice. Qed.
Lemma keeps_unwrap {A} `{Fine A} (r : result A) : fine B r -> keeps B (unwrap r).
Proof. intros Hf. destruct r; [apply keeps_ret; exact Hf|apply keeps_panic]. Qed.
Lemma keeps_or_panic {A} `{Fine A} (r : result A) : fine B r -> keeps B (or_panic r).
Proof. intros Hf. destruct r; [apply keeps_ret; exact Hf|apply keeps_panic]. Qed.
Lemma keeps_unwrap_with {A} `{Fine A} (e : M (digits * result A)) :
  keeps B e -> keeps B (unwrap_with e).
Proof.
  intros He. unfold unwrap_with. apply keeps_bind; [exact He|]. intros [l r] [H1 H2].
  apply keeps_bind; [apply keeps_unwrap, H2|]. intros a Ha. apply keeps_ret. split; assumption.
Qed.
Lemma keeps_guard b w : keeps B (guard b w).
Proof. unfold guard. destruct b; [apply keeps_ret; exact I|apply keeps_panic]. Qed.
Lemma keeps_debug_assert d b : keeps B (debug_assert d b).
Proof. unfold debug_assert. destruct d; [apply keeps_guard|apply keeps_ret; exact I]. Qed.
Lemma keeps_debug_work d b : keeps B (debug_work d b).
Proof. unfold debug_work. destruct d; [apply keeps_guard|apply keeps_ret; exact I]. Qed.
Lemma keeps_drop l n : keeps B (drop_leading_zeros l n).
Proof. intros k _. exact I. Qed.
Lemma keeps_fill_zero l i j : below B l -> keeps B (fill_zero l i j).
Proof.
  intros H. unfold fill_zero. apply keeps_bind.
  - apply keeps_with_slice; [exact H|]. intros s Hs. apply keeps_ret.
    split; [apply below_zeros, HB|exact I].
  - intros [l' a] [H1 _]. apply keeps_ret, H1.
Qed.
Lemma keeps_copy_into l i j s : below B l -> below B s -> keeps B (copy_into l i j s).
Proof.
  intros H Hs. unfold copy_into. apply keeps_bind.
  - apply keeps_with_slice; [exact H|]. intros t Ht. apply keeps_bind; [apply keeps_guard|].
    intros _ _. apply keeps_ret. split; [exact Hs|exact I].
  - intros [l' a] [H1 _]. apply keeps_ret, H1.
Qed.
End Rules.

Create HintDb keeps.
#[global] Hint Resolve keeps_sub_slice keeps_prefix keeps_suffix keeps_split_at keeps_get keeps_set
  keeps_unwrap keeps_or_panic keeps_guard keeps_debug_assert keeps_debug_work keeps_drop keeps_fill_zero
  keeps_copy_into : keeps.
#[global] Hint Resolve below_nil below_zeros below_firstn below_skipn : keeps.
#[global] Hint Extern 2 (below _ (_ ++ _)) => apply below_app; split : keeps.
#[global] Hint Extern 2 (below _ (_ :: _)) => apply below_cons; split : keeps.
#[global] Hint Extern 2 (below _ (truncate _ _)) => apply below_firstn : keeps.
#[global] Hint Extern 2 (below _ (tl ?l)) => apply (below_skipn _ 1 l) : keeps.
#[global] Hint Extern 3 (_ <= _ < _) => lia : keeps.

(** split the facts about a returned tuple *)
Ltac fine_split H :=
  lazymatch type of H with
  | fine _ (_, _) => destruct H as [?H ?H];
      repeat match goal with
      | X : fine _ (fst (_, _)) |- _ => cbn [fst] in X; fine_split X
      | X : fine _ (snd (_, _)) |- _ => cbn [snd] in X; fine_split X
      end
  | @fine _ (@fine_result _ _) _ _ => idtac
  | @fine _ (@fine_option _ _) _ _ => idtac
  | _ => cbv [fine fine_Z fine_list fine_digits fine_nat fine_bool fine_unit] in H
  end.
Ltac fine_goal :=
  repeat lazymatch goal with
  | |- fine _ (_, _) => split; cbn [fst snd]
  | |- @fine _ (@fine_option ?A ?F) ?B (Some ?a) => change (@fine A F B a)
  | |- @fine _ (@fine_result ?A ?F) ?B (ROk ?a) => change (@fine A F B a)
  | |- @fine _ (@fine_option _ _) _ None => exact I
  | |- @fine _ (@fine_result _ _) _ (RErr _) => exact I
  end;
  cbv [fine fine_Z fine_list fine_digits fine_nat fine_bool fine_unit fine_option fine_result];
  try exact I.
Ltac fine_cases :=
  repeat match goal with |- context [match ?x with _ => _ end] =>
    destruct x end.
Ltac keep_intro :=
  lazymatch goal with
  | |- forall a : ?A, _ =>
      let a := fresh "a" in intros a;
      repeat match goal with x : (_ * _)%type |- _ => destruct x end;
      let H := fresh "F" in intros H; fine_split H
  end.
Ltac keep1 :=
  lazymatch goal with
  | |- keeps _ (Ret _) => apply keeps_ret; fine_cases; fine_goal; auto 8 with keeps
  | |- keeps _ (Panic _) => apply keeps_panic
  | |- keeps _ NoFuel => apply keeps_nofuel
  | |- keeps _ (bind _ _) => refine (keeps_bind _ _ _ _ _); [|keep_intro]
  | |- keeps _ (with_slice _ _ _ _) => apply keeps_with_slice; [auto 8 with keeps|intros ? ?]
  | |- keeps _ (with_prefix _ _ _) => apply keeps_with_prefix; [auto 8 with keeps|intros ? ?]
  | |- keeps _ (with_suffix _ _ _) => apply keeps_with_suffix; [auto 8 with keeps|intros ? ?]
  | |- keeps _ (unwrap_with _) => apply keeps_unwrap_with
  | |- keeps _ (let '(_, _) := ?x in _) => destruct x
  | |- keeps _ (if ?b then _ else _) => destruct b
  | |- keeps _ (match ?x with _ => _ end) => destruct x
  | |- keeps _ _ => solve [auto 8 with keeps]
  end.
Ltac keep_facts :=
  match goal with
  | H : @fine _ (@fine_result ?A ?F) ?B (ROk ?a) |- _ => change (@fine A F B a) in H
  | H : @fine _ (@fine_option ?A ?F) ?B (Some ?a) |- _ => change (@fine A F B a) in H
  | H : fine _ (RErr _) |- _ => clear H
  | H : fine _ None |- _ => clear H
  | x : (_ * _)%type |- _ => destruct x
  | H : fine _ (_, _) |- _ => fine_split H
  end.
Ltac keep := repeat (cbv zeta; first [assumption | keep_facts | keep1]).

(** ** Slices *)
Section Slices.
Variable B : Z.
Variable D : digit.
Hypothesis HD : digit_ok B D.
Let HB1 : 1 < B.
Proof. generalize (ok_base B D HD). lia. Qed.
Let HB100 : 100 <= B := ok_base B D HD.
Local Hint Resolve HB1 : keeps.
Notation digs := (below B).
Notation dig d := (0 <= d < B).

Lemma k_inc d : dig d -> keeps B (d_inc D d).
Proof. intros H. eapply keeps_total; [apply (ok_inc B D HD), H|]. intros [r c] [F _]. fine_goal; tauto. Qed.
Lemma k_dec d : dig d -> keeps B (d_dec D d).
Proof. intros H. eapply keeps_total; [apply (ok_dec B D HD), H|]. intros [r c] [F _]. fine_goal; tauto. Qed.
Lemma k_add d o c : dig d -> dig o -> keeps B (d_add_carry D d o c).
Proof. intros H H'. eapply keeps_total; [apply (ok_add B D HD); assumption|]. intros [r c'] [F _]. fine_goal; tauto. Qed.
Lemma k_sub d o c : dig d -> dig o -> keeps B (d_sub_carry D d o c).
Proof. intros H H'. eapply keeps_total; [apply (ok_sub B D HD); assumption|]. intros [r c'] [F _]. fine_goal; tauto. Qed.
Lemma k_double d c : dig d -> keeps B (d_double_carry D d c).
Proof. intros H. eapply keeps_total; [apply (ok_double B D HD); assumption|]. intros [r c'] [F _]. fine_goal; tauto. Qed.
Lemma k_mul d f c : dig d -> dig f -> dig c -> keeps B (d_mul_carry D d f c).
Proof.
  intros H H' H''. eapply keeps_total; [apply (ok_mul B D HD); assumption|].
  intros [r c'] (F & F' & _). fine_goal; tauto.
Qed.
Lemma k_addprod d f g c : dig d -> dig f -> dig g -> dig c -> keeps B (d_add_prod_carry D d f g c).
Proof.
  intros H H' H'' H3. eapply keeps_total; [apply (ok_addprod B D HD); assumption|].
  intros [r c'] (F & F' & _). fine_goal; tauto.
Qed.
Local Hint Resolve k_inc k_dec k_add k_sub k_double k_mul k_addprod : keeps.

Ltac lists := repeat match goal with
  | H : below B (_ :: _) |- _ => apply below_cons in H; destruct H as [? H] end.

Lemma k_inc_assign l : digs l -> keeps B (inc_assign D l).
Proof. induction l as [|d l IH]; intros H; cbn [inc_assign]; lists; keep. Qed.
Local Hint Resolve k_inc_assign : keeps.
Lemma k_add_assign_digit l d : digs l -> dig d -> keeps B (add_assign_digit D l d).
Proof. intros H Hd. unfold add_assign_digit. destruct l; lists; keep. Qed.
Lemma k_add_zip l m c : digs l -> digs m -> keeps B (add_zip D l m c).
Proof. revert m c. induction l as [|d l IH]; intros [|e m] c H H'; cbn [add_zip]; lists; keep. Qed.
Local Hint Resolve k_add_assign_digit k_add_zip : keeps.
Lemma k_add_assign_big l m : digs l -> digs m -> keeps B (add_assign_big D l m).
Proof. intros. unfold add_assign_big. keep. Qed.
Local Hint Resolve k_add_assign_big : keeps.
Lemma k_add_zip_into l m s c : digs l -> digs m -> digs s -> keeps B (add_zip_into D l m s c).
Proof.
  revert m s c. induction l as [|d l IH]; intros [|e m] [|x s] c ? ? ?; cbn [add_zip_into]; lists; keep.
Qed.
Local Hint Resolve k_add_zip_into : keeps.
Lemma k_add_big_into l m s : digs l -> digs m -> digs s -> keeps B (add_big_into D l m s).
Proof. intros. unfold add_big_into. keep. Qed.
Lemma k_dec_assign l : digs l -> keeps B (dec_assign D l).
Proof.
  induction l as [|d l IH]; intros H; [cbn; keep|]. destruct l as [|e l].
  - cbn [dec_assign]. lists. keep.
  - change (dec_assign D (d :: e :: l)) with
      ('(d, u) <- d_dec D d ;;
       if u then '(t, r) <- dec_assign D (e :: l) ;;
                 Ret (d :: t, match r with ROk n => ROk (S n) | RErr x => RErr x end)
       else Ret (d :: e :: l, ROk (length (d :: e :: l)))).
    apply below_cons in H. destruct H as [? H]. keep.
Qed.
Local Hint Resolve k_dec_assign : keeps.
Lemma k_sub_assign_digit l d : digs l -> dig d -> keeps B (sub_assign_digit D l d).
Proof. intros. unfold sub_assign_digit. destruct l; lists; keep. Qed.
Lemma k_sub_zip l m c : digs l -> digs m -> keeps B (sub_zip D l m c).
Proof. revert m c. induction l as [|d l IH]; intros [|e m] c ? ?; cbn [sub_zip]; lists; keep. Qed.
Local Hint Resolve k_sub_assign_digit k_sub_zip : keeps.
Lemma k_sub_assign_big l m : digs l -> digs m -> keeps B (sub_assign_big D l m).
Proof. intros. unfold sub_assign_big. keep. Qed.
Lemma k_sub_zip_into l m s c : digs l -> digs m -> digs s -> keeps B (sub_zip_into D l m s c).
Proof.
  revert m s c. induction l as [|d l IH]; intros [|e m] [|x s] c ? ? ?; cbn [sub_zip_into]; lists; keep.
Qed.
Local Hint Resolve k_sub_assign_big k_sub_zip_into : keeps.
Lemma k_sub_big_into l m s : digs l -> digs m -> digs s -> keeps B (sub_big_into D l m s).
Proof. intros. unfold sub_big_into. keep. Qed.
Lemma k_rsub_zip l m c : digs l -> digs m -> keeps B (rsub_zip D l m c).
Proof. revert m c. induction l as [|d l IH]; intros [|e m] c ? ?; cbn [rsub_zip]; lists; keep. Qed.
Local Hint Resolve k_add_big_into k_sub_big_into k_rsub_zip : keeps.
Lemma k_rsub_assign_big l m : digs l -> digs m -> keeps B (rsub_assign_big D l m).
Proof. intros. unfold rsub_assign_big. keep. Qed.
Local Hint Resolve k_rsub_assign_big : keeps.
Lemma k_sub_assign_abs l n m : digs l -> digs m -> keeps B (sub_assign_big_abs_sign D l n m).
Proof. intros. unfold sub_assign_big_abs_sign. keep. Qed.
Lemma k_sub_into_abs l m s : digs l -> digs m -> digs s -> keeps B (sub_big_into_abs_sign D l m s).
Proof. intros. unfold sub_big_into_abs_sign. keep. Qed.
Local Hint Resolve k_sub_assign_abs k_sub_into_abs : keeps.

(** shifts within a digit: the carry is below the power of two *)
Lemma k_shl_loop l s c : digs l -> 1 <= s -> 2 ^ s < B -> 0 <= c < 2 ^ s ->
  gives (shl_loop D l s c) (fun '(r, c') => digs r /\ 0 <= c' < 2 ^ s).
Proof.
  revert c. induction l as [|d l IH]; intros c Hl Hs H2 Hc; cbn [shl_loop].
  - apply gives_ret. split; [apply below_nil|exact Hc].
  - lists. eapply gives_bind.
    { intros a E. pose proof (ok_shl B D HD d s c H Hs H2 Hc) as T. rewrite E in T. exact T. }
    intros [r c'] (F1 & F2 & _). eapply gives_bind; [apply IH; assumption|].
    intros [r' c''] [G1 G2]. apply gives_ret. split; [apply below_cons; tauto|exact G2].
Qed.
Lemma k_shl l s : digs l -> 0 <= s -> 2 ^ s < B -> keeps B (shl_carry_assign_within_digit D l s 0).
Proof.
  intros Hl Hs H2. unfold shl_carry_assign_within_digit. destruct (Z.eqb_spec s 0).
  - apply keeps_ret. fine_goal; auto with keeps.
  - assert (0 < 2 ^ s) by (apply Z.pow_pos_nonneg; lia).
    eapply gives_post; [apply k_shl_loop; auto; lia|]. intros [r c] [G1 G2]. fine_goal; auto; lia.
Qed.
Lemma k_shr_loop l s c : digs l -> 1 <= s -> 2 ^ s < B -> 0 <= c < 2 ^ s ->
  gives (shr_loop D l s c) (fun '(r, c') => digs r /\ 0 <= c' < 2 ^ s).
Proof.
  induction l as [|d l IH]; intros Hl Hs H2 Hc; cbn [shr_loop].
  - apply gives_ret. split; [apply below_nil|exact Hc].
  - lists. eapply gives_bind; [apply IH; assumption|].
    intros [r' c''] [G1 G2]. eapply gives_bind.
    { intros a E. pose proof (ok_shr B D HD d s c'' H Hs H2 G2) as T. rewrite E in T. exact T. }
    intros [r c'] (F1 & F2 & _). apply gives_ret. split; [apply below_cons; tauto|exact F2].
Qed.
Lemma k_shr l s c : digs l -> 0 <= s -> 2 ^ s < B -> 0 <= c < 2 ^ s ->
  keeps B (shr_carry_assign_within_digit D l s c).
Proof.
  intros Hl Hs H2 Hc. unfold shr_carry_assign_within_digit. destruct (Z.eqb_spec s 0); [keep|].
  eapply gives_bind; [apply k_shr_loop; auto; lia|]. intros [r c'] [G1 G2].
  apply gives_any. intros k. apply gives_ret. fine_goal; auto; lia.
Qed.
Lemma k_shr1 l c : digs l -> keeps B (shr_carry_assign_within_digit D l 1 (from_bit c)).
Proof. intros H. apply k_shr; [exact H|lia|change (2 ^ 1) with 2; lia|destruct c; cbn; lia]. Qed.
Lemma k_div3_loop l c : digs l -> 0 <= c < 3 ->
  gives (div3_loop D l c) (fun '(r, c') => digs r /\ 0 <= c' < 3).
Proof.
  induction l as [|d l IH]; intros Hl Hc; cbn [div3_loop].
  - apply gives_ret. split; [apply below_nil|exact Hc].
  - lists. eapply gives_bind; [apply IH; assumption|].
    intros [r' c''] [G1 G2]. eapply gives_bind.
    { intros a E. pose proof (ok_div3 B D HD d c'' H G2) as T. rewrite E in T. exact T. }
    intros [r c'] (F1 & F2 & _). apply gives_ret. split; [apply below_cons; tauto|exact F2].
Qed.
Lemma k_div3 l c : digs l -> keeps B (div3_carry_assign D l (b2z c)).
Proof.
  intros Hl. unfold div3_carry_assign.
  eapply gives_bind; [apply k_div3_loop; [exact Hl|destruct c; cbn; lia]|]. intros [r c'] [G1 G2].
  apply gives_any. intros k. apply gives_ret. fine_goal; auto; lia.
Qed.
Local Hint Resolve k_shr1 k_div3 : keeps.

(** ** Multiplication *)
Lemma k_bit c : dig (from_bit c).
Proof. destruct c; cbn; lia. Qed.
Local Hint Resolve k_bit : keeps.
Lemma k_double_assign l c : digs l -> keeps B (double_carry_assign D l c).
Proof. revert c. induction l as [|d l IH]; intros c ?; cbn [double_carry_assign]; lists; keep. Qed.
Lemma k_mul_add l f o : digs l -> dig f -> dig o -> keeps B (mul_add_assign_digit D l f o).
Proof. revert o. induction l as [|d l IH]; intros c ? ? ?; cbn [mul_add_assign_digit]; lists; keep. Qed.
Lemma k_mul_zip l f q c : digs l -> dig f -> digs q -> dig c -> keeps B (mul_zip_into D l f q c).
Proof.
  revert q c. induction l as [|d l IH]; intros [|e q] c ? ? ? ?; cbn [mul_zip_into]; lists; keep.
Qed.
Local Hint Resolve k_double_assign k_mul_add k_mul_zip : keeps.
Lemma k_mul_digit_into l f q : digs l -> dig f -> digs q -> keeps B (mul_digit_into D l f q).
Proof. intros. unfold mul_digit_into. keep. Qed.
Lemma k_mul_pair_loop l fl fh q c b : digs l -> dig fl -> dig fh -> dig q -> dig c ->
  keeps B (mul_pair_loop D l fl fh q c b).
Proof.
  revert q c b. induction l as [|d l IH]; intros q c b ? ? ? ? ?; cbn [mul_pair_loop]; lists; keep.
Qed.
Local Hint Resolve k_mul_digit_into k_mul_pair_loop : keeps.
Lemma k_mul_pair l fl fh o : digs l -> dig fl -> dig fh -> dig o ->
  keeps B (mul_pair_add_assign_digit D l fl fh o).
Proof. intros. unfold mul_pair_add_assign_digit. destruct l; lists; keep. Qed.
Lemma k_add_prod_zip l r f c : digs l -> digs r -> dig f -> dig c -> keeps B (add_prod_zip D l r f c).
Proof.
  revert r c. induction l as [|d l IH]; intros [|e r] c ? ? ? ?; cbn [add_prod_zip]; lists; keep.
Qed.
Local Hint Resolve k_mul_pair k_add_prod_zip : keeps.
Lemma k_mul_long_loop l m o r : digs l -> digs m -> digs r -> keeps B (mul_long_loop D l m o r).
Proof. revert o r. induction m as [|d m IH]; intros o r ? ? ?; cbn [mul_long_loop]; lists; keep. Qed.
Local Hint Resolve k_mul_long_loop : keeps.
Lemma k_mul_long l m r : digs l -> digs m -> digs r -> keeps B (mul_big_long_into D l m r).
Proof. intros. unfold mul_big_long_into. keep. Qed.
Lemma k_square_long_loop l m o r : digs l -> digs m -> digs r -> keeps B (square_long_loop D l m o r).
Proof. revert o r. induction m as [|d m IH]; intros o r ? ? ?; cbn [square_long_loop]; lists; keep. Qed.
Lemma k_square_diag l r c : digs l -> digs r -> keeps B (square_diag D l r c).
Proof.
  revert r c. induction l as [|d l IH]; intros [|e [|e' r]] c ? ?; cbn [square_diag]; lists; keep.
Qed.
Local Hint Resolve k_mul_long k_square_long_loop k_square_diag : keeps.
Lemma k_square_long l r : digs l -> digs r -> keeps B (square_long_into D l r).
Proof. intros. unfold square_long_into. keep. Qed.
Local Hint Resolve k_square_long : keeps.

Lemma k_combine neg s n r z a b c : digs r -> digs z -> keeps B (karatsuba_combine D neg s n r z a b c).
Proof. intros. unfold karatsuba_combine. keep. Qed.
Local Hint Resolve k_combine : keeps.
Lemma k_push c l n : digs l -> keeps B (push_carry c l n).
Proof. intros. unfold push_carry. keep. Qed.
Local Hint Resolve k_push : keeps.
Lemma k_parts l b : digs l -> keeps B (toom3_parts l b).
Proof. intros. unfold toom3_parts. keep. Qed.
Lemma k_eval a b c p q r : digs a -> digs b -> digs c -> digs p -> digs q -> digs r ->
  keeps B (toom3_eval D a b c p q r).
Proof. intros. unfold toom3_eval. keep. Qed.
Lemma k_clear l n : digs l -> keeps B (clear_from l n).
Proof. intros. unfold clear_from. keep. Qed.
Local Hint Resolve k_parts k_eval k_clear : keeps.
Lemma k_interpolate b n r r1 rm1 rm2 a1 a2 a3 a4 a5 s1 s2 :
  digs r -> digs r1 -> digs rm1 -> digs rm2 ->
  keeps B (toom3_interpolate D b n r r1 rm1 rm2 a1 a2 a3 a4 a5 s1 s2).
Proof. intros. unfold toom3_interpolate. keep. Qed.
Local Hint Resolve k_interpolate : keeps.

Definition mul_keeps (rec : mul_fn) : Prop := forall x y r w,
  digs x -> digs y -> digs r -> digs w -> keeps B (rec x y r w).
Definition square_keeps (rec : square_fn) : Prop := forall x r w,
  digs x -> digs r -> digs w -> keeps B (rec x r w).

Lemma k_karatsuba rec x y r w : mul_keeps rec -> digs x -> digs y -> digs r -> digs w ->
  keeps B (mul_big_karatsuba_into D rec x y r w).
Proof. intros Hr **. unfold mul_big_karatsuba_into. keep. all: apply Hr; auto 8 with keeps. Qed.
Lemma k_square_karatsuba rec x r w : square_keeps rec -> digs x -> digs r -> digs w ->
  keeps B (square_karatsuba_into D rec x r w).
Proof. intros Hr **. unfold square_karatsuba_into. keep. all: apply Hr; auto 8 with keeps. Qed.
Lemma k_toom3 rec x y r w : mul_keeps rec -> digs x -> digs y -> digs r -> digs w ->
  keeps B (mul_big_toom3_into D rec x y r w).
Proof. intros Hr **. unfold mul_big_toom3_into. keep. all: apply Hr; auto 8 with keeps. Qed.
Lemma k_square_toom3 rec x r w : square_keeps rec -> digs x -> digs r -> digs w ->
  keeps B (square_toom3_into D rec x r w).
Proof. intros Hr **. unfold square_toom3_into. keep. all: apply Hr; auto 8 with keeps. Qed.
Lemma k_mul_fuel f : mul_keeps (mul_fuel D f).
Proof.
  induction f as [|f IH]; intros x y r w ? ? ? ?; cbn [mul_fuel]; [apply keeps_nofuel|].
  unfold mul_dispatch. keep; [apply k_toom3|apply k_karatsuba]; assumption.
Qed.
Lemma k_square_fuel f : square_keeps (square_fuel D f).
Proof.
  induction f as [|f IH]; intros x r w ? ? ?; cbn [square_fuel]; [apply keeps_nofuel|].
  unfold square_dispatch. keep; [apply k_square_toom3|apply k_square_karatsuba]; assumption.
Qed.
Lemma k_mul_into x y r : digs x -> digs y -> digs r -> keeps B (mul_big_into D x y r).
Proof.
  intros. unfold mul_big_into. keep; [apply k_toom3|apply k_karatsuba]; auto with keeps;
    apply k_mul_fuel.
Qed.
Lemma k_square_into x r : digs x -> digs r -> keeps B (square_into D x r).
Proof.
  intros. unfold square_into. keep; [apply k_square_toom3|apply k_square_karatsuba]; auto with keeps;
    apply k_square_fuel.
Qed.
Local Hint Resolve k_mul_into k_square_into : keeps.

(** ** Numbers *)
Lemma k_new l : digs l -> keeps B (ubig_new l).
Proof. intros. unfold ubig_new, ubig_drop_leading_zeros. keep. Qed.
Lemma k_norm l : digs l -> keeps B (ubig_drop_leading_zeros l).
Proof. intros. unfold ubig_drop_leading_zeros. keep. Qed.
Local Hint Resolve k_new k_norm : keeps.
Lemma k_add_at x y o : digs x -> digs y -> keeps B (add_assign_big_at_offset D x y o).
Proof. intros. unfold add_assign_big_at_offset. keep. Qed.
Lemma k_sub_at x y o : digs x -> digs y -> keeps B (sub_assign_big_at_offset D x y o).
Proof. intros. unfold sub_assign_big_at_offset. keep. Qed.
Lemma k_mul_big x y : digs x -> digs y -> keeps B (mul_big D x y).
Proof. intros. unfold mul_big, ubig_zero. keep. Qed.
Lemma k_square x : digs x -> keeps B (square D x).
Proof. intros. unfold square, ubig_zero. keep. Qed.
Local Hint Resolve k_add_at k_sub_at k_mul_big k_square : keeps.
Lemma k_add_assign x y : digs x -> digs y -> keeps B (add_assign D x y).
Proof. apply k_add_at. Qed.
Lemma k_sub_assign x y : digs x -> digs y -> keeps B (sub_assign D x y).
Proof. intros. unfold sub_assign. keep. Qed.
Lemma k_mul_assign x y : digs x -> digs y -> keeps B (mul_assign D x y).
Proof. apply k_mul_big. Qed.
Lemma k_add_d x d : digs x -> dig d -> keeps B (add_assign_d D x d).
Proof. intros. unfold add_assign_d. keep. Qed.
Lemma k_sub_d x d : digs x -> dig d -> keeps B (sub_assign_d D x d).
Proof. intros. unfold sub_assign_d. keep. Qed.
Lemma k_ubig_mul_add x f o : digs x -> dig f -> dig o -> keeps B (ubig_mul_add_assign_digit D x f o).
Proof. intros. unfold ubig_mul_add_assign_digit. keep. Qed.
Local Hint Resolve k_ubig_mul_add : keeps.
Lemma k_mul_d x d : digs x -> dig d -> keeps B (mul_assign_d D x d).
Proof. intros. apply k_ubig_mul_add; auto with keeps. Qed.
Lemma k_mul_pair_add x l h o : digs x -> dig l -> dig h -> dig o ->
  keeps B (ubig_mul_pair_add_assign_digit D x l h o).
Proof.
  intros. unfold ubig_mul_pair_add_assign_digit. keep. apply k_norm. fine_cases; auto 8 with keeps.
Qed.
Local Hint Resolve k_add_assign k_sub_assign k_mul_assign k_add_d k_sub_d k_mul_d k_mul_pair_add : keeps.
Lemma k_pow_loop n : forall r q, digs r -> digs q -> keeps B (pow_loop D n r q).
Proof. induction n as [n IH|n IH|]; intros; cbn [pow_loop]; keep. Qed.
Lemma k_pow x e : digs x -> keeps B (pow D x e).
Proof.
  intros H. assert (H1 : digs ubig_one) by (unfold ubig_one; auto with keeps).
  unfold pow. keep.
  all: try (destruct (N.even _)). all: try apply k_pow_loop; auto.
Qed.

(** division by one digit *)
Lemma k_div_loop l f c : digs l -> 0 < f < B -> 0 <= c < f ->
  gives (div_loop D l f c) (fun '(r, c') => digs r /\ 0 <= c' < f).
Proof.
  induction l as [|d l IH]; intros Hl Hf Hc; cbn [div_loop].
  - apply gives_ret. split; [apply below_nil|exact Hc].
  - lists. eapply gives_bind; [apply IH; assumption|].
    intros [r' c''] [G1 G2]. eapply gives_bind.
    { intros a E. pose proof (ok_div B D HD d f c'' H Hf G2) as T. rewrite E in T. exact T. }
    intros [r c'] (F1 & F2 & _). apply gives_ret. split; [apply below_cons; tauto|exact F2].
Qed.
Lemma k_div_digit l f : digs l -> dig f -> keeps B (div_assign_digit D l f).
Proof.
  intros Hl Hf. unfold div_assign_digit. destruct (Z.eqb_spec f 0); [keep|].
  eapply gives_bind; [apply k_div_loop; [exact Hl|lia|lia]|]. intros [r c] [G1 G2].
  apply gives_any. intros k. apply gives_ret. split; cbn; [exact G1|]. cbv [fine_pair fine fine_nat fine_Z fst snd]. split; [exact I|lia].
Qed.
Local Hint Resolve k_div_digit : keeps.
Lemma k_ubig_div_digit l f : digs l -> dig f -> keeps B (ubig_div_assign_digit D l f).
Proof.
  intros Hl Hf. unfold ubig_div_assign_digit. refine (keeps_bind _ _ _ _ _); [auto with keeps|].
  keep_intro. keep.
Qed.
Lemma k_div_d l f : digs l -> dig f -> keeps B (div_assign_d D l f).
Proof.
  intros Hl Hf. unfold div_assign_d. refine (keeps_bind _ _ _ _ _); [apply k_ubig_div_digit; assumption|].
  keep_intro. keep.
Qed.
Lemma k_rem_loop l f c : digs l -> 0 < f < B -> 0 <= c < f ->
  gives (rem_loop D l f c) (fun c' => 0 <= c' < f).
Proof.
  induction l as [|d l IH]; intros Hl Hf Hc; cbn [rem_loop]; [apply gives_ret; exact Hc|].
  lists. eapply gives_bind; [apply IH; assumption|]. intros c' Hc'.
  intros a E. pose proof (ok_rem B D HD d f c' H Hf Hc') as T. rewrite E in T. cbn in T. subst a.
  apply Z.mod_pos_bound. lia.
Qed.
Lemma k_rem_digit l f : digs l -> dig f -> keeps B (rem_digit D l f).
Proof.
  intros Hl Hf. unfold rem_digit. destruct (Z.eqb_spec f 0); [keep|].
  eapply gives_bind; [apply k_rem_loop; [exact Hl|lia|lia]|]. intros r G.
  cbv beta in G. apply gives_ret. cbv [fine fine_result fine_Z]. lia.
Qed.
Local Hint Resolve k_rem_digit : keeps.
Lemma k_rem_d l f : digs l -> dig f -> keeps B (rem_assign_d D l f).
Proof. intros Hl Hf. unfold rem_assign_d. keep. Qed.
Lemma k_rem_ref_d l f : digs l -> dig f -> keeps B (rem_ref_d D l f).
Proof. intros Hl Hf. unfold rem_ref_d. keep. Qed.
End Slices.

(** ** Operations on a machine integer, shifts *)
Section Typed.
Variable dbg : bool.
Variable t : dty.
Let B := radix t.
Let D := impl dbg t.
Let HD : digit_ok B D := impl_ok dbg t.
Let HB1 : 1 < B := radix_gt t.
Local Hint Resolve HB1 : keeps.
Notation digs := (below B).
Let t_add_d := k_add_d B D HD.
Let t_sub_d := k_sub_d B D HD.
Let t_mul_d := k_mul_d B D HD.
Let t_add_assign_digit := k_add_assign_digit B D HD.
Let t_sub_assign_digit := k_sub_assign_digit B D HD.
Let t_mul_pair_add := k_mul_pair_add B D HD.
Let t_add_assign := k_add_assign B D HD.
Let t_mul_assign := k_mul_assign B D HD.
Let t_pow := k_pow B D HD.
Local Hint Resolve t_add_d t_sub_d t_mul_d t_add_assign_digit t_sub_assign_digit t_mul_pair_add t_add_assign t_mul_assign t_pow : keeps.

Lemma storage_parts n : storage t n ->
  (is_binary t || fits_single t n = true -> 0 <= n < B) /\
  (is_binary t || fits_single t n = false ->
   0 <= fst (split_dec t n) < B /\ 0 <= snd (split_dec t n) < B).
Proof.
  intros Hs. destruct (is_binary t) eqn:Eb; cbn [orb].
  - split; [intros _; apply (storage_bin t n Eb Hs)|discriminate].
  - split; intros Hf.
    + apply storage_single; assumption.
    + pose proof (storage_pair t n Eb Hs Hf) as P. destruct (split_dec t n) as [h l]. cbn [fst snd]. unfold B. lia.
Qed.
Lemma k_from_T n : storage t n -> digs (from_T t n).
Proof. intros H. exact (proj1 (from_T_ok t n H)). Qed.
Lemma k_add_T x n : digs x -> storage t n -> keeps B (add_assign_T dbg t x n).
Proof.
  intros Hx Hn. destruct (storage_parts n Hn) as [P1 P2]. unfold add_assign_T.
  destruct (is_binary t); [|destruct (fits_single t n)]; cbn [orb] in P1, P2.
  1, 2: specialize (P1 eq_refl); apply (k_add_d B D HD); assumption.
  specialize (P2 eq_refl). destruct (split_dec t n) as [h l]. cbn in P2. destruct P2.
  refine (keeps_bind _ _ _ _ _); [apply (k_add_d B D HD); assumption|]. intros z F. fine_split F.
  assert (digs (if ubig_is_zero z then [0] else z)) by (fine_cases; auto with keeps). keep.
Qed.
Lemma k_sub_T x n : digs x -> storage t n -> keeps B (sub_assign_T dbg t x n).
Proof.
  intros Hx Hn. destruct (storage_parts n Hn) as [P1 P2]. unfold sub_assign_T.
  destruct (is_binary t); [|destruct (fits_single t n)]; cbn [orb] in P1, P2.
  1, 2: specialize (P1 eq_refl); apply (k_sub_d B D HD); assumption.
  specialize (P2 eq_refl). destruct (split_dec t n) as [h l]. cbn in P2. destruct P2.
  refine (keeps_bind _ _ _ _ _); [apply (k_sub_d B D HD); assumption|]. keep_intro. keep.
Qed.
Lemma k_mul_T x n : digs x -> storage t n -> keeps B (mul_assign_T dbg t x n).
Proof.
  intros Hx Hn. destruct (storage_parts n Hn) as [P1 P2]. unfold mul_assign_T.
  destruct (is_binary t); [|destruct (fits_single t n)]; cbn [orb] in P1, P2.
  1, 2: specialize (P1 eq_refl); apply (k_mul_d B D HD); assumption.
  specialize (P2 eq_refl). destruct (split_dec t n) as [h l]. cbn in P2. destruct P2.
  apply (k_mul_pair_add B D HD); auto with keeps.
Qed.
Lemma k_shl_assign x n : digs x -> 0 <= n -> keeps B (shl_assign dbg t x n).
Proof.
  intros Hx Hn. unfold shl_assign. destruct (is_binary t) eqn:Eb.
  - assert (Hm : 0 <= n mod bits t < bits t) by (apply Z.mod_pos_bound, bits_pos).
    assert (H2 : 2 ^ (n mod bits t) < B).
    { unfold B. rewrite (radix_bin t Eb). apply Z.pow_lt_mono_r; lia. }
    refine (keeps_bind _ _ _ _ _).
    + destruct (_ =? 0); [keep|].
      refine (keeps_bind _ _ _ _ _); [apply (k_shl B D HD); [exact Hx|lia|exact H2]|].
      keep_intro. keep.
    + keep_intro. keep.
  - destruct (Z.leb_spec n (4 * Z.of_nat (MAX_HEX_PLACES t))) as [Hle|_].
    + refine (keeps_bind _ _ _ _ _);
        [apply (k_shl B D HD); [exact Hx|lia|apply (hex_places_dec t n Eb); lia]|].
      keep_intro. keep.
    + assert (digs ubig_one) by (unfold ubig_one; auto with keeps). keep.
Qed.
Lemma k_shr_assign x n : digs x -> 0 <= n -> keeps B (shr_assign dbg t x n).
Proof.
  intros Hx Hn. unfold shr_assign. destruct (is_binary t) eqn:Eb.
  - assert (Hm : 0 <= n mod bits t < bits t) by (apply Z.mod_pos_bound, bits_pos).
    assert (H2 : 2 ^ (n mod bits t) < B).
    { unfold B. rewrite (radix_bin t Eb). apply Z.pow_lt_mono_r; lia. }
    refine (keeps_bind _ _ _ _ _); [keep|]. keep_intro.
    destruct (_ =? 0); [keep|].
    refine (keeps_bind _ _ _ _ _);
      [apply (k_shr B D HD); [assumption|lia|exact H2|split; [lia|apply Z.pow_pos_nonneg; lia]]|].
    keep_intro. keep.
  - destruct (Z.leb_spec n (4 * Z.of_nat (MAX_HEX_PLACES t))) as [Hle|_]; [|apply keeps_panic].
    refine (keeps_bind _ _ _ _ _);
      [apply (k_shr B D HD); [exact Hx|lia|apply (hex_places_dec t n Eb); lia|]|].
    + split; [lia|apply Z.pow_pos_nonneg; lia].
    + keep_intro. keep.
Qed.
End Typed.
