(** * Ends: the recursions of the model never run out of fuel, whatever the digits. *)
From Coq Require Import ZArith List Bool Lia.
From Verif Require Import Base Digit Slice Mul Div UBig Hoare ListLemmas Gives.
Import ListNotations.
Open Scope Z_scope.
Open Scope m_scope.

Definition ends {A} (e : M A) : Prop := e <> NoFuel.

Lemma ends_ret {A} (a : A) : ends (Ret a).
Proof. discriminate. Qed.
Lemma ends_panic {A} w : ends (@Panic A w).
Proof. discriminate. Qed.
Lemma ends_bind {A C} (e : M A) (k : A -> M C) :
  ends e -> (forall a, e = Ret a -> ends (k a)) -> ends (bind e k).
Proof. intros H1 H2. destruct e; cbn; [auto|discriminate|contradiction]. Qed.
Lemma ends_with_slice {A} l i j (f : digits -> M (digits * A)) :
  (forall s, ends (f s)) -> ends (with_slice l i j f).
Proof.
  intros H. unfold with_slice. apply ends_bind.
  - unfold sub_slice. destruct (_ && _); discriminate.
  - intros s _. apply ends_bind; [apply H|]. intros [s' a] _. apply ends_ret.
Qed.
Lemma ends_with_prefix {A} l n (f : digits -> M (digits * A)) :
  (forall s, ends (f s)) -> ends (with_prefix l n f).
Proof. apply ends_with_slice. Qed.
Lemma ends_with_suffix {A} l n (f : digits -> M (digits * A)) :
  (forall s, ends (f s)) -> ends (with_suffix l n f).
Proof. apply ends_with_slice. Qed.
Lemma ends_unwrap_with {A} (e : M (digits * result A)) : ends e -> ends (unwrap_with e).
Proof.
  intros H. unfold unwrap_with. apply ends_bind; [exact H|]. intros [l r] _.
  destruct r; discriminate.
Qed.
Lemma ends_sub_slice l i j : ends (sub_slice l i j).
Proof. unfold sub_slice. destruct (_ && _); discriminate. Qed.
Lemma ends_prefix l n : ends (prefix l n).
Proof. apply ends_sub_slice. Qed.
Lemma ends_suffix l n : ends (suffix l n).
Proof. apply ends_sub_slice. Qed.
Lemma ends_split_at l n : ends (split_at l n).
Proof. unfold split_at. destruct (_ <=? _)%nat; discriminate. Qed.
Lemma ends_get l i : ends (get l i).
Proof. unfold get. destruct (nth_error l i); discriminate. Qed.
Lemma ends_set l i v : ends (set l i v).
Proof. unfold set. destruct (_ <? _)%nat; discriminate. Qed.
Lemma ends_guard b w : ends (guard b w).
Proof. unfold guard. destruct b; discriminate. Qed.
Lemma ends_debug_assert d b : ends (debug_assert d b).
Proof. unfold debug_assert. destruct d; [apply ends_guard|discriminate]. Qed.
Lemma ends_debug_work d b : ends (debug_work d b).
Proof. unfold debug_work. destruct d; [apply ends_guard|discriminate]. Qed.
Lemma ends_unwrap {A} (r : result A) : ends (unwrap r).
Proof. destruct r; discriminate. Qed.
Lemma ends_or_panic {A} (r : result A) : ends (or_panic r).
Proof. destruct r; discriminate. Qed.

Create HintDb ends.
#[global] Hint Resolve ends_ret ends_panic ends_sub_slice ends_prefix ends_suffix ends_split_at
  ends_get ends_set ends_guard ends_debug_assert ends_debug_work ends_unwrap ends_or_panic : ends.

Ltac ends1 :=
  match goal with
  | |- ends (bind _ _) => apply ends_bind; [|let a := fresh "a" in let E := fresh "E" in intros a E]
  | |- ends (with_slice _ _ _ _) => apply ends_with_slice; intros ?
  | |- ends (with_prefix _ _ _) => apply ends_with_prefix; intros ?
  | |- ends (with_suffix _ _ _) => apply ends_with_suffix; intros ?
  | |- ends (unwrap_with _) => apply ends_unwrap_with
  | |- ends (let '(_, _) := ?x in _) => destruct x
  | |- ends (if ?b then _ else _) => destruct b
  | |- ends (match ?x with _ => _ end) => destruct x
  | |- ends _ => solve [auto with ends]
  end.
Ltac ends := repeat (cbv zeta; first [assumption | ends1]).

Lemma ends_fill_zero l i j : ends (fill_zero l i j).
Proof. unfold fill_zero. ends. Qed.
Lemma ends_copy_into l i j s : ends (copy_into l i j s).
Proof. unfold copy_into. ends. Qed.
Lemma ends_drop l n : ends (drop_leading_zeros l n).
Proof. induction n as [|n IH]; cbn [drop_leading_zeros]; ends. Qed.
#[global] Hint Resolve ends_fill_zero ends_copy_into ends_drop : ends.

(** ** Digit operations *)
Record digit_ends (D : digit) : Prop := {
  en_max_shift : forall d, ends (d_max_shift D d);
  en_inc : forall d, ends (d_inc D d);
  en_dec : forall d, ends (d_dec D d);
  en_add : forall d o c, ends (d_add_carry D d o c);
  en_sub : forall d o c, ends (d_sub_carry D d o c);
  en_shl : forall d s c, ends (d_shl_carry D d s c);
  en_shr : forall d s c, ends (d_shr_carry D d s c);
  en_double : forall d c, ends (d_double_carry D d c);
  en_mul : forall d f c, ends (d_mul_carry D d f c);
  en_rem : forall d f c, ends (d_rem_carry D d f c);
  en_div : forall d f c, ends (d_div_carry D d f c);
  en_div3 : forall d c, ends (d_div3_carry D d c);
  en_add_prod : forall d f g c, ends (d_add_prod_carry D d f g c)
}.

Lemma ends_checked dbg w x : ends (checked dbg w x).
Proof. unfold checked. destruct (_ && _); [|destruct dbg]; discriminate. Qed.
Lemma ends_w_shl dbg w a s : ends (w_shl dbg w a s).
Proof. unfold w_shl. destruct (_ && _); [|destruct dbg]; discriminate. Qed.
Lemma ends_w_shr dbg w a s : ends (w_shr dbg w a s).
Proof. unfold w_shr. destruct (_ && _); [|destruct dbg]; discriminate. Qed.
Lemma ends_w_div a b : ends (w_div a b).
Proof. unfold w_div. destruct (_ =? _); discriminate. Qed.
Lemma ends_w_rem a b : ends (w_rem a b).
Proof. unfold w_rem. destruct (_ =? _); discriminate. Qed.
Lemma ends_w_add dbg w a b : ends (w_add dbg w a b).
Proof. apply ends_checked. Qed.
Lemma ends_w_sub dbg w a b : ends (w_sub dbg w a b).
Proof. apply ends_checked. Qed.
Lemma ends_w_mul dbg w a b : ends (w_mul dbg w a b).
Proof. apply ends_checked. Qed.
#[global] Hint Resolve ends_checked ends_w_shl ends_w_shr ends_w_div ends_w_rem
  ends_w_add ends_w_sub ends_w_mul : ends.

Lemma ends_div_rem_base dbg R n : ends (div_rem_base dbg R n).
Proof. unfold div_rem_base. ends. Qed.
Lemma ends_split_wide w R n : ends (dec_split_wide w R n).
Proof. unfold dec_split_wide. ends. Qed.
Lemma ends_dec_sub dbg w R d o c : ends (dec_sub_carry dbg w R d o c).
Proof. unfold dec_sub_carry. ends. Qed.
#[global] Hint Resolve ends_div_rem_base ends_split_wide ends_dec_sub : ends.

Lemma bin_ends dbg w b : digit_ends (bin_digit dbg w b).
Proof.
  constructor; intros; cbn; try destruct b;
    unfold bin_max_shift, bin_inc, bin_dec, bin_add_carry, bin_sub_carry, bin_shl_carry,
      bin_shr_carry, bin_double_carry, bin_mul_carry, bin_rem_carry, bin_div_carry,
      bin_div3_carry, bin64_div3_carry, bin_add_prod_carry, o_add, o_sub; ends.
Qed.
Lemma dec_ends dbg w R b : digit_ends (dec_digit dbg w R b).
Proof.
  constructor; intros; cbn; try destruct b;
    unfold dec_max_shift, dec_inc, dec_dec, dec_add_carry, dec64_add_carry, dec_sub_carry,
      dec_shl_carry, dec_shr_carry, dec_double_carry, dec64_double_carry, dec_mul_carry,
      dec_rem_carry, dec_div_carry, dec_div3_carry, dec64_div3_carry, dec_add_prod_carry,
      o_add, o_sub; ends.
Qed.
Lemma impl_ends dbg t : digit_ends (impl dbg t).
Proof. unfold impl. destruct (is_binary t); [apply bin_ends|apply dec_ends]. Qed.

(** ** Slices *)
Section Slices.
Variable D : digit.
Hypothesis HD : digit_ends D.

Ltac dend := first [apply (en_max_shift D HD) | apply (en_inc D HD) | apply (en_dec D HD)
  | apply (en_add D HD) | apply (en_sub D HD) | apply (en_shl D HD) | apply (en_shr D HD)
  | apply (en_double D HD) | apply (en_mul D HD) | apply (en_rem D HD) | apply (en_div D HD)
  | apply (en_div3 D HD) | apply (en_add_prod D HD)].
Local Hint Extern 1 (ends _) => dend : ends.

Lemma ends_inc_assign l : ends (inc_assign D l).
Proof. induction l; cbn [inc_assign]; ends. Qed.
Local Hint Resolve ends_inc_assign : ends.
Lemma ends_add_zip l m c : ends (add_zip D l m c).
Proof. revert m c. induction l as [|d l IH]; intros [|e m] c; cbn [add_zip]; ends. Qed.
Local Hint Resolve ends_add_zip : ends.
Lemma ends_add_assign_digit l d : ends (add_assign_digit D l d).
Proof. unfold add_assign_digit. ends. Qed.
Lemma ends_add_assign_big l m : ends (add_assign_big D l m).
Proof. unfold add_assign_big. ends. Qed.
Local Hint Resolve ends_add_assign_big : ends.
Lemma ends_add_zip_into l m s c : ends (add_zip_into D l m s c).
Proof.
  revert m s c. induction l as [|d l IH]; intros [|e m] [|x s] c; cbn [add_zip_into]; ends.
Qed.
Local Hint Resolve ends_add_zip_into : ends.
Lemma ends_add_big_into l m s : ends (add_big_into D l m s).
Proof. unfold add_big_into. ends. Qed.
Lemma ends_dec_assign l : ends (dec_assign D l).
Proof.
  induction l as [|d l IH]; [apply ends_ret|]. destruct l as [|e l].
  - cbn [dec_assign]. ends.
  - change (dec_assign D (d :: e :: l)) with
      ('(d, u) <- d_dec D d ;;
       if u then '(t, r) <- dec_assign D (e :: l) ;;
                 Ret (d :: t, match r with ROk n => ROk (S n) | RErr x => RErr x end)
       else Ret (d :: e :: l, ROk (length (d :: e :: l)))).
    ends.
Qed.
Local Hint Resolve ends_dec_assign : ends.
Lemma ends_sub_assign_digit l d : ends (sub_assign_digit D l d).
Proof. unfold sub_assign_digit. ends. Qed.
Lemma ends_sub_zip l m c : ends (sub_zip D l m c).
Proof. revert m c. induction l as [|d l IH]; intros [|e m] c; cbn [sub_zip]; ends. Qed.
Local Hint Resolve ends_sub_zip : ends.
Lemma ends_sub_assign_big l m : ends (sub_assign_big D l m).
Proof. unfold sub_assign_big. ends. Qed.
Local Hint Resolve ends_sub_assign_big : ends.
Lemma ends_sub_zip_into l m s c : ends (sub_zip_into D l m s c).
Proof.
  revert m s c. induction l as [|d l IH]; intros [|e m] [|x s] c; cbn [sub_zip_into]; ends.
Qed.
Local Hint Resolve ends_sub_zip_into : ends.
Lemma ends_sub_big_into l m s : ends (sub_big_into D l m s).
Proof. unfold sub_big_into. ends. Qed.
Local Hint Resolve ends_sub_big_into : ends.
Lemma ends_rsub_zip l m c : ends (rsub_zip D l m c).
Proof. revert m c. induction l as [|d l IH]; intros [|e m] c; cbn [rsub_zip]; ends. Qed.
Local Hint Resolve ends_rsub_zip : ends.
Lemma ends_rsub_assign_big l m : ends (rsub_assign_big D l m).
Proof. unfold rsub_assign_big. ends. Qed.
Local Hint Resolve ends_rsub_assign_big : ends.
Lemma ends_sub_abs_sign l n m : ends (sub_assign_big_abs_sign D l n m).
Proof. unfold sub_assign_big_abs_sign. ends. Qed.
Lemma ends_sub_into_abs_sign l m s : ends (sub_big_into_abs_sign D l m s).
Proof. unfold sub_big_into_abs_sign. ends. Qed.
Lemma ends_shl_loop l s c : ends (shl_loop D l s c).
Proof. revert c. induction l as [|d l IH]; intros c; cbn [shl_loop]; ends. Qed.
Local Hint Resolve ends_shl_loop : ends.
Lemma ends_shl_within l s c : ends (shl_carry_assign_within_digit D l s c).
Proof. unfold shl_carry_assign_within_digit. ends. Qed.
Lemma ends_shr_loop l s c : ends (shr_loop D l s c).
Proof. revert c. induction l as [|d l IH]; intros c; cbn [shr_loop]; ends. Qed.
Local Hint Resolve ends_shr_loop : ends.
Lemma ends_shr_within l s c : ends (shr_carry_assign_within_digit D l s c).
Proof. unfold shr_carry_assign_within_digit. ends. Qed.
Lemma ends_div3_loop l c : ends (div3_loop D l c).
Proof. revert c. induction l as [|d l IH]; intros c; cbn [div3_loop]; ends. Qed.
Local Hint Resolve ends_div3_loop : ends.
Lemma ends_div3_carry l c : ends (div3_carry_assign D l c).
Proof. unfold div3_carry_assign. ends. Qed.
End Slices.

(** ** Counts returned by the subtractions and additions *)
Definition okle (r : result nat) (k : nat) : Prop := forall n, r = ROk n -> (n <= k)%nat.

Lemma sub_slice_gives l i j :
  gives (sub_slice l i j) (fun s => length s = (j - i)%nat /\ (i <= j <= length l)%nat).
Proof.
  intros s E. unfold sub_slice in E.
  destruct (Nat.leb_spec i j); [|discriminate E].
  destruct (Nat.leb_spec j (length l)); [|discriminate E]. injection E as <-. split; [len|lia].
Qed.
Lemma prefix_gives l n : gives (prefix l n) (fun s => length s = n).
Proof. intros s E. apply sub_slice_gives in E. lia. Qed.
Lemma suffix_gives l n : gives (suffix l n) (fun s => length s = (length l - n)%nat).
Proof. intros s E. apply sub_slice_gives in E. lia. Qed.
Lemma split_gives l n :
  gives (split_at l n) (fun '(a, b) => length a = n /\ length b = (length l - n)%nat).
Proof.
  intros [a b] E. unfold split_at in E. destruct (Nat.leb_spec n (length l)); [|discriminate E].
  injection E as <- <-. split; len.
Qed.
Lemma with_slice_gives {A} l i j (f : digits -> M (digits * A)) (Q : A -> Prop) :
  (forall s, length s = (j - i)%nat -> (i <= j <= length l)%nat -> gives (f s) (fun '(_, a) => Q a)) ->
  gives (with_slice l i j f) (fun '(_, a) => Q a).
Proof.
  intros H. unfold with_slice. eapply gives_bind; [apply sub_slice_gives|]. intros s (Ls & Hij).
  eapply gives_bind; [apply (H s Ls Hij)|]. intros [s' a] Qa. apply gives_ret. exact Qa.
Qed.
Lemma unwrap_with_gives {A} (e : M (digits * result A)) (Q : A -> Prop) :
  gives e (fun '(_, r) => forall a, r = ROk a -> Q a) -> gives (unwrap_with e) (fun '(_, a) => Q a).
Proof.
  intros H. unfold unwrap_with. eapply gives_bind; [exact H|]. intros [l r] Hr.
  destruct r as [a|x]; cbn [unwrap bind]; [apply gives_ret; auto|apply gives_panic].
Qed.

Section Counts.
Variable D : digit.

Lemma dec_count l : gives (dec_assign D l) (fun '(_, r) => okle r (length l)).
Proof.
  induction l as [|d l IH]; [apply gives_ret; intros n E; discriminate E|]. destruct l as [|e l].
  - cbn [dec_assign]. apply gives_any. intros [d' u]. destruct u; [apply gives_ret; intros n E; discriminate E|].
    destruct (d' =? 0); apply gives_ret; intros n E; injection E as <-; cbn; lia.
  - change (dec_assign D (d :: e :: l)) with
      ('(d, u) <- d_dec D d ;;
       if u then '(t, r) <- dec_assign D (e :: l) ;;
                 Ret (d :: t, match r with ROk n => ROk (S n) | RErr x => RErr x end)
       else Ret (d :: e :: l, ROk (length (d :: e :: l)))).
    apply gives_any. intros [d' u]. destruct u.
    + eapply gives_bind; [exact IH|]. intros [t r] Hr. apply gives_ret.
      intros n E. destruct r as [m|x]; [|discriminate E]. injection E as <-.
      specialize (Hr m eq_refl). cbn [length] in *. lia.
    + apply gives_ret. intros n E. injection E as <-. cbn [length]. lia.
Qed.
Lemma sub_count l m : gives (sub_assign_big D l m) (fun '(_, r) => okle r (length l)).
Proof.
  unfold sub_assign_big. destruct (Nat.ltb_spec (length l) (length m)) as [|Hl].
  - apply gives_ret. intros n E. discriminate E.
  - apply gives_bind with (R := fun '(l', _) => length l' = length l).
    { clear Hl. generalize false as c. revert m. induction l as [|d l IH]; intros [|e m] c; cbn [sub_zip];
        try (apply gives_ret; reflexivity).
      apply gives_any. intros [d' c']. eapply gives_bind; [apply IH|]. intros [t c2] L.
      apply gives_ret. cbn [length]. lia. }
    intros [l' c] L. destruct c.
    + apply gives_bind with (R := fun '(_, r) => okle r (length l - length m)).
      { unfold with_suffix. apply with_slice_gives. intros s Ls _. rewrite <- L, <- Ls. apply dec_count. }
      intros [l2 r] Hr. apply gives_ret. intros n E. destruct r as [k|]; [|discriminate E].
      injection E as <-. specialize (Hr k eq_refl). lia.
    + eapply gives_bind; [apply drop_below|]. intros n Hn. apply gives_ret.
      intros k E. injection E as <-. exact Hn.
Qed.
Lemma rsub_count l m : gives (rsub_assign_big D l m) (fun '(_, r) => okle r (length l)).
Proof.
  unfold rsub_assign_big. apply gives_any. intros _. apply gives_any. intros [l' c].
  destruct c; [apply gives_ret; intros n E; discriminate E|].
  eapply gives_bind; [apply drop_below|]. intros n Hn. apply gives_ret.
  intros k E. injection E as <-. exact Hn.
Qed.
Lemma sub_into_count l m s : gives (sub_big_into D l m s) (fun '(_, r) => okle r (length l)).
Proof.
  unfold sub_big_into. destruct (length s <? length l)%nat; [apply gives_ret; intros n E; discriminate E|].
  destruct (Nat.ltb_spec (length l) (length m)) as [|Hl]; [apply gives_ret; intros n E; discriminate E|].
  apply gives_any. intros [d c]. apply gives_any. intros x. apply gives_any. intros d'.
  destruct c.
  - apply gives_bind with (R := fun '(_, r) => okle r (length l - length m)).
    { apply with_slice_gives. intros z Lz _. rewrite <- Lz. apply dec_count. }
    intros [l2 r] Hr. apply gives_ret. intros n E. destruct r as [k|]; [|discriminate E].
    injection E as <-. specialize (Hr k eq_refl). lia.
  - eapply gives_bind; [apply drop_below|]. intros n Hn. apply gives_ret.
    intros k E. injection E as <-. exact Hn.
Qed.
Lemma sub_abs_count l n m :
  gives (sub_assign_big_abs_sign D l n m) (fun '(_, (_, k)) => (k <= Nat.max n (length m))%nat).
Proof.
  unfold sub_assign_big_abs_sign. apply gives_any. intros p. destruct (num_lt p m).
  - eapply gives_bind.
    { unfold with_prefix. apply with_slice_gives with (Q := fun k => (k <= length m)%nat). intros s Ls _.
      apply unwrap_with_gives. eapply gives_post; [apply rsub_count|]. intros [? r] H k E.
      specialize (H k E). lia. }
    intros [l' k] Hk. apply gives_ret. cbv beta iota in Hk. lia.
  - eapply gives_bind.
    { unfold with_prefix. apply with_slice_gives with (Q := fun k => (k <= n)%nat). intros s Ls _.
      apply unwrap_with_gives. eapply gives_post; [apply sub_count|]. intros [? r] H k E.
      specialize (H k E). lia. }
    intros [l' k] Hk. apply gives_ret. cbv beta iota in Hk. lia.
Qed.
Lemma sub_into_abs_count l m s :
  gives (sub_big_into_abs_sign D l m s) (fun '(_, (_, k)) => (k <= Nat.max (length l) (length m))%nat).
Proof.
  unfold sub_big_into_abs_sign. apply gives_any. intros _. destruct (num_lt l m).
  - eapply gives_bind; [apply unwrap_with_gives; eapply gives_post; [apply sub_into_count|]|].
    { intros [? r] H. exact H. }
    intros [r k] Hk. apply gives_ret. lia.
  - eapply gives_bind; [apply unwrap_with_gives; eapply gives_post; [apply sub_into_count|]|].
    { intros [? r] H. exact H. }
    intros [r k] Hk. apply gives_ret. lia.
Qed.
Lemma add_into_count l m s :
  gives (add_big_into D l m s) (fun '(_, r) => okle r (S (Nat.max (length l) (length m)))).
Proof.
  unfold add_big_into. destruct (_ <? _)%nat; [apply gives_ret; intros n E; discriminate E|].
  apply gives_any. intros [d c]. apply gives_any. intros d'. apply gives_any. intros [d2 o].
  destruct o.
  - destruct (_ <=? _)%nat; [apply gives_ret; intros n E; discriminate E|].
    apply gives_any. intros d3. apply gives_ret. intros n E. injection E as <-. lia.
  - apply gives_ret. intros n E. injection E as <-. lia.
Qed.
Lemma push_count c l n : gives (push_carry c l n) (fun '(_, k) => (k <= S n)%nat).
Proof.
  unfold push_carry. destruct c; [apply gives_any; intros l'|]; apply gives_ret; lia.
Qed.

Lemma parts_lengths l b : (length l <= 3 * b)%nat ->
  gives (toom3_parts l b) (fun '(x, y, z) => (length x <= b /\ length y <= b /\ length z <= b)%nat).
Proof.
  intros Hb. unfold toom3_parts. eapply gives_bind; [apply drop_below|]. intros k Hk.
  eapply gives_bind; [apply prefix_gives|]. intros x Lx. apply gives_any. intros hi.
  eapply gives_bind; [apply drop_below|]. intros k2 Hk2.
  eapply gives_bind; [apply sub_slice_gives|]. intros y Ly.
  eapply gives_bind; [apply suffix_gives|]. intros z Lz. cbv beta iota in *.
  apply gives_ret. lia.
Qed.
Lemma eval_counts x y z p1 pm1 pm2 b : (length x <= b -> length y <= b -> length z <= b ->
  gives (toom3_eval D x y z p1 pm1 pm2) (fun '((_, n1), (_, (_, n2)), (_, (_, n3))) =>
    n1 <= b + 4 /\ n2 <= b + 4 /\ n3 <= b + 4))%nat.
Proof.
  intros Hx Hy Hz. unfold toom3_eval.
  eapply gives_bind; [apply unwrap_with_gives; eapply gives_post; [apply add_into_count|intros [? r] H; exact H]|].
  intros [a1 n1] H1. eapply gives_bind; [apply prefix_gives|]. intros s Ls.
  eapply gives_bind; [apply unwrap_with_gives; eapply gives_post; [apply add_into_count|intros [? r] H; exact H]|].
  intros [a2 n2] H2. eapply gives_bind; [apply sub_abs_count|]. intros [a3 [b3 n3]] H3.
  eapply gives_bind; [apply prefix_gives|]. intros s' Ls'. cbv beta iota in *.
  apply gives_bind with (R := fun '(_, (_, k)) => (k <= b + 2)%nat).
  { destruct b3.
    - eapply gives_post; [apply sub_into_abs_count|]. intros [? [? k]] Hk. cbv beta iota in *. lia.
    - eapply gives_bind; [apply unwrap_with_gives; eapply gives_post; [apply add_into_count|intros [? r] H; exact H]|].
      intros [a k] Hk. apply gives_ret. cbv beta iota in *. lia. }
  intros [a4 [b4 n4]] H4. apply gives_any. intros [a5 c5].
  eapply gives_bind; [apply push_count|]. intros [a6 n6] H6. cbv beta iota in *.
  apply gives_bind with (R := fun '(_, (_, k)) => (k <= b + 4)%nat).
  { destruct b4.
    - apply gives_any. intros [a7 c7]. eapply gives_bind; [apply push_count|]. intros [a8 n8] H8.
      apply gives_ret. cbv beta iota in *. lia.
    - eapply gives_post; [apply sub_abs_count|]. intros [? [? k]] Hk. cbv beta iota in *. lia. }
  intros [a9 [b9 n9]] H9. apply gives_ret. cbv beta iota in *. lia.
Qed.
End Counts.

(** ** Multiplication *)
Section Mul.
Variable D : digit.
Hypothesis HD : digit_ends D.

Ltac dend := first [apply (en_max_shift D HD) | apply (en_inc D HD) | apply (en_dec D HD)
  | apply (en_add D HD) | apply (en_sub D HD) | apply (en_shl D HD) | apply (en_shr D HD)
  | apply (en_double D HD) | apply (en_mul D HD) | apply (en_rem D HD) | apply (en_div D HD)
  | apply (en_div3 D HD) | apply (en_add_prod D HD)
  | apply (ends_inc_assign D HD) | apply (ends_add_assign_big D HD) | apply (ends_add_big_into D HD)
  | apply (ends_dec_assign D HD) | apply (ends_sub_assign_big D HD) | apply (ends_rsub_assign_big D HD)
  | apply (ends_sub_abs_sign D HD) | apply (ends_sub_into_abs_sign D HD)
  | apply (ends_add_assign_digit D HD) | apply (ends_sub_assign_digit D HD)
  | apply (ends_shl_within D HD) | apply (ends_shr_within D HD) | apply (ends_div3_carry D HD)].
Local Hint Extern 1 (ends _) => dend : ends.

Lemma ends_double_loop l c : ends (double_carry_assign D l c).
Proof. revert c. induction l as [|d l IH]; intros c; cbn [double_carry_assign]; ends. Qed.
Lemma ends_mul_add l f o : ends (mul_add_assign_digit D l f o).
Proof. revert o. induction l as [|d l IH]; intros o; cbn [mul_add_assign_digit]; ends. Qed.
Lemma ends_mul_zip_into l f s c : ends (mul_zip_into D l f s c).
Proof. revert s c. induction l as [|d l IH]; intros [|x s] c; cbn [mul_zip_into]; ends. Qed.
Local Hint Resolve ends_double_loop ends_mul_zip_into : ends.
Lemma ends_mul_digit_into l f s : ends (mul_digit_into D l f s).
Proof. unfold mul_digit_into. ends. Qed.
Lemma ends_mul_pair_loop l x y p c o : ends (mul_pair_loop D l x y p c o).
Proof. revert p c o. induction l as [|d l IH]; intros p c o; cbn [mul_pair_loop]; ends. Qed.
Local Hint Resolve ends_mul_pair_loop : ends.
Lemma ends_mul_pair l x y o : ends (mul_pair_add_assign_digit D l x y o).
Proof. unfold mul_pair_add_assign_digit. ends. Qed.
Lemma ends_add_prod_zip l r d c : ends (add_prod_zip D l r d c).
Proof. revert r c. induction l as [|x l IH]; intros [|y r] c; cbn [add_prod_zip]; ends. Qed.
Local Hint Resolve ends_add_prod_zip : ends.
Lemma ends_mul_long_loop l m o s : ends (mul_long_loop D l m o s).
Proof. revert o s. induction m as [|x m IH]; intros o s; cbn [mul_long_loop]; ends. Qed.
Local Hint Resolve ends_mul_long_loop : ends.
Lemma ends_mul_long l m s : ends (mul_big_long_into D l m s).
Proof. unfold mul_big_long_into. ends. Qed.
Lemma ends_square_long_loop l m o s : ends (square_long_loop D l m o s).
Proof. revert o s. induction m as [|x m IH]; intros o s; cbn [square_long_loop]; ends. Qed.
Lemma ends_square_diag l s c : ends (square_diag D l s c).
Proof. revert s c. induction l as [|x l IH]; intros [|y [|z s]] c; cbn [square_diag]; ends. Qed.
Local Hint Resolve ends_square_long_loop ends_square_diag : ends.
Lemma ends_square_long l s : ends (square_long_into D l s).
Proof. unfold square_long_into. ends. Qed.
Lemma ends_combine neg sp n r z1 x y z : ends (karatsuba_combine D neg sp n r z1 x y z).
Proof. unfold karatsuba_combine. ends. Qed.
Lemma ends_push c l n : ends (push_carry c l n).
Proof. unfold push_carry. ends. Qed.
Local Hint Resolve ends_push : ends.
Lemma ends_parts l b : ends (toom3_parts l b).
Proof. unfold toom3_parts. ends. Qed.
Lemma ends_eval a b c d e f : ends (toom3_eval D a b c d e f).
Proof. unfold toom3_eval. ends. Qed.
Lemma ends_clear l n : ends (clear_from l n).
Proof. unfold clear_from. ends. Qed.
Lemma ends_interpolate b n r r1 r2 r3 n1 n2 n3 n0 n4 s1 s2 :
  ends (toom3_interpolate D b n r r1 r2 r3 n1 n2 n3 n0 n4 s1 s2).
Proof. unfold toom3_interpolate. ends. Qed.
Local Hint Resolve ends_mul_long ends_square_long ends_combine ends_parts ends_eval ends_clear
  ends_interpolate : ends.

Ltac estep := apply ends_bind; [solve [ends]|].
Ltac eq_at L E := apply L in E; cbv beta iota in E.
Lemma guard_true b w u : guard b w = Ret u -> b = true.
Proof. destruct b; [reflexivity|discriminate]. Qed.
Lemma div2_less n : (2 * Nat.div2 (n + 1) <= n + 1)%nat.
Proof. pose proof (Nat.div2_odd (n + 1)). destruct (Nat.odd _); cbn in *; lia. Qed.
Lemma div2_more n : (n <= 2 * Nat.div2 (n + 1))%nat.
Proof. pose proof (Nat.div2_odd (n + 1)). destruct (Nat.odd _); cbn in *; lia. Qed.

Lemma ends_karatsuba rec l m r w :
  (forall a b x y, (2 * Nat.max (length a) (length b) <= Nat.max (length l) (length m) + 1)%nat -> ends (rec a b x y)) ->
  ends (mul_big_karatsuba_into D rec l m r w).
Proof.
  intros Hrec. unfold mul_big_karatsuba_into. cbv zeta.
  set (N := Nat.max (length l) (length m)) in *. pose proof (div2_less N). pose proof (div2_more N).
  set (sp := Nat.div2 (N + 1)) in *.
  estep. intros u E. apply guard_true in E. apply andb_prop in E. destruct E as [E1 E2].
  apply Nat.leb_le in E1, E2.
  estep. intros u2 _.
  estep. intros [low0 high0] E. eq_at split_gives E. destruct E as [La Lb].
  estep. intros nlow0 E. eq_at drop_below E. rename E into Hn0.
  estep. intros [low1 high1] E. eq_at split_gives E. destruct E as [Lc Ld].
  estep. intros nlow1 E. eq_at drop_below E. rename E into Hn1.
  estep. intros [diff0 diff1] _.
  estep. intros l0 E. eq_at prefix_gives E. rename E into Hl0.
  estep. intros l1 E. eq_at prefix_gives E. rename E into Hl1.
  estep. intros [x0 [s0 nd0]] E. eq_at sub_into_abs_count E. rename E into Hd0.
  estep. intros [x1 [s1 nd1]] E. eq_at sub_into_abs_count E. rename E into Hd1.
  estep. intros [z1 w1] _.
  estep. intros d0 E. eq_at prefix_gives E. rename E into Ld0.
  estep. intros d1 E. eq_at prefix_gives E. rename E into Ld1.
  apply ends_bind; [apply Hrec; lia|]. intros [[z1' w2] nz1] _.
  estep. intros res _. estep. intros [z0 z2] _.
  apply ends_bind; [apply Hrec; lia|]. intros [[z0' w3] nz0] _.
  apply ends_bind; [apply Hrec; lia|]. intros [[z2' w4] nz2] _.
  ends.
Qed.

Lemma ends_square_karatsuba rec l r w :
  (forall a x y, (2 * length a <= length l + 1)%nat -> ends (rec a x y)) ->
  ends (square_karatsuba_into D rec l r w).
Proof.
  intros Hrec. unfold square_karatsuba_into. cbv zeta.
  set (N := length l) in *. pose proof (div2_less N). pose proof (div2_more N).
  set (sp := Nat.div2 (N + 1)) in *.
  estep. intros u E. apply guard_true in E. apply Nat.leb_le in E.
  estep. intros u2 _.
  estep. intros nlow0 E'. eq_at drop_below E'. rename E' into Hn0.
  estep. intros l0 E'. eq_at prefix_gives E'. rename E' into Hl0.
  estep. intros h0 E'. eq_at suffix_gives E'. rename E' into Hh0.
  estep. intros [x0 [s0 nd0]] E'. eq_at sub_into_abs_count E'. rename E' into Hd0.
  estep. intros [z1 w1] _.
  estep. intros d0 E'. eq_at prefix_gives E'. rename E' into Ld0.
  fold N in Hh0.
  apply ends_bind; [apply Hrec; lia|]. intros [[z1' w2] nz1] _.
  estep. intros res _. estep. intros [z0 z2] _.
  apply ends_bind; [apply Hrec; lia|]. intros [[z0' w3] nz0] _.
  apply ends_bind; [apply Hrec; lia|]. intros [[z2' w4] nz2] _.
  ends.
Qed.

Lemma third n : (n <= 3 * ((n + 2) / 3) /\ 3 * ((n + 2) / 3) <= n + 2)%nat.
Proof.
  pose proof (Nat.div_mod (n + 2) 3 ltac:(lia)). pose proof (Nat.mod_upper_bound (n + 2) 3 ltac:(lia)). lia.
Qed.

Lemma ends_toom3 rec l m r w : (TOOM3_CUTOFF <= length l)%nat ->
  (forall a b x y, (2 * Nat.max (length a) (length b) <= Nat.max (length l) (length m) + 1)%nat -> ends (rec a b x y)) ->
  ends (mul_big_toom3_into D rec l m r w).
Proof.
  intros Hc Hrec. unfold mul_big_toom3_into. cbv zeta. unfold TOOM3_CUTOFF in Hc.
  set (N := Nat.max (length l) (length m)) in *.
  destruct (third N) as [T1 T2]. set (b := ((N + 2) / 3)%nat) in *.
  estep. intros u _. estep. intros u2 _.
  estep. intros [pm2 qm2] _. estep. intros [wrk nw] _. estep. intros [r1 wk] _.
  estep. intros [rm1 rm2] _. estep. intros [p1 q1] _. estep. intros [pm1 qm1] _.
  estep. intros [[p0 m1] pinf] E. eq_at parts_lengths E; [|lia]. destruct E as (L0 & L1 & L2).
  estep. intros [[[p1' n1] [pm1' [s1 n2]]] [pm2' [s2 n3]]] E.
  eapply eval_counts in E; [|exact L0|exact L1|exact L2]. destruct E as (K1 & K2 & K3).
  estep. intros [[q0 m2] qinf] E. eq_at parts_lengths E; [|lia]. destruct E as (L3 & L4 & L5).
  estep. intros [[[q1' k1] [qm1' [t1 k2]]] [qm2' [t2 k3]]] E.
  eapply eval_counts in E; [|exact L3|exact L4|exact L5]. destruct E as (K4 & K5 & K6).
  estep. intros x1 E. eq_at prefix_gives E. rename E into X1.
  estep. intros y1 E. eq_at prefix_gives E. rename E into Y1.
  apply ends_bind; [apply Hrec; lia|]. intros [[r1' w1] nr1] _.
  estep. intros x2 E. eq_at prefix_gives E. rename E into X2.
  estep. intros y2 E. eq_at prefix_gives E. rename E into Y2.
  apply ends_bind; [apply Hrec; lia|]. intros [[rm1' w2] nr2] _.
  estep. intros rm1'' _.
  estep. intros x3 E. eq_at prefix_gives E. rename E into X3.
  estep. intros y3 E. eq_at prefix_gives E. rename E into Y3.
  apply ends_bind; [apply Hrec; lia|]. intros [[rm2' w3] nr3] _.
  estep. intros rm2'' _. estep. intros res _. estep. intros [r0 r4] _.
  apply ends_bind; [apply Hrec; lia|]. intros [[r0' w4] nr0] _.
  apply ends_bind; [apply Hrec; lia|]. intros [[r4' w5] nr4] _.
  ends.
Qed.

Lemma ends_square_toom3 rec l r w : (TOOM3_CUTOFF <= length l)%nat ->
  (forall a x y, (2 * length a <= length l + 1)%nat -> ends (rec a x y)) ->
  ends (square_toom3_into D rec l r w).
Proof.
  intros Hc Hrec. unfold square_toom3_into. cbv zeta. unfold TOOM3_CUTOFF in Hc.
  destruct (third (length l)) as [T1 T2]. set (b := ((length l + 2) / 3)%nat) in *.
  estep. intros u _. estep. intros u2 _.
  estep. intros [p1 res] _. estep. intros [pm1 pm2] _. estep. intros [wrk nw] _.
  estep. intros [r1 wk] _. estep. intros [rm1 rm2] _.
  estep. intros [[p0 m1] pinf] E. eq_at parts_lengths E; [|lia]. destruct E as (L0 & L1 & L2).
  estep. intros [[[p1' n1] [pm1' [s1 n2]]] [pm2' [s2 n3]]] E.
  eapply eval_counts in E; [|exact L0|exact L1|exact L2]. destruct E as (K1 & K2 & K3).
  estep. intros x1 E. eq_at prefix_gives E. rename E into X1.
  apply ends_bind; [apply Hrec; lia|]. intros [[r1' w1] nr1] _.
  estep. intros x2 E. eq_at prefix_gives E. rename E into X2.
  apply ends_bind; [apply Hrec; lia|]. intros [[rm1' w2] nr2] _.
  estep. intros rm1'' _.
  estep. intros x3 E. eq_at prefix_gives E. rename E into X3.
  apply ends_bind; [apply Hrec; lia|]. intros [[rm2' w3] nr3] _.
  estep. intros rm2'' _. estep. intros res' _. estep. intros [r0 r4] _.
  apply ends_bind; [apply Hrec; lia|]. intros [[r0' w4] nr0] _.
  apply ends_bind; [apply Hrec; lia|]. intros [[r4' w5] nr4] _.
  ends.
Qed.

Lemma ends_mul_dispatch rec l m r w :
  ((KARATSUBA_CUTOFF <= Nat.max (length l) (length m))%nat ->
   forall a b x y, (2 * Nat.max (length a) (length b) <= Nat.max (length l) (length m) + 1)%nat -> ends (rec a b x y)) ->
  ends (mul_dispatch D rec l m r w).
Proof.
  intros Hrec. unfold mul_dispatch. cbv zeta.
  destruct (_ || _); [ends|]. estep. intros u _.
  destruct (_ && _) eqn:E.
  - apply andb_prop in E. destruct E as [E _]. apply Nat.leb_le in E. apply ends_toom3; [exact E|].
    apply Hrec. unfold TOOM3_CUTOFF, KARATSUBA_CUTOFF in *. lia.
  - clear E. destruct (_ && _) eqn:E; [|ends]. apply andb_prop in E. destruct E as [E _]. apply Nat.leb_le in E.
    apply ends_karatsuba. apply Hrec. lia.
Qed.
(** the depth of the recursion is logarithmic in the length *)
Lemma ends_mul_fuel_log f l m r w :
  (Nat.max (length l) (length m) <= 19 * 2 ^ f)%nat -> ends (mul_fuel D (S f) l m r w).
Proof.
  revert l m r w. induction f as [|f IH]; intros l m r w H; cbn [mul_fuel]; apply ends_mul_dispatch.
  - unfold KARATSUBA_CUTOFF. cbn [Nat.pow] in H. lia.
  - intros _ a b x y Hab. apply IH. cbn [Nat.pow] in H. lia.
Qed.
Lemma ends_mul_fuel f l m r w :
  (Nat.max (length l) (length m) < f)%nat -> ends (mul_fuel D f l m r w).
Proof.
  intros H. destruct f as [|f]; [lia|]. apply ends_mul_fuel_log.
  pose proof (Nat.pow_gt_lin_r 2 f ltac:(lia)). lia.
Qed.
Lemma ends_mul_with_work l m r w : ends (mul_big_into_with_work D l m r w).
Proof. unfold mul_big_into_with_work. apply ends_mul_fuel. lia. Qed.
Lemma ends_mul_into l m r : ends (mul_big_into D l m r).
Proof.
  unfold mul_big_into. cbv zeta. destruct (_ || _); [ends|]. estep. intros u _.
  destruct (_ && _) eqn:E.
  - apply andb_prop in E. destruct E as [E _]. apply Nat.leb_le in E.
    apply ends_bind; [|intros [[x y] n] _; ends].
    apply ends_toom3; [exact E|]. intros. apply ends_mul_fuel. unfold TOOM3_CUTOFF in E. lia.
  - clear E. destruct (_ && _) eqn:E; [|ends]. apply andb_prop in E. destruct E as [E _]. apply Nat.leb_le in E.
    apply ends_bind; [|intros [[x y] n] _; ends].
    apply ends_karatsuba. intros. apply ends_mul_fuel. unfold KARATSUBA_CUTOFF in E. lia.
Qed.
Lemma ends_square_dispatch rec l r w :
  ((KARATSUBA_CUTOFF <= length l)%nat ->
   forall a x y, (2 * length a <= length l + 1)%nat -> ends (rec a x y)) ->
  ends (square_dispatch D rec l r w).
Proof.
  intros Hrec. unfold square_dispatch. cbv zeta.
  destruct (_ =? 0)%nat; [ends|]. estep. intros u _.
  destruct (Nat.leb_spec TOOM3_CUTOFF (length l)) as [H|_].
  - apply ends_square_toom3; [exact H|]. apply Hrec. unfold TOOM3_CUTOFF, KARATSUBA_CUTOFF in *. lia.
  - destruct (Nat.leb_spec KARATSUBA_CUTOFF (length l)) as [H|_]; [|ends].
    apply ends_square_karatsuba. apply Hrec. exact H.
Qed.
Lemma ends_square_fuel_log f l r w : (length l <= 19 * 2 ^ f)%nat -> ends (square_fuel D (S f) l r w).
Proof.
  revert l r w. induction f as [|f IH]; intros l r w H; cbn [square_fuel]; apply ends_square_dispatch.
  - unfold KARATSUBA_CUTOFF. cbn [Nat.pow] in H. lia.
  - intros _ a x y Ha. apply IH. cbn [Nat.pow] in H. lia.
Qed.
Lemma ends_square_fuel f l r w : (length l < f)%nat -> ends (square_fuel D f l r w).
Proof.
  intros H. destruct f as [|f]; [lia|]. apply ends_square_fuel_log.
  pose proof (Nat.pow_gt_lin_r 2 f ltac:(lia)). lia.
Qed.
Lemma ends_square_into l r : ends (square_into D l r).
Proof.
  unfold square_into. cbv zeta. destruct (_ =? 0)%nat; [ends|]. estep. intros u _.
  destruct (Nat.leb_spec TOOM3_CUTOFF (length l)) as [H|_].
  - apply ends_bind; [|intros [[x y] n] _; ends].
    apply ends_square_toom3; [assumption|]. intros. apply ends_square_fuel. unfold TOOM3_CUTOFF in H. lia.
  - destruct (Nat.leb_spec KARATSUBA_CUTOFF (length l)) as [H|_]; [|ends]. apply ends_bind; [|intros [[x y] n] _; ends].
    apply ends_square_karatsuba. intros. apply ends_square_fuel. unfold KARATSUBA_CUTOFF in H. lia.
Qed.
End Mul.

(** ** Division *)
Section Div.
Variable D : digit.
Hypothesis HD : digit_ends D.

Ltac dend := first [apply (en_max_shift D HD) | apply (en_inc D HD) | apply (en_dec D HD)
  | apply (en_add D HD) | apply (en_sub D HD) | apply (en_shl D HD) | apply (en_shr D HD)
  | apply (en_double D HD) | apply (en_mul D HD) | apply (en_rem D HD) | apply (en_div D HD)
  | apply (en_div3 D HD) | apply (en_add_prod D HD)
  | apply (ends_inc_assign D HD) | apply (ends_add_assign_big D HD) | apply (ends_add_big_into D HD)
  | apply (ends_dec_assign D HD) | apply (ends_sub_assign_big D HD) | apply (ends_rsub_assign_big D HD)
  | apply (ends_add_assign_digit D HD) | apply (ends_sub_assign_digit D HD)
  | apply (ends_shl_within D HD) | apply (ends_shr_within D HD)
  | apply (ends_mul_digit_into D HD) | apply (ends_mul_with_work D HD) | apply (ends_mul_into D HD)
  | apply (ends_square_into D HD) | apply (ends_mul_add D HD) | apply (ends_mul_pair D HD)].
Local Hint Extern 1 (ends _) => dend : ends.

Lemma ends_rem_loop l f c : ends (rem_loop D l f c).
Proof. induction l as [|d l IH]; cbn [rem_loop]; ends. Qed.
Lemma ends_div_loop l f c : ends (div_loop D l f c).
Proof. induction l as [|d l IH]; cbn [div_loop]; ends. Qed.
Local Hint Resolve ends_rem_loop ends_div_loop : ends.
Lemma ends_rem_digit l f : ends (rem_digit D l f).
Proof. unfold rem_digit. ends. Qed.
Lemma ends_div_digit l f : ends (div_assign_digit D l f).
Proof. unfold div_assign_digit. ends. Qed.
Local Hint Resolve ends_div_digit : ends.
Lemma ends_pair_step a b c d e : ends (div_pair_step D a b c d e).
Proof. unfold div_pair_step. ends. Qed.
Local Hint Resolve ends_pair_step : ends.
Lemma ends_pair_loop l a b c d : ends (div_pair_loop D l a b c d).
Proof. induction l as [|x l IH]; cbn [div_pair_loop]; ends. Qed.
Local Hint Resolve ends_pair_loop : ends.
Lemma ends_div_pair l a b : ends (div_assign_digit_pair D l a b).
Proof. unfold div_assign_digit_pair. ends. Qed.
Lemma ends_sub_ignore l m : ends (sub_ignore D l m).
Proof. unfold sub_ignore. ends. Qed.
Lemma ends_too_big a b c d : ends (first_too_big a b c d).
Proof. unfold first_too_big. ends. Qed.
Local Hint Resolve ends_div_pair ends_sub_ignore ends_too_big : ends.
Lemma ends_long_first a b c d e : ends (div_long_first D a b c d e).
Proof. unfold div_long_first. ends. Qed.
Lemma ends_long_step i a b c d : ends (div_long_step D i a b c d).
Proof. unfold div_long_step. ends. Qed.
Local Hint Resolve ends_long_first ends_long_step : ends.
Lemma ends_long_loop i a b c d : ends (div_long_loop D i a b c d).
Proof. revert a c d. induction i as [|i IH]; intros a c d; cbn [div_long_loop]; ends. Qed.
Local Hint Resolve ends_long_loop : ends.
Lemma ends_long_scaled a b c d e : ends (div_big_long_scaled D a b c d e).
Proof. unfold div_big_long_scaled. ends. Qed.
Local Hint Resolve ends_long_scaled : ends.
Lemma ends_long a b c d : ends (div_big_long D a b c d).
Proof. unfold div_big_long. ends. Qed.
Lemma ends_copy_prefix a b n : ends (copy_prefix a b n).
Proof. unfold copy_prefix. ends. Qed.
Local Hint Resolve ends_long ends_copy_prefix : ends.
Lemma ends_div_gen bz a b c d :
  ((BZ_CUTOFF <= length b)%nat -> ends (bz a b c d)) -> ends (div_big_with_work_gen D bz a b c d).
Proof.
  intros H. unfold div_big_with_work_gen. cbv zeta.
  do 5 (match goal with |- ends (if ?b then _ else _) => destruct b; [solve [ends]|] end).
  destruct (Nat.ltb_spec (length b) BZ_CUTOFF); [ends|]. apply ends_bind; [auto|]. intros [s r] _. ends.
Qed.
Lemma ends_dec_prefix q n : ends (dec_prefix D q n).
Proof. unfold dec_prefix. ends. Qed.
Lemma ends_debug_shift d : ends (debug_max_shift_zero D d).
Proof. unfold debug_max_shift_zero. ends. Qed.
Local Hint Resolve ends_dec_prefix ends_debug_shift : ends.

Ltac estep := apply ends_bind; [solve [ends]|].
Ltac eq_at L E := apply L in E; cbv beta iota in E.
Lemma ends_3n_2n rec a b c d :
  (forall x y z w, (length y = length b - length b / 2)%nat -> ends (rec x y z w)) ->
  ends (div_big_bz_3n_2n D rec a b c d).
Proof.
  intros Hrec. unfold div_big_bz_3n_2n. cbv zeta.
  do 3 (estep; intros ? _). estep. intros top _. estep. intros ? _. estep. intros ? _.
  estep. intros [b2 b1] E. eq_at split_gives E. destruct E as [E1 E2].
  ends.
Qed.
Lemma ends_2n_n_step rec a b c d :
  ((BZ_CUTOFF <= length b)%nat -> forall x y z w, (2 * length y <= length b + 1)%nat -> ends (rec x y z w)) ->
  ends (div_big_bz_2n_n_step D rec a b c d).
Proof.
  intros Hrec. unfold div_big_bz_2n_n_step. cbv zeta.
  do 3 (estep; intros ? _). estep. intros top _. estep. intros ? _.
  destruct (Nat.ltb_spec (length b) BZ_CUTOFF) as [Hb|Hb].
  - estep. intros n _. estep. intros p _.
    apply ends_bind; [apply ends_div_gen; lia|]. intros [[[x y] z] r] _. ends.
  - assert (Hh : forall x y z w, length y = (length b - length b / 2)%nat -> ends (rec x y z w)).
    { intros. apply Hrec; [exact Hb|].
      pose proof (Nat.div_mod (length b) 2 ltac:(lia)). pose proof (Nat.mod_upper_bound (length b) 2 ltac:(lia)). lia. }
    estep. intros hi _. estep. intros qhi _.
    apply ends_bind; [apply ends_3n_2n; exact Hh|]. intros [[[x y] z] r] _.
    estep. intros lo _. estep. intros qlo _.
    apply ends_bind; [apply ends_3n_2n; exact Hh|]. intros [[[x' y'] z'] r'] _.
    ends.
Qed.
Lemma ends_bz_fuel_log f a b c d : (length b <= 19 * 2 ^ f)%nat -> ends (bz_fuel D (S f) a b c d).
Proof.
  revert a b c d. induction f as [|f IH]; intros a b c d H; cbn [bz_fuel]; apply ends_2n_n_step.
  - unfold BZ_CUTOFF. cbn [Nat.pow] in H. lia.
  - intros _ x y z w Hy. apply IH. cbn [Nat.pow] in H. lia.
Qed.
Lemma ends_bz_fuel f a b c d : (length b < f)%nat -> ends (bz_fuel D f a b c d).
Proof.
  intros H. destruct f as [|f]; [lia|]. apply ends_bz_fuel_log.
  pose proof (Nat.pow_gt_lin_r 2 f ltac:(lia)). lia.
Qed.
Lemma ends_2n_n a b c d : ends (div_big_bz_2n_n D a b c d).
Proof. unfold div_big_bz_2n_n. apply ends_bz_fuel. lia. Qed.
Local Hint Resolve ends_2n_n : ends.
Lemma ends_blocks i n a b c d : ends (bz_blocks D i n a b c d).
Proof. revert a c d. induction i as [|i IH]; intros a c d; cbn [bz_blocks]; ends. Qed.
Local Hint Resolve ends_blocks : ends.
Lemma ends_bz a b c d : ends (div_big_bz D a b c d).
Proof. unfold div_big_bz. ends. Qed.
Lemma ends_div_with_work a b c d : ends (div_big_with_work D a b c d).
Proof.
  unfold div_big_with_work. apply ends_div_gen. intros _. estep. intros ? _. apply ends_bz.
Qed.
Local Hint Resolve ends_div_with_work : ends.
Lemma ends_div_big a b c : ends (div_big D a b c).
Proof. unfold div_big. cbv zeta. apply ends_bind; [apply ends_div_with_work|]. intros [[[x y] z] r] _. ends. Qed.
Local Hint Resolve ends_div_big ends_rem_digit : ends.

(** ** ubig.rs, ops.rs *)
Lemma ends_ubig_drop l : ends (ubig_drop_leading_zeros l).
Proof. unfold ubig_drop_leading_zeros. ends. Qed.
Local Hint Resolve ends_ubig_drop : ends.
Lemma ends_new l : ends (ubig_new l).
Proof. apply ends_ubig_drop. Qed.
Local Hint Resolve ends_new : ends.
Lemma ends_add_offset l m n : ends (add_assign_big_at_offset D l m n).
Proof. unfold add_assign_big_at_offset. ends. Qed.
Lemma ends_sub_offset l m n : ends (sub_assign_big_at_offset D l m n).
Proof. unfold sub_assign_big_at_offset. ends. Qed.
Local Hint Resolve ends_add_offset ends_sub_offset : ends.
Lemma ends_ubig_mul_add l f o : ends (ubig_mul_add_assign_digit D l f o).
Proof. unfold ubig_mul_add_assign_digit. ends. Qed.
Lemma ends_ubig_mul_pair l x y o : ends (ubig_mul_pair_add_assign_digit D l x y o).
Proof. unfold ubig_mul_pair_add_assign_digit. ends. Qed.
Lemma ends_mul_big x y : ends (mul_big D x y).
Proof. unfold mul_big. ends. Qed.
Lemma ends_square x : ends (square D x).
Proof. unfold square. ends. Qed.
Lemma ends_ubig_div_digit l f : ends (ubig_div_assign_digit D l f).
Proof. unfold ubig_div_assign_digit. ends. Qed.
Lemma ends_ubig_div_pair l x y : ends (ubig_div_assign_digit_pair D l x y).
Proof. unfold ubig_div_assign_digit_pair. ends. Qed.
Lemma ends_div_assign_big x y : ends (div_assign_big D x y).
Proof. unfold div_assign_big. ends. Qed.
Lemma ends_rem_assign_big x y : ends (rem_assign_big D x y).
Proof. unfold rem_assign_big. ends. Qed.
Local Hint Resolve ends_ubig_mul_add ends_ubig_mul_pair ends_mul_big ends_square ends_ubig_div_digit
  ends_ubig_div_pair ends_div_assign_big ends_rem_assign_big : ends.
Lemma ends_add_d x d : ends (add_assign_d D x d).
Proof. unfold add_assign_d. ends. Qed.
Lemma ends_div_d x d : ends (div_assign_d D x d).
Proof. unfold div_assign_d. ends. Qed.
Lemma ends_mul_d x d : ends (mul_assign_d D x d).
Proof. unfold mul_assign_d. ends. Qed.
Lemma ends_rem_d x d : ends (rem_assign_d D x d).
Proof. unfold rem_assign_d. ends. Qed.
Lemma ends_rem_ref_d x d : ends (rem_ref_d D x d).
Proof. unfold rem_ref_d. ends. Qed.
Lemma ends_sub_d x d : ends (sub_assign_d D x d).
Proof. unfold sub_assign_d. ends. Qed.
Lemma ends_add x y : ends (add_assign D x y).
Proof. unfold add_assign. ends. Qed.
Lemma ends_sub x y : ends (sub_assign D x y).
Proof. unfold sub_assign. ends. Qed.
Lemma ends_mul x y : ends (mul_assign D x y).
Proof. unfold mul_assign. ends. Qed.
Lemma ends_div x y : ends (div_assign D x y).
Proof. unfold div_assign. ends. Qed.
Lemma ends_rem x y : ends (rem_assign D x y).
Proof. unfold rem_assign. ends. Qed.
Local Hint Resolve ends_mul : ends.
Lemma ends_pow_loop n r p : ends (pow_loop D n r p).
Proof. revert r p. induction n as [n IH|n IH|]; intros r p; cbn [pow_loop]; ends. Qed.
Local Hint Resolve ends_pow_loop : ends.
Lemma ends_pow x e : ends (pow D x e).
Proof. unfold pow. destruct e as [|[p|p|]]; ends. Qed.
End Div.
