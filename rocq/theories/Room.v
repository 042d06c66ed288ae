(** * Room: result and scratch buffers are large enough, whatever the digits.

    [room e Q]: [e] does not panic for lack of room, and what it returns satisfies [Q]. *)
From Coq Require Import ZArith List Bool Lia.
From Verif Require Import Base Digit Slice Mul Div UBig Spec Hoare DigitOK ListLemmas WorkSize Ends.
Import ListNotations.
Open Scope Z_scope.
Open Scope m_scope.

(** panics that do not complain about a buffer being too small *)
Definition calm (w : panic) : Prop :=
  match w with PWork | PSpace | PUnwrap NoSpace | PExplicit NoSpace => False | _ => True end.
Definition room {A} (e : M A) (Q : A -> Prop) : Prop :=
  match e with Ret a => Q a | Panic w => calm w | NoFuel => True end.
Definition any {A} (_ : A) : Prop := True.
(** a digit list of length [k] comes back, with a value satisfying [P] *)
Definition keep {A} (k : nat) (P : A -> Prop) (x : digits * A) : Prop :=
  length (fst x) = k /\ P (snd x).
Definition good {A} (P : A -> Prop) (r : result A) : Prop :=
  match r with ROk a => P a | RErr e => e <> NoSpace end.

Lemma room_ret {A} (a : A) (Q : A -> Prop) : Q a -> room (Ret a) Q.
Proof. exact (fun H => H). Qed.
Lemma room_bind {A C} (e : M A) (k : A -> M C) R Q :
  room e R -> (forall a, R a -> room (k a) Q) -> room (bind e k) Q.
Proof. destruct e; cbn; auto. Qed.
Lemma room_post {A} (e : M A) (Q Q' : A -> Prop) :
  room e Q -> (forall a, Q a -> Q' a) -> room e Q'.
Proof. destruct e; cbn; auto. Qed.
Lemma room_any {A} (e : M A) Q : room e Q -> room e any.
Proof. intros H. eapply room_post; [exact H|]. intros; exact I. Qed.
Lemma room_total {A} (e : M A) Q : total e Q -> room e Q.
Proof. destruct e as [a|w|]; [auto|intros []|intros []]. Qed.

Lemma room_guard b w : calm w -> room (guard b w) (fun _ => b = true).
Proof. destruct b; cbn; auto. Qed.
Lemma room_assert d b : room (debug_assert d b) (fun _ => d = true -> b = true).
Proof. destruct d; cbn; [|discriminate]. destruct b; cbn; auto. Qed.
Lemma room_guard_true b w : b = true -> room (guard b w) any.
Proof. intros ->. exact I. Qed.
Lemma room_work d b : b = true -> room (debug_work d b) any.
Proof. intros ->. destruct d; exact I. Qed.
Lemma room_sub_slice l i j : room (sub_slice l i j)
  (fun s => s = firstn (j - i) (skipn i l) /\ length s = (j - i)%nat /\ (i <= j <= length l)%nat).
Proof.
  unfold sub_slice. destruct (Nat.leb_spec i j); cbn [andb]; [|exact I].
  destruct (Nat.leb_spec j (length l)); [|exact I]. cbn. split; [reflexivity|]. split; [len|lia].
Qed.
Lemma room_prefix l n : room (prefix l n)
  (fun s => s = firstn n l /\ length s = n /\ (n <= length l)%nat).
Proof.
  eapply room_post; [apply room_sub_slice|]. intros s (H1 & H2 & H3). rewrite Nat.sub_0_r in H1, H2.
  split; [exact H1|]. split; [exact H2|lia].
Qed.
Lemma room_suffix l n : room (suffix l n)
  (fun s => s = skipn n l /\ length s = (length l - n)%nat /\ (n <= length l)%nat).
Proof.
  eapply room_post; [apply room_sub_slice|]. intros s (H1 & H2 & H3).
  split; [|split; [exact H2|lia]]. rewrite H1. apply firstn_all2. len.
Qed.
Lemma room_split_at l n : room (split_at l n)
  (fun '(a, b) => a = firstn n l /\ b = skipn n l /\ length a = n /\ length b = (length l - n)%nat
    /\ (n <= length l)%nat).
Proof.
  unfold split_at. destruct (Nat.leb_spec n (length l)); [|exact I]. cbn.
  repeat split; try len.
Qed.
Lemma room_get l i : room (get l i) (fun d => nth_error l i = Some d).
Proof. unfold get. destruct (nth_error l i); [reflexivity|exact I]. Qed.
Lemma room_set l i v : room (set l i v)
  (fun l' => l' = firstn i l ++ v :: skipn (S i) l /\ length l' = length l /\ (i < length l)%nat).
Proof.
  unfold set. destruct (Nat.ltb_spec i (length l)); [|exact I]. apply room_ret.
  split; [reflexivity|]. split; [len|lia].
Qed.
Lemma room_unwrap {A} (r : result A) P : good P r -> room (unwrap r) P.
Proof. destruct r as [a|[]]; try (intros; exact I); [auto|]. intros H. contradiction H. reflexivity. Qed.
Lemma room_or_panic {A} (r : result A) P : good P r -> room (or_panic r) P.
Proof. destruct r as [a|[]]; try (intros; exact I); [auto|]. intros H. contradiction H. reflexivity. Qed.
Lemma room_slice_in {A} l i j (f : digits -> M (digits * A)) R :
  ((i <= j <= length l)%nat -> room (f (firstn (j - i) (skipn i l))) R) ->
  room (with_slice l i j f) (fun '(l', a) => exists s, l' = firstn i l ++ s ++ skipn j l /\ R (s, a)
    /\ (i <= j <= length l)%nat).
Proof.
  intros H. unfold with_slice. eapply room_bind; [apply room_sub_slice|].
  intros s (-> & _ & Hij). eapply room_bind; [apply H; exact Hij|]. intros [s' a] Ra.
  apply room_ret. exists s'. auto.
Qed.
Lemma room_slice {A} l i j (f : digits -> M (digits * A)) (P : nat -> A -> Prop) :
  (forall k s, length s = k -> room (f s) (keep k (P k))) ->
  room (with_slice l i j f) (keep (length l) (fun a => P (j - i)%nat a /\ (i <= j <= length l)%nat)).
Proof.
  intros H. eapply room_post.
  - apply room_slice_in with (R := keep (j - i) (P (j - i)%nat)). intros Hij. apply H. len.
  - intros [l' a] (s & -> & [Ls Pa] & Hij). cbn [fst snd] in *. split; cbn [fst snd]; [len|auto].
Qed.
Lemma room_with_prefix {A} l n (f : digits -> M (digits * A)) (P : nat -> A -> Prop) :
  (forall k s, length s = k -> room (f s) (keep k (P k))) ->
  room (with_prefix l n f) (keep (length l) (fun a => P n a /\ (n <= length l)%nat)).
Proof.
  intros H. eapply room_post; [apply room_slice; exact H|]. intros [l' a] (L & Pa & Hn).
  rewrite Nat.sub_0_r in Pa. split; [exact L|]. cbn [snd] in *. split; [exact Pa|lia].
Qed.
Lemma room_with_suffix {A} l n (f : digits -> M (digits * A)) (P : nat -> A -> Prop) :
  (forall k s, length s = k -> room (f s) (keep k (P k))) ->
  room (with_suffix l n f) (keep (length l) (fun a => P (length l - n)%nat a /\ (n <= length l)%nat)).
Proof.
  intros H. eapply room_post; [apply room_slice; exact H|]. intros [l' a] (L & Pa & Hn).
  split; [exact L|]. cbn [snd] in *. split; [exact Pa|lia].
Qed.
Lemma room_unwrap_with {A} k (e : M (digits * result A)) P :
  room e (keep k (good P)) -> room (unwrap_with e) (keep k P).
Proof.
  intros H. unfold unwrap_with. eapply room_bind; [exact H|]. intros [l r] [L G]. cbn [fst snd] in *.
  eapply room_bind; [apply room_unwrap; exact G|]. intros a Pa. apply room_ret. split; assumption.
Qed.
Lemma room_fill_zero l i j : room (fill_zero l i j) (fun l' => length l' = length l /\ (i <= j <= length l)%nat).
Proof.
  unfold fill_zero. eapply room_bind.
  - apply room_slice with (P := fun _ => any). intros k s L. apply room_ret. split; [cbn; len|exact I].
  - intros [l' u] (L & _ & H). apply room_ret. auto.
Qed.
Lemma room_copy_into l i j s : room (copy_into l i j s)
  (fun l' => l' = firstn i l ++ s ++ skipn j l /\ length l' = length l /\ length s = (j - i)%nat
    /\ (i <= j <= length l)%nat).
Proof.
  unfold copy_into. eapply room_bind.
  - apply room_slice_in with (R := fun '(x, _) => x = s /\ length s = (j - i)%nat). intros Hij.
    eapply room_bind; [apply room_guard; exact I|]. intros u E. apply Nat.eqb_eq in E.
    apply room_ret. split; [reflexivity|]. len.
  - intros [l' u] (s' & -> & [-> L] & H). apply room_ret. repeat split; try lia. len.
Qed.
Lemma room_drop l n : room (drop_leading_zeros l n) (fun k => (k <= n)%nat).
Proof.
  induction n as [|n IH]; cbn [drop_leading_zeros]; [apply room_ret; lia|].
  eapply room_bind; [apply room_get|]. intros d _. destruct (d =? 0); [|apply room_ret; lia].
  eapply room_post; [exact IH|]. cbn. lia.
Qed.

(** ** Digit operations do not ask for room *)
Record digit_room (D : digit) : Prop := {
  ro_max_shift : forall d, room (d_max_shift D d) any;
  ro_inc : forall d, room (d_inc D d) any;
  ro_dec : forall d, room (d_dec D d) any;
  ro_add : forall d o c, room (d_add_carry D d o c) any;
  ro_sub : forall d o c, room (d_sub_carry D d o c) any;
  ro_shl : forall d s c, room (d_shl_carry D d s c) any;
  ro_shr : forall d s c, room (d_shr_carry D d s c) any;
  ro_double : forall d c, room (d_double_carry D d c) any;
  ro_mul : forall d f c, room (d_mul_carry D d f c) any;
  ro_rem : forall d f c, room (d_rem_carry D d f c) any;
  ro_div : forall d f c, room (d_div_carry D d f c) any;
  ro_div3 : forall d c, room (d_div3_carry D d c) any;
  ro_add_prod : forall d f g c, room (d_add_prod_carry D d f g c) any
}.
Ltac flat := unfold checked, w_shl, w_shr, w_div, w_rem;
  repeat match goal with
  | |- room (if ?b then _ else _) _ => destruct b
  end; first [exact I | exact I].
Lemma room_checked dbg w x : room (checked dbg w x) any.
Proof. flat. Qed.
Lemma room_w_shl dbg w a s : room (w_shl dbg w a s) any.
Proof. flat. Qed.
Lemma room_w_shr dbg w a s : room (w_shr dbg w a s) any.
Proof. flat. Qed.
Lemma room_w_div a b : room (w_div a b) any.
Proof. flat. Qed.
Lemma room_w_rem a b : room (w_rem a b) any.
Proof. flat. Qed.
Ltac droom1 :=
  match goal with
  | |- room (bind _ _) _ => eapply room_bind with (R := any); [|intros ? _]
  | |- room (let '(_, _) := ?x in _) _ => destruct x
  | |- room (if ?b then _ else _) _ => destruct b
  | |- room (match ?x with _ => _ end) _ => destruct x
  | |- room (Ret _) _ => exact I
  | |- any _ => exact I
  | |- room (Panic _) _ => exact I
  | |- room (checked _ _ _) _ => apply room_checked
  | |- room (w_add _ _ _ _) _ => apply room_checked
  | |- room (w_sub _ _ _ _) _ => apply room_checked
  | |- room (w_mul _ _ _ _) _ => apply room_checked
  | |- room (w_shl _ _ _ _) _ => apply room_w_shl
  | |- room (w_shr _ _ _ _) _ => apply room_w_shr
  | |- room (w_div _ _) _ => apply room_w_div
  | |- room (w_rem _ _) _ => apply room_w_rem
  end.
Ltac droom := repeat (cbv zeta; droom1).
Lemma bin_room dbg w b : digit_room (bin_digit dbg w b).
Proof.
  constructor; intros; cbn; try destruct b;
    unfold bin_max_shift, bin_inc, bin_dec, bin_add_carry, bin_sub_carry, bin_shl_carry,
      bin_shr_carry, bin_double_carry, bin_mul_carry, bin_rem_carry, bin_div_carry,
      bin_div3_carry, bin64_div3_carry, bin_add_prod_carry, o_add, o_sub; droom.
Qed.
Lemma dec_room dbg w R b : digit_room (dec_digit dbg w R b).
Proof.
  constructor; intros; cbn; try destruct b;
    unfold dec_max_shift, dec_inc, dec_dec, dec_add_carry, dec64_add_carry, dec_sub_carry,
      dec_shl_carry, dec_shr_carry, dec_double_carry, dec64_double_carry, dec_mul_carry,
      dec_rem_carry, dec_div_carry, dec_div3_carry, dec64_div3_carry, dec_add_prod_carry,
      div_rem_base, dec_split_wide, dec_sub_carry, o_add, o_sub; droom.
Qed.
Lemma impl_room dbg t : digit_room (impl dbg t).
Proof. unfold impl. destruct (is_binary t); [apply bin_room|apply dec_room]. Qed.

(** ** Slices: lengths are kept *)
Section Slices.
Variable D : digit.
Hypothesis HD : digit_room D.

Ltac dig := eapply room_bind; [solve [first [apply (ro_max_shift D HD) | apply (ro_inc D HD)
  | apply (ro_dec D HD) | apply (ro_add D HD) | apply (ro_sub D HD) | apply (ro_shl D HD)
  | apply (ro_shr D HD) | apply (ro_double D HD) | apply (ro_mul D HD) | apply (ro_rem D HD)
  | apply (ro_div D HD) | apply (ro_div3 D HD) | apply (ro_add_prod D HD)]]|];
  let a := fresh "a" in intros a _; try destruct a.
Ltac kept := apply room_ret; split; cbn [fst snd length] in *; [len|first [exact I|discriminate|lia|idtac]].

Lemma r_inc l : room (inc_assign D l) (keep (length l) any).
Proof.
  induction l as [|d l IH]; cbn [inc_assign]; [kept|]. dig. destruct b; [|kept].
  eapply room_bind; [exact IH|]. intros [t o] [L _]. kept.
Qed.
Lemma r_add_zip l m c : room (add_zip D l m c)
  (fun '(l', _) => length l' = length l /\ skipn (length m) l' = skipn (length m) l).
Proof.
  revert m c. induction l as [|d l IH]; intros [|e m] c; cbn [add_zip]; try (apply room_ret; auto; fail).
  dig. eapply room_bind; [apply IH|]. intros [t o] [L E]. apply room_ret.
  cbn [length skipn]. split; [lia|exact E].
Qed.
Lemma r_sub_zip l m c : room (sub_zip D l m c)
  (fun '(l', _) => length l' = length l /\ skipn (length m) l' = skipn (length m) l).
Proof.
  revert m c. induction l as [|d l IH]; intros [|e m] c; cbn [sub_zip]; try (apply room_ret; auto; fail).
  dig. eapply room_bind; [apply IH|]. intros [t o] [L E]. apply room_ret.
  cbn [length skipn]. split; [lia|exact E].
Qed.
Lemma r_rsub_zip l m c : room (rsub_zip D l m c) (fun '(l', _) => length l' = length l).
Proof.
  revert m c. induction l as [|d l IH]; intros [|e m] c; cbn [rsub_zip]; try (apply room_ret; auto; fail).
  dig. eapply room_bind; [apply IH|]. intros [t o] L. apply room_ret. cbn [length]. lia.
Qed.
Lemma r_add_zip_into l m s c : room (add_zip_into D l m s c) (fun '(s', _) => length s' = length s).
Proof.
  revert m s c. induction l as [|d l IH]; intros [|e m] [|x s] c; cbn [add_zip_into];
    try (apply room_ret; auto; fail).
  dig. eapply room_bind; [apply IH|]. intros [t o] L. apply room_ret. cbn [length]. lia.
Qed.
Lemma r_sub_zip_into l m s c : room (sub_zip_into D l m s c) (fun '(s', _) => length s' = length s).
Proof.
  revert m s c. induction l as [|d l IH]; intros [|e m] [|x s] c; cbn [sub_zip_into];
    try (apply room_ret; auto; fail).
  dig. eapply room_bind; [apply IH|]. intros [t o] L. apply room_ret. cbn [length]. lia.
Qed.
Lemma r_dec l : room (dec_assign D l) (keep (length l) (good (fun n => (n <= length l)%nat))).
Proof.
  induction l as [|d l IH]; [kept|]. destruct l as [|e l].
  - cbn [dec_assign]. dig. destruct b; [kept|]. destruct (z =? 0); kept; cbn; lia.
  - change (dec_assign D (d :: e :: l)) with
      ('(d, u) <- d_dec D d ;;
       if u then '(t, r) <- dec_assign D (e :: l) ;;
                 Ret (d :: t, match r with ROk n => ROk (S n) | RErr x => RErr x end)
       else Ret (d :: e :: l, ROk (length (d :: e :: l)))).
    dig. destruct b.
    + eapply room_bind; [exact IH|]. intros [t r] [L G]. kept. destruct r as [n|x]; cbn in *; [lia|assumption].
    + kept; cbn; lia.
Qed.
Lemma r_add_assign_big k l m : length l = k ->
  room (add_assign_big D l m) (keep k any).
Proof.
  intros <-. unfold add_assign_big. eapply room_bind; [apply room_guard; exact I|]. intros u _.
  eapply room_bind; [apply r_add_zip|]. intros [l' c] [L _]. destruct c; [|kept].
  eapply room_post; [apply room_with_suffix with (P := fun _ => any); intros j s <-; apply r_inc|].
  intros [x y] [L' _]. cbn [fst] in *. split; [cbn [fst]; lia|exact I].
Qed.
Lemma r_sub_assign_big k l m : length l = k ->
  room (sub_assign_big D l m) (keep k (good (fun n => (n <= k)%nat))).
Proof.
  intros <-. unfold sub_assign_big. destruct (Nat.ltb_spec (length l) (length m)); [kept|].
  eapply room_bind; [apply r_sub_zip|]. intros [l' c] [L _]. destruct c.
  - eapply room_bind; [apply room_with_suffix with (P := fun j => good (fun n => (n <= j)%nat));
      intros j s <-; apply r_dec|].
    intros [x r] [L' [G _]]. kept. destruct r; cbn in *; [lia|assumption].
  - eapply room_bind; [apply room_drop|]. intros n Hn. kept; exact Hn.
Qed.
Lemma r_rsub_assign_big k l m : length l = k ->
  room (rsub_assign_big D l m) (keep k (good (fun n => (n <= k)%nat))).
Proof.
  intros <-. unfold rsub_assign_big. eapply room_bind; [apply room_guard; exact I|]. intros u _.
  eapply room_bind; [apply r_rsub_zip|]. intros [l' c] L. destruct c; [kept|].
  eapply room_bind; [apply room_drop|]. intros n Hn. kept; exact Hn.
Qed.
Lemma r_sub_into k l m s : length s = k -> (length l <= k)%nat ->
  room (sub_big_into D l m s) (keep k (good (fun n => (n <= length l)%nat))).
Proof.
  intros <- Hs. unfold sub_big_into. destruct (Nat.ltb_spec (length s) (length l)); [lia|].
  destruct (Nat.ltb_spec (length l) (length m)); [kept|].
  eapply room_bind; [apply r_sub_zip_into|]. intros [d c] L.
  eapply room_bind; [apply room_suffix|]. intros x _.
  eapply room_bind; [apply room_copy_into|]. intros d' (_ & L' & _).
  destruct c.
  - eapply room_bind; [apply room_slice with (P := fun j => good (fun n => (n <= j)%nat));
      intros j z <-; apply r_dec|].
    intros [y r] [L2 [G _]]. kept. destruct r; cbn in *; [lia|assumption].
  - eapply room_bind; [apply room_drop|]. intros n Hn. kept; exact Hn.
Qed.
Lemma r_sub_abs k l n m : length l = k ->
  room (sub_assign_big_abs_sign D l n m) (keep k (fun '(_, j) => (j <= Nat.max n (length m))%nat)).
Proof.
  intros <-. unfold sub_assign_big_abs_sign. eapply room_bind; [apply room_prefix|]. intros p _.
  destruct (num_lt p m).
  - eapply room_bind.
    { apply room_with_prefix with (P := fun j n => (n <= j)%nat). intros j s Ls.
      apply room_unwrap_with, r_rsub_assign_big, Ls. }
    intros [l' x] [L [Hx _]]. kept; cbn; lia.
  - eapply room_bind.
    { apply room_with_prefix with (P := fun j n => (n <= j)%nat). intros j s Ls.
      apply room_unwrap_with, r_sub_assign_big, Ls. }
    intros [l' x] [L [Hx _]]. kept; cbn; lia.
Qed.
Lemma r_sub_into_abs k l m s : length s = k -> (Nat.max (length l) (length m) <= k)%nat ->
  room (sub_big_into_abs_sign D l m s)
    (keep k (fun '(_, j) => (j <= Nat.max (length l) (length m))%nat)).
Proof.
  intros Hs Hk. unfold sub_big_into_abs_sign. eapply room_bind; [apply room_assert|]. intros u _.
  destruct (num_lt l m);
    (eapply room_bind; [apply room_unwrap_with, r_sub_into; [exact Hs|lia]|]; intros [r n] [L Hn]; kept; cbn; lia).
Qed.
Lemma r_shl_loop l s c : room (shl_loop D l s c) (keep (length l) any).
Proof.
  revert c. induction l as [|d l IH]; intros c; cbn [shl_loop]; [kept|]. dig.
  eapply room_bind; [apply IH|]. intros [t o] [L _]. kept.
Qed.
Lemma r_shl k l s c : length l = k -> room (shl_carry_assign_within_digit D l s c) (keep k any).
Proof.
  intros <-. unfold shl_carry_assign_within_digit. destruct (s =? 0); [kept|apply r_shl_loop].
Qed.
Lemma r_shr_loop l s c : room (shr_loop D l s c) (keep (length l) any).
Proof.
  revert c. induction l as [|d l IH]; intros c; cbn [shr_loop]; [kept|].
  eapply room_bind; [apply IH|]. intros [t o] [L _]. dig. kept.
Qed.
Lemma r_shr k l s c : length l = k -> room (shr_carry_assign_within_digit D l s c)
  (keep k (fun '(n, _) => (n <= k)%nat)).
Proof.
  intros <-. unfold shr_carry_assign_within_digit. destruct (s =? 0).
  - eapply room_bind; [apply room_drop|]. intros n Hn. kept; exact Hn.
  - eapply room_bind; [apply r_shr_loop|]. intros [t o] [L _].
    eapply room_bind; [apply room_drop|]. intros n Hn. kept; cbn [fst] in *; lia.
Qed.
Lemma r_div3_loop l c : room (div3_loop D l c) (keep (length l) any).
Proof.
  revert c. induction l as [|d l IH]; intros c; cbn [div3_loop]; [kept|].
  eapply room_bind; [apply IH|]. intros [t o] [L _]. dig. kept.
Qed.
Lemma r_div3 k l c : length l = k -> room (div3_carry_assign D l c)
  (keep k (fun '(n, _) => (n <= k)%nat)).
Proof.
  intros <-. unfold div3_carry_assign. eapply room_bind; [apply r_div3_loop|]. intros [t o] [L _].
  eapply room_bind; [apply room_drop|]. intros n Hn. kept; cbn [fst] in *; lia.
Qed.
Lemma r_double_loop l c : room (double_carry_assign D l c) (keep (length l) any).
Proof.
  revert c. induction l as [|d l IH]; intros c; cbn [double_carry_assign]; [kept|]. dig.
  eapply room_bind; [apply IH|]. intros [t o] [L _]. kept.
Qed.

(** *** mul.rs, mul/long.rs *)
Lemma r_mul_zip_into l f s c : room (mul_zip_into D l f s c) (keep (length s) any).
Proof.
  revert s c. induction l as [|d l IH]; intros [|x s] c; cbn [mul_zip_into]; try kept. dig.
  eapply room_bind; [apply IH|]. intros [t o] [L _]. kept.
Qed.
Lemma r_mul_digit_into l f s : room (mul_digit_into D l f s) (fun s' => length s' = length s).
Proof.
  unfold mul_digit_into. eapply room_bind; [apply room_assert|]. intros u _.
  eapply room_bind; [apply r_mul_zip_into|]. intros [p c] [L _].
  eapply room_post; [apply room_set|]. intros x (_ & Lx & _). cbn [fst] in L. lia.
Qed.
Lemma r_add_prod_zip l r d c : room (add_prod_zip D l r d c) (keep (length r) any).
Proof.
  revert r c. induction l as [|x l IH]; intros [|y r] c; cbn [add_prod_zip]; try kept. dig.
  eapply room_bind; [apply IH|]. intros [t o] [L _]. kept.
Qed.
Lemma r_mul_long_loop l m o s : room (mul_long_loop D l m o s) (fun s' => length s' = length s).
Proof.
  revert o s. induction m as [|x m IH]; intros o s; cbn [mul_long_loop]; [apply room_ret; reflexivity|].
  cbv zeta. eapply room_bind.
  { apply room_slice with (P := fun _ => any). intros k z <-. apply r_add_prod_zip. }
  intros [r c] [L _]. eapply room_bind; [apply room_set|]. intros r' (_ & L' & _).
  eapply room_post; [apply IH|]. cbn [fst] in *. intros. lia.
Qed.
Lemma r_mul_long l m s : room (mul_big_long_into D l m s) (keep (length s) any).
Proof.
  unfold mul_big_long_into. cbv zeta. eapply room_bind; [apply room_fill_zero|]. intros r [L _].
  eapply room_bind; [apply r_mul_long_loop|]. intros r' L'.
  eapply room_bind; [apply room_drop|]. intros n _. kept.
Qed.
Lemma r_square_long_loop l m o s : room (square_long_loop D l m o s) (fun s' => length s' = length s).
Proof.
  revert o s. induction m as [|x m IH]; intros o s; cbn [square_long_loop]; [apply room_ret; reflexivity|].
  eapply room_bind; [apply room_prefix|]. intros p _. eapply room_bind.
  { apply room_slice with (P := fun _ => any). intros k z <-. apply r_add_prod_zip. }
  intros [r c] [L _]. eapply room_bind; [apply room_set|]. intros r' (_ & L' & _).
  eapply room_post; [apply IH|]. cbn [fst] in *. intros. lia.
Qed.
Lemma r_square_diag n : forall l s c, length l = n -> room (square_diag D l s c) (keep (length s) any).
Proof.
  induction n as [|n IH]; intros [|x l] [|y [|z s]] c Hl; cbn [square_diag]; try discriminate Hl; try kept.
  dig. dig. eapply room_bind; [apply IH; cbn in Hl; lia|]. intros [t o] [L _]. kept.
Qed.
Lemma r_square_long l s : room (square_long_into D l s) (keep (length s) any).
Proof.
  unfold square_long_into. cbv zeta. eapply room_bind; [apply room_fill_zero|]. intros r [L _].
  eapply room_bind; [apply r_square_long_loop|]. intros r' L'.
  eapply room_bind.
  { apply room_with_prefix with (P := fun _ => any). intros k z <-. apply r_double_loop. }
  intros [r2 c] [L2 _]. eapply room_bind.
  { apply room_with_prefix with (P := fun _ => any). intros k z <-. eapply r_square_diag. reflexivity. }
  intros [r3 c3] [L3 _]. eapply room_bind; [apply room_assert|]. intros u _.
  eapply room_bind; [apply room_drop|]. intros n _. kept.
Qed.
End Slices.
