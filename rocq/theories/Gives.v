(** * Gives: facts about returned values that hold whatever the digits are. *)
From Coq Require Import ZArith List Bool Lia.
From Verif Require Import Base Digit Slice Mul Div UBig Hoare ListLemmas.
Import ListNotations.
Open Scope Z_scope.
Open Scope m_scope.

(** a returned value satisfies [Q]; nothing is said about panics *)
Definition gives {A} (e : M A) (Q : A -> Prop) : Prop := forall a, e = Ret a -> Q a.

Lemma gives_ret {A} (a : A) (Q : A -> Prop) : Q a -> gives (Ret a) Q.
Proof. intros H b E. injection E as <-. exact H. Qed.
Lemma gives_panic {A} w (Q : A -> Prop) : gives (Panic w) Q.
Proof. intros b E. discriminate E. Qed.
Lemma gives_bind {A C} (e : M A) (k : A -> M C) R Q :
  gives e R -> (forall a, R a -> gives (k a) Q) -> gives (bind e k) Q.
Proof. intros H1 H2 c E. destruct e as [a| |]; try discriminate E. exact (H2 a (H1 a eq_refl) c E). Qed.
(** a step about which nothing needs to be known *)
Lemma gives_any {A C} (e : M A) (k : A -> M C) Q :
  (forall a, gives (k a) Q) -> gives (bind e k) Q.
Proof. intros H c E. destruct e as [a| |]; try discriminate E. exact (H a c E). Qed.
Lemma gives_post {A} (e : M A) (Q Q' : A -> Prop) :
  gives e Q -> (forall a, Q a -> Q' a) -> gives e Q'.
Proof. intros H1 H2 a E. auto. Qed.
Lemma gives_with_prefix {A} l n (f : digits -> M (digits * A)) :
  (forall s, length s = n -> gives (f s) (fun '(s', _) => length s' = n)) ->
  gives (with_prefix l n f) (fun '(l', _) => length l' = length l /\ skipn n l' = skipn n l).
Proof.
  intros H [l' a] E. unfold with_prefix, with_slice, sub_slice, guard in E.
  destruct (Nat.leb_spec n (length l)) as [Hl|]; [|rewrite ?andb_false_r in E; discriminate E].
  cbn [Nat.leb andb bind skipn firstn app] in E. rewrite Nat.sub_0_r in E.
  destruct (f (firstn n l)) as [[s' b]| |] eqn:Ef; try discriminate E. cbn [bind] in E.
  injection E as <- <-.
  specialize (H (firstn n l) ltac:(len) (s', b) Ef). cbv beta iota in H.
  split; [len|]. rewrite skipn_exact by exact H. reflexivity.
Qed.

Section WithDigit.
Variable D : digit.

Lemma pair_loop_length nr dl dh rh rl :
  gives (div_pair_loop D nr dl dh rh rl) (fun '(q, _) => length q = length nr).
Proof.
  induction nr as [|d t IH]; cbn [div_pair_loop]; [apply gives_ret; reflexivity|].
  eapply gives_bind; [exact IH|]. intros [t' [x y]] L. apply gives_any. intros [q r].
  apply gives_ret. cbn [length]. lia.
Qed.

Lemma drop_below l n : gives (drop_leading_zeros l n) (fun k => (k <= n)%nat).
Proof.
  induction n as [|n IH]; cbn [drop_leading_zeros]; [apply gives_ret; lia|].
  apply gives_any. intros d. destruct (d =? 0); [|apply gives_ret; lia].
  eapply gives_post; [exact IH|]. cbn. lia.
Qed.

(** the quotient by two digits is one digit shorter than the dividend *)
Lemma pair_quot_length nr fl fh : fh <> 0 ->
  gives (div_assign_digit_pair D nr fl fh) (fun '(q, r) =>
    exists nq x y, r = ROk (nq, x, y) /\ (nq <= length nr - 1)%nat).
Proof.
  intros Hf. unfold div_assign_digit_pair. destruct (Z.eqb_spec fh 0) as [|_]; [contradiction|].
  destruct nr as [|d [|d' nr]].
  - apply gives_ret. exists 0%nat, 0, 0. split; [reflexivity|cbn; lia].
  - apply gives_ret. exists 0%nat, d, 0. split; [reflexivity|cbn; lia].
  - set (n := length (d :: d' :: nr)). cbv zeta.
    apply gives_any. intros s. apply gives_any. intros [[[nr1 dl] dh] rh].
    apply gives_any. intros rl.
    apply gives_bind with (R := fun l => exists a b, l = a ++ 0 :: b /\ length a = (n - 1)%nat).
    { unfold set. intros l E. destruct (Nat.ltb_spec (n - 1) (length nr1)); [|discriminate E].
      injection E as <-. exists (firstn (n - 1) nr1), (skipn (S (n - 1)) nr1). split; [reflexivity|len]. }
    intros l (a & b & -> & La).
    eapply gives_bind.
    { apply gives_with_prefix. intros s' Ls. eapply gives_post; [apply pair_loop_length|].
      intros [q [x y]]. lia. }
    intros [l' [x y]] (Ll & Sl). rewrite skipn_exact in Sl by exact La.
    apply gives_any. intros [x' y'].
    apply gives_bind with (R := fun k => (k <= n - 1)%nat).
    { assert (Hn : n = S (n - 1)) by (unfold n; cbn [length]; lia).
      rewrite Hn at 1. cbn [drop_leading_zeros].
      assert (El : l' = firstn (n - 1) l' ++ 0 :: b) by (rewrite <- Sl; symmetry; apply firstn_skipn).
      assert (Lf : length (firstn (n - 1) l') = (n - 1)%nat) by (rewrite app_length in Ll; len).
      assert (Eg : get l' (n - 1) = Ret 0).
      { rewrite El. unfold get. rewrite nth_error_app2 by lia. rewrite Lf, Nat.sub_diag. reflexivity. }
      rewrite Eg. cbn [bind Z.eqb]. apply drop_below. }
    intros k Hk. apply gives_ret. exists k, y', x'. split; [reflexivity|exact Hk].
Qed.

Lemma div_loop_length nr f c : gives (div_loop D nr f c) (fun '(q, _) => length q = length nr).
Proof.
  induction nr as [|d t IH]; cbn [div_loop]; [apply gives_ret; reflexivity|].
  eapply gives_bind; [exact IH|]. intros [t' x] L. apply gives_any. intros [q r].
  apply gives_ret. cbn [length]. lia.
Qed.

Lemma digit_quot_length nr f : f <> 0 ->
  gives (div_assign_digit D nr f) (fun '(q, r) => exists nq x, r = ROk (nq, x) /\ (nq <= length nr)%nat).
Proof.
  intros Hf. unfold div_assign_digit. destruct (Z.eqb_spec f 0) as [|_]; [contradiction|].
  eapply gives_bind; [apply div_loop_length|]. intros [q x] L.
  eapply gives_bind; [apply drop_below|]. intros k Hk. apply gives_ret. exists k, x.
  cbv beta iota in L, Hk. split; [reflexivity|lia].
Qed.

(** A division whose divisor does not start with a zero digit reports no error. *)
Lemma div_big_no_error num den quot : den <> [] -> last den 0 <> 0 ->
  (length num - length den + 1 <= length quot)%nat ->
  gives (div_big D num den quot) (fun '(_, r) => exists v, r = ROk v).
Proof.
  intros Hd Hl Hq. unfold div_big. apply gives_bind with (R := fun '(_, r) => exists v, r = ROk v).
  2:{ intros [[[num' quot'] w] r] H. apply gives_ret. exact H. }
  unfold div_big_with_work, div_big_with_work_gen.
  destruct (Nat.eqb_spec (length den) 0) as [E|_]; [destruct den; [contradiction|discriminate E]|].
  destruct (num_lt num den) eqn:El; [apply gives_ret; eexists; reflexivity|].
  assert (Hle : (length den <= length num)%nat) by (apply num_lt_false_len; exact El).
  destruct (Nat.ltb_spec (length quot) (length num - length den + 1)) as [|_]; [lia|].
  cbn [andb].
  destruct (Nat.eqb_spec (length den) 1) as [E1|_].
  { destruct den as [|d0 [|]]; try discriminate E1. cbn [last length] in *. cbn [get nth_error bind].
    eapply gives_bind; [apply digit_quot_length; exact Hl|].
    intros [q r] (nq & x & -> & Hn).
    destruct (Nat.ltb_spec (length quot) nq); [lia|].
    apply gives_any. intros quot'. destruct (x =? 0); [apply gives_ret; eexists; reflexivity|].
    apply gives_any. intros num'. apply gives_ret. eexists. reflexivity. }
  destruct (Nat.eqb_spec (length den) 2) as [E2|_].
  { destruct den as [|d0 [|d1 [|]]]; try discriminate E2. cbn [last length] in *.
    cbn [get nth_error bind].
    eapply gives_bind; [apply pair_quot_length; exact Hl|].
    intros [q r] (nq & x & y & -> & Hn).
    destruct (Nat.ltb_spec (length quot) nq); [lia|].
    apply gives_any. intros quot'. destruct (y =? 0); [destruct (x =? 0)|].
    - apply gives_ret. eexists. reflexivity.
    - apply gives_any. intros num'. apply gives_ret. eexists. reflexivity.
    - apply gives_any. intros num'. apply gives_any. intros num2. apply gives_ret. eexists. reflexivity. }
  destruct (_ <? _)%nat.
  - apply gives_any. intros _. apply gives_any. intros [s r]. apply gives_ret. eexists. reflexivity.
  - apply gives_any. intros [s r]. apply gives_ret. eexists. reflexivity.
Qed.

Lemma div_assign_big_no_error x y : y <> [] -> last y 0 <> 0 ->
  gives (div_assign_big D x y) (fun '(_, r) => exists v, r = ROk v).
Proof.
  intros Hy Hl. unfold div_assign_big. destruct (Nat.ltb_spec (length x) (length y)).
  - apply gives_any. intros r. apply gives_ret. eexists. reflexivity.
  - eapply gives_bind; [apply div_big_no_error; auto; len|].
    intros [[num quot] r] (v & ->). destruct v as [nq nr]. apply gives_any. intros r.
    apply gives_ret. eexists. reflexivity.
Qed.
Lemma rem_assign_big_no_error x y : y <> [] -> last y 0 <> 0 ->
  gives (rem_assign_big D x y) (fun '(_, r) => r = ROk tt).
Proof.
  intros Hy Hl. unfold rem_assign_big. destruct (Nat.leb_spec (length y) (length x)).
  - eapply gives_bind; [apply div_big_no_error; auto; len|].
    intros [[num quot] r] (v & ->). destruct v as [nq nr].
    apply gives_ret. reflexivity.
  - apply gives_ret. reflexivity.
Qed.
End WithDigit.
