(** * Hoare: outcome predicates and their rules. *)
From Coq Require Import ZArith List Bool Lia.
From Verif Require Import Base.
Import ListNotations.
Open Scope Z_scope.
Open Scope m_scope.

(** [spec P e Q]: a returned value satisfies [Q], a panic has a cause in [P],
    and fuel never runs out. *)
Definition spec {A} (P : panic -> Prop) (e : M A) (Q : A -> Prop) : Prop :=
  match e with Ret a => Q a | Panic w => P w | NoFuel => False end.

Definition never (w : panic) : Prop := False.
Definition total {A} (e : M A) (Q : A -> Prop) : Prop := spec never e Q.

Lemma spec_ret {A} P (a : A) (Q : A -> Prop) : Q a -> spec P (Ret a) Q.
Proof. exact (fun h => h). Qed.

Lemma spec_bind {A B} P (e : M A) (k : A -> M B) (R : A -> Prop) (Q : B -> Prop) :
  spec P e R -> (forall a, R a -> spec P (k a) Q) -> spec P (bind e k) Q.
Proof. destruct e; cbn; auto. Qed.

Lemma total_bind {A B} P (e : M A) (k : A -> M B) (R : A -> Prop) (Q : B -> Prop) :
  total e R -> (forall a, R a -> spec P (k a) Q) -> spec P (bind e k) Q.
Proof. unfold total, never. destruct e; cbn; auto; contradiction. Qed.

Lemma spec_weaken {A} (P P' : panic -> Prop) (e : M A) (Q Q' : A -> Prop) :
  spec P e Q -> (forall w, P w -> P' w) -> (forall a, Q a -> Q' a) -> spec P' e Q'.
Proof. destruct e; cbn; auto. Qed.

Lemma spec_post {A} P (e : M A) (Q Q' : A -> Prop) :
  spec P e Q -> (forall a, Q a -> Q' a) -> spec P e Q'.
Proof. destruct e; cbn; auto. Qed.

Lemma total_spec {A} P (e : M A) (Q : A -> Prop) : total e Q -> spec P e Q.
Proof. unfold total, never. destruct e; cbn; auto; contradiction. Qed.

Lemma total_post {A} (e : M A) (Q Q' : A -> Prop) :
  total e Q -> (forall a, Q a -> Q' a) -> total e Q'.
Proof. apply spec_post. Qed.

Lemma total_post_spec {A} P (e : M A) (Q Q' : A -> Prop) :
  total e Q -> (forall a, Q a -> Q' a) -> spec P e Q'.
Proof. intros. eapply total_spec, total_post; eauto. Qed.

Lemma total_inv {A} (e : M A) Q : total e Q -> exists a, e = Ret a /\ Q a.
Proof. unfold total, never. destruct e; cbn; eauto; contradiction. Qed.

Lemma spec_and {A} P (e : M A) Q Q' : spec P e Q -> spec P e Q' -> spec P e (fun a => Q a /\ Q' a).
Proof. destruct e; cbn; auto. Qed.

Lemma spec_returns {A} P (e : M A) Q a : spec P e Q -> e = Ret a -> Q a.
Proof. intros H ->. exact H. Qed.

Lemma bind_ret {A B} (a : A) (k : A -> M B) : bind (Ret a) k = k a.
Proof. reflexivity. Qed.

Lemma bind_assoc {A B C} (e : M A) (k : A -> M B) (k' : B -> M C) :
  bind (bind e k) k' = bind e (fun a => bind (k a) k').
Proof. destruct e; reflexivity. Qed.

Lemma total_guard b w : b = true -> total (guard b w) (fun _ => True).
Proof. intros ->. exact I. Qed.

Lemma total_debug_assert dbg b : b = true -> total (debug_assert dbg b) (fun _ => True).
Proof. intros ->. destruct dbg; exact I. Qed.

Lemma total_debug_work dbg b : b = true -> total (debug_work dbg b) (fun _ => True).
Proof. intros ->. destruct dbg; exact I. Qed.

Lemma spec_debug_assert dbg b (P : panic -> Prop) :
  (b = false -> P PDebug) -> spec P (debug_assert dbg b) (fun _ => dbg = true -> b = true).
Proof. destruct dbg, b; cbn; auto. Qed.

Lemma spec_guard b (w : panic) (P : panic -> Prop) :
  (b = false -> P w) -> spec P (guard b w) (fun _ => b = true).
Proof. destruct b; cbn; auto. Qed.

Ltac ret := apply spec_ret.
(** run the first computation of a sequence with a total lemma *)
Ltac tstep L := eapply total_bind; [eapply L | ].
Ltac sstep L := eapply spec_bind; [eapply L | ].
