(** * Cases: deciding the hypotheses of the theorems on concrete data. *)
From Coq Require Import ZArith List Bool Lia.
From Verif Require Import Base Digit Spec Hoare DigitOK ListLemmas.
Import ListNotations.
Open Scope Z_scope.

Definition valid_b (t : dty) (l : list Z) : bool :=
  forallb (fun d => (0 <=? d) && (d <? radix t)) l.
Definition normal_b (l : list Z) : bool := match rev l with 0 :: _ => false | _ => true end.

Lemma valid_b_ok t l : valid_b t l = true -> valid t l.
Proof.
  unfold valid_b, valid, below. rewrite forallb_forall, Forall_forall.
  intros H d Hd. specialize (H d Hd). apply andb_prop in H. lia.
Qed.
Lemma normal_b_ok l : normal_b l = true -> normal l.
Proof.
  unfold normal_b, normal. intros H t ->. rewrite rev_app_distr in H. cbn in H. discriminate H.
Qed.
Lemma not_normal_b l : normal_b l = false -> ~ normal l.
Proof.
  unfold normal_b. intros H N. destruct (rev l) as [|d t] eqn:E; [discriminate H|].
  assert (El : l = rev t ++ [d]) by (rewrite <- (rev_involutive l), E; reflexivity).
  destruct d; try discriminate H. apply (N (rev t)). exact El.
Qed.
Lemma well_formed_b_ok t l : valid_b t l && normal_b l = true -> well_formed t l.
Proof.
  intros H. apply andb_prop in H. split; [apply valid_b_ok|apply normal_b_ok]; tauto.
Qed.

(** proves a conjunction of computable facts about concrete numbers *)
Ltac fact :=
  cbv zeta; repeat match goal with |- _ /\ _ => split end;
  match goal with
  | |- valid _ _ => apply valid_b_ok; vm_compute; reflexivity
  | |- well_formed _ _ => apply well_formed_b_ok; vm_compute; reflexivity
  | |- normal _ => apply normal_b_ok; vm_compute; reflexivity
  | |- ~ normal _ => apply not_normal_b; vm_compute; reflexivity
  | |- storage _ _ => vm_compute; split; congruence
  | |- _ = _ => vm_compute; reflexivity
  | |- _ => vm_compute; congruence
  end.
