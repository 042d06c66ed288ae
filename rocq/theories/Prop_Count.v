(** * Property C70: a program is run by a machine on digit counts and values. *)
From Coq Require Import ZArith List Bool Lia.
From Verif Require Import Base Digit Spec SpecMul SpecToom SpecHist Hist SpecCount CountRun PowCount.
Import ListNotations.
Open Scope Z_scope.

(** The program returns exactly if all steps of the machine go; then its registers hold
    the final counts and values, so every digit is determined.  It panics with a message
    exactly if the machine stops with it. *)
Theorem C70_run : forall dbg t p r c, Forall (typed t) p -> charted_run t p c -> shows t r c ->
  (all_go t p c <-> exists r', model_run dbg t p r = Ret r')
  /\ (forall r', model_run dbg t p r = Ret r' -> shows t r' (final t p c))
  /\ (forall w, model_run dbg t p r = Panic w <-> stop_says t p c w)
  /\ model_run dbg t p r <> NoFuel.
Proof. exact run_claim. Qed.

(** Digit counts and values determine the digits. *)
Theorem C70_digits : forall t x y c, fits t x c -> fits t y c -> x = y.
Proof. exact fits_same. Qed.

(** Debug and release builds compute the same digits, or panic with the same message. *)
Theorem C70_builds : forall t p r c, Forall (typed t) p -> charted_run t p c -> shows t r c ->
  match model_run true t p r, model_run false t p r with
  | Ret a, Ret b => forall k, a k = b k
  | Panic v, Panic w => v = w
  | _, _ => False
  end.
Proof. exact build_claim. Qed.

(** Programs without big divisions, squares and powers, with decimal left shifts by at
    most one digit and machine divisors of one digit, meet the condition in every state. *)
Theorem C70_plain : forall t p, Forall (plain t) p -> forall c, charted_run t p c.
Proof. exact plain_charted. Qed.

(** A difference with a leading zero can be shifted by two digits; the same number
    without the leading zero cannot. *)
Example C70_case :
  let c k := match k with O => Cell 3 65536 | _ => Cell 2 65535 end in
  let r k := match k with O => [0; 0; 1] | _ => [255; 255] end in
  let p := [SSub 0 1; SShr 0 16] in
  let p' := [SSub 0 1; SAddInt 0 0; SSet 2 1; SCopy 0 2; SShr 0 16] in
  shows B8 r c /\ Forall (plain B8) p /\ Forall (plain B8) p'
  /\ after B8 (SSub 0 1) c O = Cell 2 1
  /\ all_go B8 p c /\ stop_says B8 p' c PIndex
  /\ model_run true B8 p' r = Panic PIndex
  /\ match model_run true B8 p r with Ret r' => r' O = [] | _ => False end.
Proof.
  intros c r p p'. split.
  { intros [|k]; (split; [|split; reflexivity]); repeat constructor; cbn; lia. }
  split; [repeat constructor|]. split; [repeat constructor|].
  split; [reflexivity|]. split; [cbn; split; [lia|split; [vm_compute; discriminate|exact I]]|].
  split; [|split; [vm_compute; reflexivity|vm_compute; reflexivity]].
  right. split; [cbn; lia|].
  right. split; [exact I|]. right. split; [exact I|]. right. split; [exact I|].
  left. split; [|reflexivity]. vm_compute. auto.
Qed.

(** Two decimal digits subtracted twice: the top digit of the difference is lost. *)
Example C70_decimal_case :
  let c k := match k with O => Cell 3 10207 | _ => Cell 0 0 end in
  let r k := match k with O => [7; 2; 1] | _ => [] end in
  let p := [SSubInt 0 204; SSubInt 1 200] in
  shows D8 r c /\ Forall (plain D8) p /\ after D8 (SSubInt 0 204) c O = Cell 2 3
  /\ stop_says D8 p c PIndex /\ model_run true D8 p r = Panic PIndex
  /\ match model_run true D8 [SSubInt 0 204] r with Ret r' => r' O = [3; 0] | _ => False end.
Proof.
  intros c r p. split.
  { intros [|k]; (split; [|split; reflexivity]); repeat constructor; cbn; lia. }
  split; [repeat constructor|]. split; [reflexivity|].
  split; [|split; vm_compute; reflexivity].
  right. split; [cbn; lia|]. left. split; [cbn; lia|reflexivity].
Qed.

(** Without leading zeros a power stops when one of its products does (C16). *)
Theorem C70_tight : forall t v e, jam_raise (radix t) (places (radix t) v) v e <-> jam_power (radix t) v e.
Proof. exact raise_tight. Qed.

(** 256^40 - (256^40 - 1) is one, with 39 leading zeros; its cube stops. *)
Example C70_power_case :
  let c k := match k with O => Cell 41 (256 ^ 40) | _ => Cell 40 (256 ^ 40 - 1) end in
  let r k := match k with O => zeros 40 ++ [1] | _ => repeat 255 40 end in
  let p := [SSub 0 1; SPow 0 3] in
  shows B8 r c /\ charted_run B8 p c /\ after B8 (SSub 0 1) c O = Cell 40 1
  /\ stop_says B8 p c (PUnwrap Underflow) /\ model_run true B8 p r = Panic (PUnwrap Underflow)
  /\ model_run true B8 [SSub 0 1; SPow 0 1; SShl 0 8] r <> Panic (PUnwrap Underflow).
Proof.
  intros c r p.
  assert (HS : after B8 (SSub 0 1) c O = Cell 40 1) by (vm_compute; reflexivity).
  split.
  { intros [|k]; (split; [|split; vm_compute; reflexivity]); apply Forall_forall; intros d Hd; vm_compute in Hd;
      repeat (destruct Hd as [<-|Hd]; [vm_compute; split; [discriminate|reflexivity]|]); contradiction. }
  split.
  { split; [exact I|]. intros _. split; [|intros _; exact I]. cbn [charted]. rewrite HS. intros k Hk HE.
    assert (k = 0) as ->.
    { destruct (Z.eq_dec k 0) as [|Hn]; [assumption|exfalso].
      pose proof (Z.pow_le_mono_r 2 2 (k + 1) ltac:(lia) ltac:(lia)). lia. }
    cbn. lia. }
  split; [exact HS|]. split; [|split; [vm_compute; reflexivity|vm_compute; discriminate]].
  right. split; [vm_compute; split; [lia|discriminate]|]. left. split; [|reflexivity].
  cbn [goes]. rewrite HS. intros HN. apply HN. exists 0. left. split; [lia|]. split; [vm_compute; discriminate|].
  change (jam 256 40 1 40 1). apply jam_small; [left; lia|]. apply stuck_first; [split; lia|].
  split; vm_compute; [lia|reflexivity].
Qed.

(** Divisors with a leading zero: 7 / (65536 - 65534) is 0, and the quotient of 51205
    by the same difference has no room. *)
Example C70_division_case :
  let c k := match k with O => Cell 3 65536 | 1%nat => Cell 2 65534 | 2%nat => Cell 1 7 | _ => Cell 2 51205 end in
  let r k := match k with O => [0; 0; 1] | 1%nat => [254; 255] | 2%nat => [7] | _ => [5; 200] end in
  let p := [SSub 0 1; SDiv 2 0] in let q := [SSub 0 1; SDiv 3 0] in
  shows B8 r c /\ charted_run B8 p c /\ charted_run B8 q c
  /\ all_go B8 p c /\ final B8 p c 2%nat = Cell 0 0
  /\ stop_says B8 q c (PExplicit NoSpace) /\ model_run true B8 q r = Panic (PExplicit NoSpace).
Proof.
  intros c r p q. split.
  { intros [|[|[|k]]]; (split; [|split; reflexivity]); repeat constructor; cbn; lia. }
  split; [split; [exact I|intros _; split; [left; vm_compute; reflexivity|intros _; exact I]]|].
  split; [split; [exact I|intros _; split; [right; left; vm_compute; reflexivity|intros _; exact I]]|].
  split; [split; [cbn; lia|split; [left; vm_compute; reflexivity|exact I]]|].
  split; [vm_compute; reflexivity|]. split; [|vm_compute; reflexivity].
  right. split; [cbn; lia|]. left. split; [|reflexivity].
  intros [H|[_ [H _]]]; [vm_compute in H; discriminate H|]. apply H. split; vm_compute; [reflexivity|lia].
Qed.

Print Assumptions C70_run.
Print Assumptions C70_tight.
Print Assumptions C70_digits.
Print Assumptions C70_builds.
Print Assumptions C70_plain.
