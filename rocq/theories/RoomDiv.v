(** * RoomDiv: division never runs out of quotient or scratch space. *)
From Coq Require Import ZArith List Bool Lia.
From Verif Require Import Base Digit Slice Mul Div UBig Spec SpecRoom Hoare DigitOK ListLemmas WorkSize
  DivSize Room RoomMul.
Import ListNotations.
Open Scope Z_scope.
Open Scope m_scope.

Section Div.
Variable B : Z.
Variable D : digit.
Hypothesis OK : digit_ok B D.
Hypothesis HD : digit_room D.

(** all three buffers keep their lengths *)
Definition kept3 {A} (a b c : nat) (P : A -> Prop) (x : (digits * digits * digits) * A) : Prop :=
  let '((u, v, w), y) := x in length u = a /\ length v = b /\ length w = c /\ P y.

Ltac dig := eapply room_bind; [solve [first [apply (ro_max_shift D HD) | apply (ro_inc D HD)
  | apply (ro_dec D HD) | apply (ro_add D HD) | apply (ro_sub D HD) | apply (ro_shl D HD)
  | apply (ro_shr D HD) | apply (ro_double D HD) | apply (ro_mul D HD) | apply (ro_rem D HD)
  | apply (ro_div D HD) | apply (ro_div3 D HD) | apply (ro_add_prod D HD)]]|];
  let a := fresh "a" in intros a _; try match type of a with (_ * _)%type => destruct a end.
Ltac ast := eapply room_bind; [apply room_assert|]; intros _ _.

Lemma r_rem_loop l f c : room (rem_loop D l f c) any.
Proof.
  revert c. induction l as [|d l IH]; intros c; cbn [rem_loop]; [exact I|].
  eapply room_bind; [apply IH|]. intros x _. apply (ro_rem D HD).
Qed.
Lemma r_rem_digit l f : room (rem_digit D l f) (good any).
Proof.
  unfold rem_digit. destruct (f =? 0); [apply room_ret; discriminate|].
  eapply room_bind; [apply r_rem_loop|]. intros x _. exact I.
Qed.
Lemma r_div_loop l f c : room (div_loop D l f c) (keep (length l) any).
Proof.
  revert c. induction l as [|d l IH]; intros c; cbn [div_loop]; [apply room_ret; split; [reflexivity|exact I]|].
  eapply room_bind; [apply IH|]. intros [t o] [L _]. dig. apply room_ret. split; [cbn in *; lia|exact I].
Qed.
Lemma r_div_digit l f : room (div_assign_digit D l f)
  (keep (length l) (good (fun '(n, _) => (n <= length l)%nat))).
Proof.
  unfold div_assign_digit. destruct (f =? 0); [apply room_ret; split; [reflexivity|discriminate]|].
  eapply room_bind; [apply r_div_loop|]. intros [t o] [L _]. cbn [fst] in L.
  eapply room_bind; [apply room_drop|]. intros n Hn; cbv beta in Hn. apply room_ret. split; [exact L|]. cbn. lia.
Qed.
Lemma r_div_step dl dh d rh rl : room (div_pair_step D dl dh d rh rl) any.
Proof.
  unfold div_pair_step. dig. dig. dig.
  eapply room_bind with (R := any).
  { destruct (array_gt _ _); [|exact I]. dig. dig. dig.
    eapply room_bind with (R := any); [match goal with |- room (if ?b then _ else _) _ => destruct b end; [dig; exact I|exact I]|]. intros x _.
    destruct (array_gt _ _); [|exact I]. dig. dig. dig. exact I. }
  intros [[q x] y] _. dig. dig. exact I.
Qed.
Lemma r_div_pair_loop l dl dh rh rl : room (div_pair_loop D l dl dh rh rl) (keep (length l) any).
Proof.
  revert rh rl. induction l as [|d l IH]; intros rh rl; cbn [div_pair_loop];
    [apply room_ret; split; [reflexivity|exact I]|].
  eapply room_bind; [apply IH|]. intros [t [x y]] [L _].
  eapply room_bind; [apply r_div_step|]. intros [q r] _. apply room_ret. split; [cbn in *; lia|exact I].
Qed.
Lemma drop_top l n : nth_error l n = Some 0 -> drop_leading_zeros l (S n) = drop_leading_zeros l n.
Proof. intros H. cbn [drop_leading_zeros]. unfold get. rewrite H. reflexivity. Qed.
Lemma r_div_pair l fl fh : fh <> 0 -> room (div_assign_digit_pair D l fl fh)
  (keep (length l) (good (fun '(n, _, _) => (n <= length l - 1)%nat))).
Proof.
  intros Hf. unfold div_assign_digit_pair. destruct (Z.eqb_spec fh 0); [contradiction|].
  destruct l as [|d [|e l]]; [apply room_ret; split; [reflexivity|apply Nat.le_0_l]..|].
  set (x := d :: e :: l). assert (Lx : (2 <= length x)%nat) by (cbn; lia). clearbody x.
  dig. eapply room_bind with (R := fun '(nr, _, _, _) => length nr = length x).
  { destruct (0 <? _); [|apply room_ret; reflexivity]. dig. dig.
    eapply room_bind; [apply (r_shl D HD); reflexivity|]. intros [nr rh] [L _]. exact L. }
  intros [[[nr dl] dh] rh] L1. eapply room_bind; [apply room_get|]. intros rl _.
  eapply room_bind; [apply room_set|]. intros nr2 (E2 & L2 & _).
  unfold with_prefix. eapply room_bind.
  { apply room_slice_in with (R := keep (length x - 1) any). intros Hij.
    eapply room_post; [apply r_div_pair_loop|]. intros [s r] [Ls _]. split; [|exact I].
    cbn [fst] in *. rewrite Ls. len. }
  intros [nr3 [rh' rl']] (s & E3 & [Ls _] & Hij). cbn [fst firstn app] in *.
  eapply room_bind with (R := any).
  { destruct (0 <? _); [|exact I]. dig. dig. exact I. }
  intros [y z] _.
  assert (T : nth_error nr3 (length x - 1) = Some 0).
  { rewrite E3, nth_error_app2 by lia. rewrite Ls, Nat.sub_diag, E2.
    rewrite skipn_app, skipn_all2 by len. replace (length x - 1 - length (firstn (length x - 1) nr))%nat with 0%nat by len.
    reflexivity. }
  assert (L3 : length nr3 = length x) by (rewrite E3; len).
  replace (drop_leading_zeros nr3 (length x)) with (drop_leading_zeros nr3 (length x - 1)).
  2: { rewrite <- drop_top by exact T. f_equal. lia. }
  eapply room_bind; [apply room_drop|]. intros k Hk; cbv beta in Hk. apply room_ret. split; [exact L3|exact Hk].
Qed.

(** ** div/long.rs *)
Lemma r_sub_ignore l m : room (sub_ignore D l m) (fun l' => length l' = length l).
Proof.
  unfold sub_ignore. eapply room_bind; [apply (r_sub_assign_big D HD); reflexivity|].
  intros [x r] [L _]. exact L.
Qed.
Lemma r_first_too_big num den qden m : room (first_too_big num den qden m) any.
Proof.
  unfold first_too_big. eapply room_bind; [apply room_get|]. intros top _.
  destruct (_ <? _); [exact I|]. destruct (_ =? _); [|exact I].
  eapply room_bind; [apply room_suffix|]. intros s _. eapply room_bind; [apply room_prefix|]. intros p _. exact I.
Qed.
Lemma r_div_first num m den quot qden :
  room (div_long_first D num m den quot qden) (fun '(u, v, w, _) =>
    length u = length num /\ length v = length quot /\ length w = length qden).
Proof.
  unfold div_long_first. cbv zeta. eapply room_bind; [apply room_get|]. intros msd _.
  eapply room_bind; [apply room_get|]. intros q _. dig. destruct (_ =? 0); [apply room_ret; auto|].
  eapply room_bind; [apply (r_mul_digit_into D HD)|]. intros qd L1. cbv beta in L1.
  eapply room_bind; [apply r_first_too_big|]. intros big _.
  eapply room_bind with (R := fun '(_, qd) => length qd = length qden).
  { destruct big; [|exact L1]. dig. eapply room_bind; [apply r_sub_ignore|]. intros x Lx; cbv beta in Lx.
    eapply room_bind; [apply r_first_too_big|]. intros big _. destruct big; [|apply room_ret; lia].
    dig. eapply room_bind; [apply r_sub_ignore|]. intros y Ly; cbv beta in Ly. apply room_ret. lia. }
  intros [q' qd'] L2. eapply room_bind; [apply room_prefix|]. intros p _.
  eapply room_bind.
  { apply room_with_suffix with (P := fun _ => any). intros k s Ls.
    eapply room_bind; [apply r_sub_ignore|]. intros x Lx; cbv beta in Lx. apply room_ret. split; [cbn; lia|exact I]. }
  intros [nm u] [L3 _]. eapply room_bind; [apply room_set|]. intros qu (_ & L4 & _). apply room_ret.
  cbn [fst] in *. auto.
Qed.
Lemma r_div_long_step i num den quot qden :
  room (div_long_step D i num den quot qden) (fun '(u, v, w) =>
    length u = length num /\ length v = length quot /\ length w = length qden).
Proof.
  unfold div_long_step. cbv zeta. eapply room_bind; [apply room_get|]. intros msd _.
  eapply room_bind; [apply room_get|]. intros q _. eapply room_bind; [apply room_get|]. intros c _. dig.
  eapply room_bind with (R := fun '(u, w, _) => length u = length num /\ length w = length qden).
  { destruct (_ =? 0); [apply room_ret; auto|].
    eapply room_bind; [apply (r_mul_digit_into D HD)|]. intros qd L1. cbv beta in L1.
    eapply room_bind; [apply room_sub_slice|]. intros w _.
    eapply room_bind with (R := fun '(_, qd) => length qd = length qden).
    { destruct (num_lt _ _); [|exact L1]. dig. eapply room_bind; [apply r_sub_ignore|]. intros x Lx; cbv beta in Lx.
      destruct (num_lt _ _); [|apply room_ret; lia].
      dig. eapply room_bind; [apply r_sub_ignore|]. intros y Ly; cbv beta in Ly. apply room_ret. lia. }
    intros [q' qd'] L2. eapply room_bind.
    { apply room_slice with (P := fun _ => any). intros k s Ls.
      eapply room_bind; [apply r_sub_ignore|]. intros x Lx; cbv beta in Lx. apply room_ret. split; [cbn; lia|exact I]. }
    intros [nm u] [L3 _]. apply room_ret. auto. }
  intros [[nm qd] q'] [L1 L2]. eapply room_bind; [apply room_set|]. intros qu (_ & L4 & _). apply room_ret. auto.
Qed.
Lemma r_div_long_loop i : forall num den quot qden,
  room (div_long_loop D i num den quot qden) (fun '(u, v, w) =>
    length u = length num /\ length v = length quot /\ length w = length qden).
Proof.
  induction i as [|i IH]; intros num den quot qden; cbn [div_long_loop]; [apply room_ret; auto|].
  eapply room_bind; [apply r_div_long_step|]. intros [[u v] w] (L1 & L2 & L3).
  eapply room_post; [apply IH|]. intros [[a b] c]. lia.
Qed.
Lemma r_div_scaled num m den quot work :
  room (div_big_long_scaled D num m den quot work) (kept3 (length num) (length quot) (length work) any).
Proof.
  unfold div_big_long_scaled. cbv zeta. eapply room_bind; [apply room_get|]. intros msd _.
  eapply room_bind with (R := any). { destruct (d_dbg D); [apply (ro_max_shift D HD)|exact I]. } intros s _.
  ast. eapply room_bind; [apply room_prefix|]. intros qd (_ & Lq & Hq).
  eapply room_bind; [apply r_div_first|]. intros [[[u v] w] n] (L1 & L2 & L3).
  eapply room_bind; [apply r_div_long_loop|]. intros [[u' v'] w'] (L4 & L5 & L6).
  eapply room_bind; [apply room_drop|]. intros n1 _. eapply room_bind; [apply room_drop|]. intros n2 _.
  apply room_ret. split; [lia|]. split; [lia|]. split; [len|exact I].
Qed.
Lemma r_div_long num den quot work : (length den + 1 <= length work)%nat ->
  room (div_big_long D num den quot work) (kept3 (length num) (length quot) (length work) any).
Proof.
  intros Hw. unfold div_big_long, calc_div_long_work_size. cbv zeta. ast. ast. ast.
  eapply room_bind; [apply room_work, Nat.leb_le, Hw|]. intros u3 _.
  eapply room_bind; [apply room_get|]. intros top _. dig. destruct (_ =? 0); [apply r_div_scaled|].
  eapply room_bind; [apply (r_shl D HD); reflexivity|]. intros [sd c1] [L1 _].
  eapply room_bind; [apply (r_shl D HD); reflexivity|]. intros [nm c2] [L2 _].
  eapply room_bind; [apply room_prefix|]. intros qd (_ & L3 & _).
  eapply room_bind; [apply r_div_scaled|]. intros [[[u v] w] [n1 n2]] (L4 & L5 & L6 & _).
  eapply room_bind.
  { apply room_with_prefix with (P := fun _ => any). intros k s Ls.
    eapply keep_any, (r_shr D HD), Ls. }
  intros [nm' [n3 c3]] [L7 _]. apply room_ret. cbn [fst] in *. split; [lia|]. split; [lia|]. split; [len|exact I].
Qed.

(** ** div.rs: div_big_with_work *)
Lemma r_copy_prefix d s n : room (copy_prefix d s n) (fun d' => length d' = length d).
Proof.
  unfold copy_prefix. eapply room_bind; [apply room_prefix|]. intros x _.
  eapply room_post; [apply room_copy_into|]. intros y (_ & L & _). exact L.
Qed.
Lemma r_div_gen bz num den quot work (nnum := length num) (nden := length den) :
  (nden <> 0 -> num_lt num den = false -> (nnum - nden + 1 <= length quot)%nat
     \/ ((nnum - nden <= length quot)%nat /\ num_lt (skipn (nnum - nden) num) den = true))%nat ->
  (nden = 1 -> nnum <= length quot)%nat ->
  (nden = 2 -> nnum - 1 <= length quot /\ nth 1 den 0%Z <> 0%Z)%nat ->
  (2 < nden < 20 -> num_lt num den = false -> nden + 1 <= length work)%nat ->
  (20 <= nden -> num_lt num den = false ->
     room (bz num den quot work) (kept3 nnum (length quot) (length work) any))%nat ->
  room (div_big_with_work_gen D bz num den quot work) (kept3 nnum (length quot) (length work) (good any)).
Proof.
  intros H0 H1 H2 Hw Hbz. unfold div_big_with_work_gen. cbv zeta. fold nnum nden.
  destruct (Nat.eqb_spec nden 0) as [E0|E0]; [repeat split; discriminate|].
  destruct (num_lt num den) eqn:Elt; [repeat split|].
  specialize (H0 E0 eq_refl).
  replace ((length quot <? nnum - nden + 1)%nat && ((length quot <? nnum - nden)%nat
     || negb (num_lt (skipn (nnum - nden) num) den))) with false.
  2: { symmetry. apply andb_false_iff. destruct H0 as [H|[H E]]; [left; apply Nat.ltb_ge; exact H|].
       right. rewrite E, orb_false_r. apply Nat.ltb_ge. exact H. }
  destruct (Nat.eqb_spec nden 1) as [E1|E1].
  { specialize (H1 E1). eapply room_bind; [apply room_get|]. intros d0 _.
    eapply room_bind; [apply r_div_digit|]. intros [nm r] [L G]. cbn [fst snd] in *.
    destruct r as [[nq rm]|e]; [|apply room_ret; repeat split; try assumption; exact G]. cbn [good] in G.
    destruct (Nat.ltb_spec (length quot) nq); [unfold nnum in *; lia|].
    eapply room_bind; [apply r_copy_prefix|]. intros q Lq.
    destruct (_ =? 0); [apply room_ret; repeat split; try assumption; len|].
    eapply room_bind; [apply room_set|]. intros x (_ & Lx & _). apply room_ret.
    repeat split; try assumption. rewrite Lx. len. }
  destruct (Nat.eqb_spec nden 2) as [E2|E2].
  { destruct (H2 E2) as [H3 H4]. eapply room_bind; [apply room_get|]. intros d0 _.
    eapply room_bind; [apply room_get|]. intros d1 Ed1. rewrite (nth_error_nth _ _ _ Ed1) in H4.
    eapply room_bind; [apply r_div_pair, H4|]. intros [nm r] [L G]. cbn [fst snd] in *.
    destruct r as [[[nq rl] rh]|e]; [|apply room_ret; repeat split; try assumption; exact G]. cbn [good] in G.
    destruct (Nat.ltb_spec (length quot) nq); [unfold nnum in *; lia|].
    eapply room_bind; [apply r_copy_prefix|]. intros q Lq.
    destruct (rh =? 0); [destruct (rl =? 0)|].
    - apply room_ret; repeat split; try assumption; len.
    - eapply room_bind; [apply room_set|]. intros x (_ & Lx & _). apply room_ret.
      repeat split; try assumption. rewrite Lx. len.
    - eapply room_bind; [apply room_set|]. intros x (_ & Lx & _).
      eapply room_bind; [apply room_set|]. intros y (_ & Ly & _). apply room_ret.
      repeat split; try assumption. rewrite Ly, Lx. len. }
  unfold BZ_CUTOFF, calc_div_long_work_size. destruct (Nat.ltb_spec nden 20).
  - assert (Hw' : (nden + 1 <= length work)%nat) by (apply Hw; [lia|reflexivity]).
    eapply room_bind; [apply room_work, Nat.leb_le, Hw'|]. intros u _.
    eapply room_bind; [apply r_div_long, Hw'|]. intros [[[a b] c] r] (L1 & L2 & L3 & _).
    apply room_ret. repeat split; assumption.
  - eapply room_bind; [apply Hbz; [lia|reflexivity]|]. intros [[[a b] c] r] (L1 & L2 & L3 & _).
    apply room_ret. repeat split; assumption.
Qed.

(** ** div/bz.rs *)
Lemma r_max_shift_zero d : room (debug_max_shift_zero D d) any.
Proof.
  unfold debug_max_shift_zero. eapply room_bind with (R := any).
  - destruct (d_dbg D); [apply (ro_max_shift D HD)|exact I].
  - intros s _. eapply room_any, room_assert.
Qed.
Lemma r_dec_prefix q n : room (dec_prefix D q n) (keep (length q) any).
Proof.
  unfold dec_prefix. eapply room_post.
  - apply room_with_prefix with (P := fun _ => any). intros k s <-.
    apply room_unwrap_with. eapply keep_good, (r_dec D HD).
  - intros x [L _]. split; [exact L|exact I].
Qed.
(** what the division of 2n by n digits needs *)
Definition droom (rec : div_fn) (n : nat) : Prop := forall num den quot work,
  length den = n -> length num = (2 * n)%nat -> length quot = n ->
  ((n < 20)%nat -> num_lt (skipn n num) den = true) -> (wneed n <= length work)%nat ->
  room (rec num den quot work) (kept3 (2 * n) n (length work) any).

Lemma r_bz_3n_2n rec n num den quot work : halving n -> (20 <= 2 * n)%nat -> droom rec n ->
  length den = (2 * n)%nat -> length num = (3 * n)%nat -> length quot = n ->
  (wneed (2 * n) <= length work)%nat ->
  room (div_big_bz_3n_2n D rec num den quot work) (kept3 (3 * n) n (length work) any).
Proof.
  intros Hh H20 Hrec Ld Ln Lq Hw. unfold div_big_bz_3n_2n. rewrite Ld, half2. cbv zeta.
  pose proof (wneed_half n Hh H20) as Hw'.
  assert (Hw2 : (3 * n + 1 + calc_mul_work_size n <= length work)%nat).
  { revert Hw. unfold wneed. destruct (Nat.ltb_spec (2 * n) 20); [lia|]. rewrite half2. lia. }
  ast. ast. ast. eapply room_bind with (R := any).
  { destruct (d_dbg D); [eapply room_any, room_get|exact I]. }
  intros top _. eapply room_bind; [apply r_max_shift_zero|]. intros u3 _.
  eapply room_bind; [apply room_work, Nat.leb_le; lia|]. intros u4 _.
  eapply room_bind; [apply room_split_at|]. intros [b2 b1] (_ & _ & Lb2 & Lb1 & _).
  eapply room_bind; [apply room_suffix|]. intros a12 (_ & La12 & _).
  eapply room_bind; [apply room_suffix|]. intros a1 (Ea1 & La1 & _).
  apply room_bind with (R := fun '(a, q, w, _) => length a = (2 * n)%nat /\ length q = n /\ length w = length work).
  { destruct (num_lt a1 b1) eqn:Elt.
    - eapply room_bind; [apply Hrec; [lia|lia|lia|rewrite <- Ea1; intros _; exact Elt|lia]|].
      intros [[[a q] w] [nq x]] (L1 & L2 & L3 & _). apply room_ret. auto.
    - eapply room_bind.
      { apply room_with_suffix with (P := fun _ => any). intros k s Ls.
        eapply room_bind; [apply r_sub_ignore|]. intros x Lx; cbv beta in Lx. apply room_ret. split; [cbn; lia|exact I]. }
      intros [a u5] [L1 _]. eapply room_bind; [apply (r_add_assign_big D HD); reflexivity|].
      intros [a' u6] [L2 _]. eapply room_bind; [apply room_drop|]. intros k _. apply room_ret. cbn [fst] in *.
      rewrite repeat_length. lia. }
  intros [[[a q] w] nq] (L1 & L2 & L3).
  eapply room_bind; [apply room_drop|]. intros nb2 Hb2; cbv beta in Hb2.
  eapply room_bind; [apply room_split_at|]. intros [qd mw] (_ & _ & L4 & L5 & L6).
  eapply room_bind; [apply room_prefix|]. intros x (_ & Lx & Hx).
  eapply room_bind; [apply room_prefix|]. intros y (_ & Ly & Hy).
  eapply room_bind.
  { apply (r_mul_with_work B D OK HD); [lia|]. etransitivity; [apply (need_calc _ _ n); lia|lia]. }
  intros [[qd' mw'] nqd] [L7 L8]. ast.
  eapply room_bind; [apply room_prefix|]. intros qp (_ & Lqp & _).
  assert (Lnum : length (firstn n num ++ a) = (3 * n)%nat) by len.
  set (nm := firstn n num ++ a) in *. clearbody nm.
  eapply room_bind; [apply room_drop|]. intros nn _.
  eapply room_bind; [apply room_prefix|]. intros p _.
  apply room_bind with (R := fun '(u, v, _) => length u = (3 * n)%nat /\ length v = n).
  { destruct (num_lt p qp); [|apply room_ret; auto].
    eapply room_bind; [apply (r_add_assign_big D HD); reflexivity|]. intros [nm2 o2] [M1 _].
    eapply room_bind; [apply r_dec_prefix|]. intros [q2 nq2] [M2 _]. cbn [fst] in *.
    eapply room_bind; [apply room_drop|]. intros nn2 _.
    eapply room_bind; [apply room_prefix|]. intros p2 _.
    destruct (num_lt p2 qp); [|apply room_ret; lia].
    eapply room_bind; [apply (r_add_assign_big D HD); reflexivity|]. intros [nm3 o3] [M3 _].
    eapply room_bind; [apply r_dec_prefix|]. intros [q3 nq3] [M4 _]. cbn [fst] in *. apply room_ret. lia. }
  intros [[nm2 q2] nq2] [M1 M2].
  eapply room_bind; [apply room_unwrap_with, (r_sub_assign_big D HD); reflexivity|].
  intros [nm3 nr] [M3 _]. cbn [fst] in M3. apply room_ret. split; [lia|]. split; [exact M2|].
  split; [len|exact I].
Qed.

Lemma r_bz_step rec n : (n < 20 -> (10 <= n)%nat -> droom (div_big_bz_2n_n_step D rec) n)%nat.
Proof.
  intros H20 H10 num den quot work Ld Ln Lq Hlt Hw. specialize (Hlt H20).
  unfold div_big_bz_2n_n_step. rewrite Ld. cbv zeta. ast. ast. ast. eapply room_bind with (R := any).
  { destruct (d_dbg D); [eapply room_any, room_get|exact I]. }
  intros top _. eapply room_bind; [apply r_max_shift_zero|]. intros u3 _.
  unfold BZ_CUTOFF. destruct (Nat.ltb_spec n 20); [|lia].
  assert (Hw2 : (n + 1 <= length work)%nat).
  { revert Hw. unfold wneed. destruct (Nat.ltb_spec n 20); lia. }
  eapply room_bind; [apply room_drop|]. intros nn Hnn; cbv beta in Hnn.
  eapply room_bind; [apply room_prefix|]. intros p (Ep & Lp & _).
  eapply room_bind.
  { apply r_div_gen; rewrite ?Ld, ?Lq, ?Lp; try lia. intros _ _.
    destruct (Nat.eq_dec nn (2 * n)) as [->|N]; [|left; lia]. right. split; [lia|].
    rewrite Ep, firstn_all2 by lia. replace (2 * n - n)%nat with n by lia. exact Hlt. }
  intros [[[a b] c] r] (L1 & L2 & L3 & G).
  eapply room_bind; [apply room_unwrap, G|]. intros x _. apply room_ret.
  split; [len|]. split; [lia|]. split; [exact L3|exact I].
Qed.
Lemma r_bz_fuel n : halving n -> forall f, droom (bz_fuel D f) n.
Proof.
  induction 1 as [n Hn|n Hh IH H20]; intros [|f]; try (intros ? ? ? ? ? ? ? ? ?; exact I); cbn [bz_fuel].
  { apply r_bz_step; lia. }
  intros num den quot work Ld Ln Lq _ Hw.
  unfold div_big_bz_2n_n_step. rewrite Ld. cbv zeta. ast. ast. ast. eapply room_bind with (R := any).
  { destruct (d_dbg D); [eapply room_any, room_get|exact I]. }
  intros top _. eapply room_bind; [apply r_max_shift_zero|]. intros u3 _.
  unfold BZ_CUTOFF. destruct (Nat.ltb_spec (2 * n) 20); [lia|]. rewrite half2.
  eapply room_bind; [apply room_suffix|]. intros hi (_ & Lhi & _).
  eapply room_bind; [apply room_suffix|]. intros qh (_ & Lqh & _).
  eapply room_bind; [apply (r_bz_3n_2n _ n); try assumption; [apply IH|lia|lia]|].
  intros [[[hi' qh'] w1] x1] (L1 & L2 & L3 & _).
  eapply room_bind; [apply room_prefix|]. intros lo (_ & Llo & _).
  eapply room_bind; [apply room_prefix|]. intros ql (_ & Lql & _).
  eapply room_bind; [apply (r_bz_3n_2n _ n); try assumption; [apply IH|lia]|].
  intros [[[lo' ql'] w2] x2] (L4 & L5 & L6 & _).
  eapply room_bind; [apply room_drop|]. intros k1 _. eapply room_bind; [apply room_drop|]. intros k2 _.
  apply room_ret. split; [len|]. split; [len|]. split; [lia|exact I].
Qed.
Lemma r_bz_2n_n n : halving n -> droom (div_big_bz_2n_n D) n.
Proof. intros H num den quot work. apply r_bz_fuel, H. Qed.

Lemma r_bz_blocks i n : halving n -> (20 <= n)%nat -> forall snum sden q work,
  length sden = n -> (wneed n <= length work)%nat ->
  room (bz_blocks D i n snum sden q work) (fun '(u, v, w) =>
    length u = length snum /\ length v = length q /\ length w = length work).
Proof.
  intros Hh H20. induction i as [|i IH]; intros snum sden q work Ls Hw; cbn [bz_blocks]; [apply room_ret; auto|].
  eapply room_bind; [apply room_sub_slice|]. intros s (_ & Lsl & Hsl).
  eapply room_bind; [apply room_sub_slice|]. intros qs (_ & Lqs & Hqs).
  eapply room_bind; [apply (r_bz_2n_n n Hh); [exact Ls|lia|lia|lia|exact Hw]|].
  intros [[[s' qs'] w1] x] (L1 & L2 & L3 & _).
  eapply room_post; [apply IH; [exact Ls|lia]|]. intros [[u v] w] (L4 & L5 & L6).
  rewrite L4, L5, L6. split; [|split; [|exact L3]].
  - rewrite !app_length, firstn_length, skipn_length. lia.
  - rewrite !app_length, firstn_length, skipn_length. lia.
Qed.
Lemma halving_even_of n : halving n -> (20 <= n)%nat -> (3 * n / 2 = 3 * (n / 2))%nat.
Proof.
  intros [m Hm|m Hm _] H; [lia|]. rewrite half2. replace (3 * (2 * m))%nat with (2 * (3 * m))%nat by lia. apply half2.
Qed.
Lemma r_bz num den quot work : (20 <= length den)%nat ->
  (calc_div_bz_work_size (length den) <= length work)%nat ->
  room (div_big_bz D num den quot work) (kept3 (length num) (length quot) (length work) any).
Proof.
  intros H20 Hw. unfold div_big_bz. cbv zeta. ast. ast. ast.
  eapply room_bind; [apply room_work, Nat.leb_le, Hw|]. intros u3 _.
  destruct (block_size_ok _ H20) as [Hh Hn].
  assert (Hw2 : (wneed (block_size (length den)) <= length work)%nat).
  { revert Hw. unfold calc_div_bz_work_size, wneed. destruct (Nat.ltb_spec (block_size (length den)) 20); [lia|].
    rewrite halving_even_of by (assumption || lia). lia. }
  clear Hw. set (n := block_size (length den)) in *. clearbody n.
  eapply room_bind; [apply room_copy_into|]. intros sden (_ & Ls & _). rewrite zeros_length in Ls.
  eapply room_bind; [apply room_get|]. intros top _. dig.
  eapply room_bind; [apply (r_shl D HD); reflexivity|]. intros [sden' c1] [L1 _]. cbn [fst] in L1.
  eapply room_bind; [apply room_copy_into|]. intros snum (_ & L2 & _).
  eapply room_bind.
  { apply room_slice with (P := fun _ => any). intros k s Lk. apply (r_shl D HD), Lk. }
  intros [snum' c2] [L3 _]. cbn [fst] in L3.
  eapply room_bind; [apply (r_bz_blocks _ n Hh); [lia|lia|exact Hw2]|].
  intros [[snum2 q] w] (L4 & L5 & L6).
  eapply room_bind.
  { apply room_slice with (P := fun _ => any). intros k s Lk. eapply keep_any, (r_shr D HD), Lk. }
  intros [snum3 [nrem c3]] [L7 _].
  eapply room_bind; [apply room_drop|]. intros nq _.
  eapply room_bind; [apply r_copy_prefix|]. intros qt L8. cbv beta in L8.
  eapply room_bind; [apply room_sub_slice|]. intros r _.
  eapply room_bind; [apply room_copy_into|]. intros nm (_ & L9 & _).
  apply room_ret. repeat split; assumption.
Qed.

(** ** Division of whole numbers *)
Lemma r_div_big num den quot :
  (length num - length den + 1 <= length quot)%nat -> (length den <= length num)%nat ->
  (length den = 2 -> nth 1 den 0%Z <> 0%Z)%nat ->
  room (div_big D num den quot) (fun '(u, v, r) => length u = length num /\ length v = length quot /\ good any r).
Proof.
  intros Hq Hn H2. unfold div_big, div_big_with_work. cbv zeta.
  set (work := if (length den <=? 2)%nat || num_lt num den then [] else _).
  eapply room_bind.
  { apply r_div_gen.
    - intros _ _. left. exact Hq.
    - lia.
    - intros E. split; [lia|auto].
    - intros H3 E. unfold work, BZ_CUTOFF. rewrite E. destruct (Nat.leb_spec (length den) 2); [lia|]. cbn [orb].
      destruct (Nat.ltb_spec (length den) 20); [rewrite zeros_length; lia|lia].
    - intros H E. assert (Hwk : work = zeros (calc_div_bz_work_size (length den))).
      { unfold work, BZ_CUTOFF. rewrite E. destruct (Nat.leb_spec (length den) 2); [lia|]. cbn [orb].
        destruct (Nat.ltb_spec (length den) 20); [lia|reflexivity]. }
      eapply room_bind; [apply room_work, Nat.leb_le; rewrite Hwk, zeros_length; lia|].
      intros u _. apply r_bz; [exact H|]. rewrite Hwk, zeros_length. lia. }
  intros [[[u v] w] r] (L1 & L2 & _ & G). apply room_ret. auto.
Qed.
End Div.

Lemma room_enough {A} (e : M A) Q : room e Q -> enough_room e.
Proof. intros H. repeat split; intros ->; exact H. Qed.
Lemma normal_top (l : digits) : normal l -> length l = 2%nat -> nth 1 l 0 <> 0.
Proof.
  intros N L E. destruct l as [|a [|b [|c l]]]; try discriminate L. cbn in E. subst b. exact (N [a] eq_refl).
Qed.

Section Whole.
Variable B : Z.
Variable D : digit.
Hypothesis OK : digit_ok B D.
Hypothesis HD : digit_room D.

Lemma r_mul_big x y : room (mul_big D x y) any.
Proof.
  unfold mul_big. destruct (_ || _); [exact I|].
  eapply room_bind; [apply (r_mul_into B D OK HD); intros _ _; len|]. intros [r n] _. exact I.
Qed.
Lemma r_square x : room (square D x) any.
Proof.
  unfold square. destruct (ubig_is_zero x); [exact I|].
  eapply room_bind; [apply (r_square_into B D OK HD); intros _; len|]. intros [r n] _. exact I.
Qed.
Lemma r_pow_loop n : forall x y, room (pow_loop D n x y) any.
Proof.
  induction n as [n IH|n IH|]; intros x y; cbn [pow_loop]; (eapply room_bind; [apply r_square|]; intros z _).
  - eapply room_bind; [apply r_mul_big|]. intros u _. apply IH.
  - apply IH.
  - apply r_mul_big.
Qed.
Lemma r_pow x n : room (pow D x n) any.
Proof.
  unfold pow. destruct n as [|p]; [exact I|]. destruct p as [p|p|]; [| |exact I].
  - cbv zeta. destruct (_ / _)%N; [exact I|apply r_pow_loop].
  - destruct p; [| |apply r_square]; cbv zeta; (destruct (_ / _)%N; [exact I|apply r_pow_loop]).
Qed.
Lemma r_new x : room (ubig_new x) any.
Proof. unfold ubig_new, ubig_drop_leading_zeros. eapply room_bind; [apply room_drop|]. intros n _. exact I. Qed.
Lemma r_div_assign_big x y : normal y -> room (div_assign_big D x y) (fun '(_, r) => good any r).
Proof.
  intros N. unfold div_assign_big. cbv zeta. destruct (Nat.ltb_spec (length x) (length y)).
  - eapply room_bind; [apply r_new|]. intros r _. exact I.
  - eapply room_bind; [apply (r_div_big B D OK HD); [len|lia|apply normal_top, N]|].
    intros [[u v] r] (_ & _ & G). destruct r as [[a b]|e]; [|exact G].
    eapply room_bind; [apply r_new|]. intros z _. exact I.
Qed.
Lemma r_rem_assign_big x y : normal y -> room (rem_assign_big D x y) (fun '(_, r) => good any r).
Proof.
  intros N. unfold rem_assign_big. cbv zeta. destruct (Nat.leb_spec (length y) (length x)); [|exact I].
  eapply room_bind; [apply (r_div_big B D OK HD); [len|lia|apply normal_top, N]|].
  intros [[u v] r] (_ & _ & G). destruct r as [[a b]|e]; [exact I|exact G].
Qed.
Lemma r_div_assign x y : normal y -> room (div_assign D x y) any.
Proof.
  intros N. unfold div_assign. eapply room_bind; [apply r_div_assign_big, N|]. intros [q r] G.
  eapply room_bind; [apply room_or_panic, G|]. intros u _. exact I.
Qed.
Lemma r_rem_assign x y : normal y -> room (rem_assign D x y) any.
Proof.
  intros N. unfold rem_assign. eapply room_bind; [apply r_rem_assign_big, N|]. intros [q r] G.
  eapply room_bind; [apply room_or_panic, G|]. intros u _. exact I.
Qed.
End Whole.

Section Claims.
Variable dbg : bool.
Variable t : dty.
Let OK := impl_ok dbg t.
Let HD := impl_room dbg t.
Let D := impl dbg t.

Lemma room_mul_claim x y : enough_room (mul_big D x y).
Proof. eapply room_enough, (r_mul_big _ D OK HD). Qed.
Lemma room_square_claim x : enough_room (square D x).
Proof. eapply room_enough, (r_square _ D OK HD). Qed.
Lemma room_pow_claim x n : enough_room (pow D x n).
Proof. eapply room_enough, (r_pow _ D OK HD). Qed.
Lemma room_div_claim x y : normal y ->
  enough_room (div_assign D x y) /\ enough_room (div_assign_big D x y)
  /\ forall q, div_assign_big D x y <> Ret (q, RErr NoSpace).
Proof.
  intros N. pose proof (r_div_assign_big _ D OK HD x y N) as H.
  split; [eapply room_enough, (r_div_assign _ D OK HD), N|]. split; [exact (room_enough _ _ H)|].
  intros q E. rewrite E in H. exact (H eq_refl).
Qed.
Lemma room_rem_claim x y : normal y ->
  enough_room (rem_assign D x y) /\ enough_room (rem_assign_big D x y)
  /\ forall q, rem_assign_big D x y <> Ret (q, RErr NoSpace).
Proof.
  intros N. pose proof (r_rem_assign_big _ D OK HD x y N) as H.
  split; [eapply room_enough, (r_rem_assign _ D OK HD), N|]. split; [exact (room_enough _ _ H)|].
  intros q E. rewrite E in H. exact (H eq_refl).
Qed.
End Claims.
