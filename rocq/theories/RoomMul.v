(** * RoomMul: multiplication and squaring never run out of result or scratch space. *)
From Coq Require Import ZArith List Bool Lia.
From Verif Require Import Base Digit Slice Mul Spec Hoare DigitOK ListLemmas WorkSize Room.
Import ListNotations.
Open Scope Z_scope.
Open Scope m_scope.

(** ** The leading digit of a carry position stays small *)
Section Top.
Variable B : Z.
Variable D : digit.
Hypothesis OK : digit_ok B D.
Hypothesis HD : digit_room D.
Let B100 : 100 <= B := ok_base B D OK.

(** the last digit of [l] is between 0 and [c] *)
Definition topped (c : Z) (l : digits) : Prop := l <> [] /\ 0 <= last l 0 <= c.
(** the first [n] digits of [l] fit in [b] digits, or in [S b] with a small last one *)
Definition capped (b : nat) (c : Z) (l : digits) (n : nat) : Prop :=
  (n <= b)%nat \/ (n = S b /\ topped c (firstn n l)).

Lemma last_app_r (l m : digits) : m <> [] -> last (l ++ m) 0 = last m 0.
Proof.
  intros Hm. induction l as [|d l IH]; [reflexivity|]. cbn [app].
  destruct (l ++ m) eqn:E; [|exact IH]. apply app_eq_nil in E. tauto.
Qed.
Lemma firstn_app_length (l m : digits) : firstn (length l) (l ++ m) = l.
Proof. rewrite firstn_app, Nat.sub_diag, firstn_all. apply app_nil_r. Qed.
Lemma topped_app c l m : topped c m -> topped c (l ++ m).
Proof.
  intros [Hm H]. split; [|rewrite last_app_r; assumption].
  destruct l; [exact Hm|discriminate].
Qed.
Lemma topped_skip c l k : topped c l -> (k < length l)%nat -> topped c (skipn k l).
Proof.
  intros [Hl H] Hk. assert (N : skipn k l <> []) by (intros E; apply (f_equal (@length Z)) in E; revert E; len).
  split; [exact N|]. rewrite <- (firstn_skipn k l) in H. rewrite last_app_r in H by exact N. exact H.
Qed.
Lemma topped_le c c' l : c <= c' -> topped c l -> topped c' l.
Proof. intros Hc [Hl H]. split; [exact Hl|lia]. Qed.
Lemma topped_len c l : topped c l -> (0 < length l)%nat.
Proof. intros [Hl _]. destruct l; [contradiction|cbn; lia]. Qed.
Lemma topped_cons c d l : topped c (d :: l) -> (l = [] /\ 0 <= d <= c) \/ topped c l.
Proof. intros [_ H]. destruct l as [|e l]; [left; auto|right; split; [discriminate|exact H]]. Qed.
Lemma topped_cons_r c d l : topped c l -> topped c (d :: l).
Proof. intros H. exact (topped_app c [d] l H). Qed.

Lemma top_inc c l : c < 90 -> topped c l ->
  room (inc_assign D l) (fun '(l', o) => length l' = length l /\ o = false /\ topped (c + 1) l').
Proof.
  intros Hc. induction l as [|d l IH]; intros T; [destruct T as [T _]; contradiction|]. cbn [inc_assign].
  apply topped_cons in T. destruct T as [[-> Hd]|T].
  - eapply room_bind; [apply room_total, (ok_inc B D OK); lia|]. intros [d' o] [H1 H2]. destruct o; cbn [of_bool] in H2; [nia|].
    apply room_ret. split; [reflexivity|]. split; [reflexivity|]. split; [discriminate|]. cbn [last]. nia.
  - eapply room_bind; [apply (ro_inc D HD)|]. intros [d' o] _. destruct o.
    + eapply room_bind; [apply IH, T|]. intros [l' o] (L & -> & T'). apply room_ret.
      split; [cbn [length]; lia|]. split; [reflexivity|apply topped_cons_r, T'].
    + apply room_ret. split; [reflexivity|]. split; [reflexivity|]. apply topped_cons_r.
      eapply topped_le; [|exact T]. lia.
Qed.
Lemma top_dec c l : c < 90 -> topped c l ->
  room (dec_assign D l) (fun '(l', r) => length l' = length l /\ good (fun _ => topped c l') r).
Proof.
  intros Hc. induction l as [|d l IH]; intros T; [destruct T as [T _]; contradiction|].
  destruct l as [|e l].
  - destruct T as [_ Hd]. cbn [last] in Hd. cbn [dec_assign].
    eapply room_bind; [apply room_total, (ok_dec B D OK); lia|]. intros [d' u] [H1 H2]. destruct u.
    + apply room_ret. split; [reflexivity|discriminate].
    + cbn [of_bool] in H2. destruct (d' =? 0); apply room_ret; (split; [reflexivity|]); (split; [discriminate|]);
        cbn [last]; lia.
  - apply topped_cons in T. destruct T as [[E _]|T]; [discriminate|].
    change (dec_assign D (d :: e :: l)) with
      ('(d, u) <- d_dec D d ;;
       if u then '(t, r) <- dec_assign D (e :: l) ;;
                 Ret (d :: t, match r with ROk n => ROk (S n) | RErr x => RErr x end)
       else Ret (d :: e :: l, ROk (length (d :: e :: l)))).
    eapply room_bind; [apply (ro_dec D HD)|]. intros [d' u] _. destruct u.
    + eapply room_bind; [apply IH, T|]. intros [l' r] [L G]. apply room_ret. split; [cbn [length] in *; lia|].
      destruct r; [apply topped_cons_r, G|exact G].
    + apply room_ret. split; [reflexivity|apply topped_cons_r, T].
Qed.
Lemma top_double c l o : c < 40 -> topped c l ->
  room (double_carry_assign D l o) (fun '(l', o') => length l' = length l /\ o' = false /\ topped (2 * c + 1) l').
Proof.
  intros Hc. revert o. induction l as [|d l IH]; intros o T; [destruct T as [T _]; contradiction|].
  cbn [double_carry_assign]. apply topped_cons in T. destruct T as [[-> Hd]|T].
  - eapply room_bind; [apply room_total, (ok_double B D OK); lia|]. intros [d' o'] [H1 H2].
    assert (of_bool o = 0 \/ of_bool o = 1) by (destruct o; auto).
    destruct o'; cbn [of_bool] in H2; [lia|].
    apply room_ret. split; [reflexivity|]. split; [reflexivity|]. split; [discriminate|]. cbn [last]. lia.
  - eapply room_bind; [apply (ro_double D HD)|]. intros [d' o'] _.
    eapply room_bind; [apply IH, T|]. intros [l' o2] (L & -> & T'). apply room_ret.
    split; [cbn [length]; lia|]. split; [reflexivity|apply topped_cons_r, T'].
Qed.

(** adding or subtracting a number of at most [b] digits *)
Lemma top_add c l m : c < 90 -> (length m < length l)%nat -> topped c l ->
  room (add_assign_big D l m) (fun '(l', o) => length l' = length l /\ o = false /\ topped (c + 1) l').
Proof.
  intros Hc Hm T. unfold add_assign_big. eapply room_bind; [apply room_guard; exact I|]. intros u _.
  eapply room_bind; [apply (r_add_zip D HD)|]. intros [l' o] [L E].
  pose proof (topped_skip c l (length m) T Hm) as Ts. rewrite <- E in Ts.
  destruct o.
  - unfold with_suffix. eapply room_post.
    { apply room_slice_in with (R := fun '(s, o) => length s = (length l' - length m)%nat /\ o = false /\ topped (c + 1) s).
      intros _. rewrite firstn_all2 by len. eapply room_post; [apply top_inc; eassumption|].
      intros [s o] (Ls & H). split; [revert Ls; len|exact H]. }
    intros [x o] (s & -> & (Ls & -> & Tt) & _). split; [len|]. split; [reflexivity|].
    rewrite skipn_all, app_nil_r. apply topped_app, Tt.
  - apply room_ret. split; [exact L|]. split; [reflexivity|].
    rewrite <- (firstn_skipn (length m) l'). apply topped_app. eapply topped_le; [|exact Ts]. lia.
Qed.
Lemma top_sub c l m : c < 90 -> (length m < length l)%nat -> topped c l ->
  room (sub_assign_big D l m) (fun '(l', r) => length l' = length l /\ good (fun _ => topped c l') r).
Proof.
  intros Hc Hm T. unfold sub_assign_big. destruct (Nat.ltb_spec (length l) (length m)); [lia|].
  eapply room_bind; [apply (r_sub_zip D HD)|]. intros [l' o] [L E].
  pose proof (topped_skip c l (length m) T Hm) as Ts. rewrite <- E in Ts.
  destruct o.
  - eapply room_bind.
    { unfold with_suffix.
      apply room_slice_in with (R := fun '(s, r) => length s = (length l' - length m)%nat /\ good (fun _ => topped c s) r).
      intros _. rewrite firstn_all2 by len. eapply room_post; [apply top_dec; eassumption|].
      intros [s o] (Ls & G). split; [revert Ls; len|exact G]. }
    intros [x r] (s & -> & (Ls & G) & _). apply room_ret. split; [len|].
    destruct r; [|exact G]. cbn [good] in *. rewrite skipn_all, app_nil_r. apply topped_app, G.
  - eapply room_bind; [apply room_drop|]. intros n _. apply room_ret. split; [exact L|]. cbn [good].
    rewrite <- (firstn_skipn (length m) l'). apply topped_app, Ts.
Qed.

(** ** the same for a buffer and a digit count *)
Lemma capped_le b c c' l n : c <= c' -> capped b c l n -> capped b c' l n.
Proof. intros Hc [H|[-> T]]; [left; exact H|right; split; [reflexivity|eapply topped_le; eassumption]]. Qed.
Lemma capped_count b c l n : capped b c l n -> (n <= b + 1)%nat.
Proof. intros [H|[-> _]]; lia. Qed.
(** writing a small digit at position [n] *)
Lemma capped_set b c l n v : (n <= b)%nat -> 0 <= v <= c ->
  room (set l n v) (fun l' => length l' = length l /\ capped b c l' (n + 1)).
Proof.
  intros Hn Hv. eapply room_post; [apply room_set|]. intros l' (-> & L & Hl). split; [exact L|].
  destruct (Nat.eq_dec n b) as [->|N]; [|left; lia]. right. split; [lia|].
  replace (b + 1)%nat with (length (firstn b l) + 1)%nat by len.
  rewrite firstn_app_2. apply topped_app. cbn. split; [discriminate|]. cbn [last]. exact Hv.
Qed.
Lemma capped_push b c (o : bool) l n : 1 <= c -> (o = true -> (n <= b)%nat) -> capped b c l n ->
  room (push_carry o l n) (fun '(l', n') => length l' = length l /\ capped b c l' n').
Proof.
  intros Hc Ho C. unfold push_carry. destruct o; [|apply room_ret; auto].
  eapply room_bind; [apply capped_set with (b := b) (c := c); [auto|lia]|]. intros l' H. apply room_ret. exact H.
Qed.
Lemma capped_add b c l n m : 0 <= c < 90 -> (length m <= b)%nat -> capped b c l n ->
  room (with_prefix l n (fun s => add_assign_big D s m))
    (fun '(l', o) => length l' = length l /\ (o = true -> (n <= b)%nat) /\ capped b (c + 1) l' n).
Proof.
  intros Hc Hm C. unfold with_prefix. destruct C as [C|[-> T]].
  - eapply room_post; [apply room_with_prefix with (P := fun _ => any); intros k s Ls;
      apply (r_add_assign_big D HD), Ls|].
    intros [l' o] [L _]. split; [exact L|]. split; [intros _; exact C|left; exact C].
  - eapply room_post.
    + apply room_slice_in with (R := fun '(s, o) => length s = S b /\ o = false /\ topped (c + 1) s).
      intros Hb. change (skipn 0 l) with l. rewrite Nat.sub_0_r.
      assert (Lf : length (firstn (S b) l) = S b) by len.
      eapply room_post; [apply (top_add c); [lia|lia|exact T]|]. intros [s o] (Ls & H). split; [lia|exact H].
    + intros [l' o] (s & -> & (Ls & -> & Tt) & Hb). cbn [firstn app]. split; [len|]. split; [discriminate|].
      right. split; [reflexivity|]. rewrite <- Ls, firstn_app_length. exact Tt.
Qed.
Lemma capped_sub_abs b c l n m : 0 <= c < 90 -> (length m <= b)%nat -> capped b c l n ->
  room (sub_assign_big_abs_sign D l n m)
    (fun '(l', (s, n')) => length l' = length l /\ (s = true -> (n' <= b)%nat) /\ capped b c l' n').
Proof.
  intros Hc Hm C. unfold sub_assign_big_abs_sign. eapply room_bind; [apply room_prefix|]. intros q _.
  destruct (num_lt q m).
  - eapply room_bind.
    { apply room_with_prefix with (P := fun j n => (n <= j)%nat). intros j s Ls.
      apply room_unwrap_with, (r_rsub_assign_big D HD), Ls. }
    intros [l' x] [L [Hx _]]. apply room_ret. cbn [fst snd] in *. split; [exact L|].
    split; [intros _|left]; lia.
  - eapply room_bind with (R := fun '(l', n') => length l' = length l /\ capped b c l' n').
    2: { intros [l' x] [L Cx]. apply room_ret. split; [exact L|]. split; [discriminate|exact Cx]. }
    destruct C as [C|[-> T]].
    + eapply room_post.
      { apply room_with_prefix with (P := fun j n => (n <= j)%nat). intros j s Ls.
        apply room_unwrap_with, (r_sub_assign_big D HD), Ls. }
      intros [l' x] [L [Hx _]]. cbn [fst snd] in *. split; [exact L|]. left. lia.
    + unfold with_prefix. eapply room_post.
      * apply room_slice_in with (R := fun '(s, k) => length s = S b /\ (k <= S b)%nat /\ topped c s).
        intros Hb. change (skipn 0 l) with l. rewrite Nat.sub_0_r.
        assert (Lf : length (firstn (S b) l) = S b) by len.
        unfold unwrap_with. eapply room_bind.
        { assert (R2 : forall (e : M (digits * result nat)) P Q, room e P -> room e Q ->
            room e (fun x => P x /\ Q x)) by (intros [] ? ?; cbn; auto).
          apply R2; [apply (top_sub c); [lia|lia|exact T]|apply (r_sub_assign_big D HD), Lf]. }
        intros [s r] [[Ls G] [_ Hk]]. cbn [snd] in Hk.
        eapply room_bind; [apply room_unwrap with (P := fun k => (k <= S b)%nat /\ topped c s);
          destruct r; [split|]; assumption|].
        intros k [K1 K2]. apply room_ret. split; [lia|]. auto.
      * intros [l' k] (s & -> & (Ls & Hk & Tt) & Hb). cbn [firstn app]. split; [len|].
        destruct (Nat.eq_dec k (S b)) as [->|N]; [|left; lia]. right. split; [reflexivity|].
        rewrite <- Ls, firstn_app_length. exact Tt.
Qed.
Lemma capped_double b c l n : 0 <= c < 40 -> capped b c l n ->
  room (with_prefix l n (fun s => double_carry_assign D s false))
    (fun '(l', o) => length l' = length l /\ (o = true -> (n <= b)%nat) /\ capped b (2 * c + 1) l' n).
Proof.
  intros Hc C. unfold with_prefix. destruct C as [C|[-> T]].
  - eapply room_post; [apply room_with_prefix with (P := fun _ => any); intros k s <-; apply (r_double_loop D HD)|].
    intros [l' o] [L _]. split; [exact L|]. split; [intros _; exact C|left; exact C].
  - eapply room_post.
    + apply room_slice_in with (R := fun '(s, o) => length s = S b /\ o = false /\ topped (2 * c + 1) s).
      intros Hb. change (skipn 0 l) with l. rewrite Nat.sub_0_r.
      eapply room_post; [apply (top_double c); [lia|exact T]|]. intros [s o] (Ls & H).
      split; [rewrite Ls; len|exact H].
    + intros [l' o] (s & -> & (Ls & -> & Tt) & Hb). cbn [firstn app]. split; [len|]. split; [discriminate|].
      right. split; [reflexivity|]. rewrite <- Ls, firstn_app_length. exact Tt.
Qed.
(** [a] is short, or one digit longer with a small last digit; [m] is short *)
Lemma capped_add_into b c a m s : 0 <= c < 90 -> (length m <= b)%nat -> (b + 1 <= length s)%nat ->
  ((length a <= b)%nat \/ (length a = S b /\ topped c a)) ->
  room (add_big_into D a m s)
    (fun '(s', r) => length s' = length s /\ good (fun n => capped b (c + 1) s' n) r).
Proof.
  intros Hc Hm Hs Ha. unfold add_big_into. cbv zeta.
  destruct (Nat.ltb_spec (length s) (Nat.max (length a) (length m))) as [Hx|_]; [lia|].
  eapply room_bind; [apply (r_add_zip_into D HD)|]. intros [s1 o] L1. cbv beta iota in L1.
  destruct Ha as [Ha|[Ha T]].
  - eapply room_bind with (R := fun s2 => length s2 = length s).
    { destruct (_ ?= _)%nat; [apply room_ret; exact L1| |];
        (eapply room_bind; [apply room_suffix|]; intros y _; eapply room_post; [apply room_copy_into|];
         intros x (_ & L & _); lia). }
    intros s2 L2. eapply room_bind with (R := keep (length s) any).
    { destruct o; [|apply room_ret; split; [exact L2|exact I]].
      eapply room_post; [apply room_slice with (P := fun _ => any); intros j z <-; apply (r_inc D HD)|].
      intros [x y] [L _]. split; [cbn [fst] in *; lia|exact I]. }
    intros [s3 v] [L3 _]. cbn [fst] in L3. destruct v.
    + destruct (Nat.leb_spec (length s3) (Nat.max (length a) (length m))); [lia|].
      eapply room_bind; [apply capped_set with (b := b) (c := c + 1); lia|]. intros s4 [L4 C4].
      apply room_ret. split; [lia|exact C4].
    + apply room_ret. split; [exact L3|]. left. lia.
  - replace (Nat.min (length a) (length m)) with (length m) in * by lia.
    replace (Nat.max (length a) (length m)) with (S b) in * by lia.
    destruct (Nat.compare_spec (length a) (length m)) as [E|E|E]; [lia|lia|].
    pose proof (topped_skip c a (length m) T ltac:(lia)) as Ts.
    eapply room_bind with (R := fun s2 => length s2 = length s /\ topped c (skipn (length m) (firstn (S b) s2))).
    { eapply room_bind; [apply room_suffix|]. intros y (-> & Ly & _). eapply room_post; [apply room_copy_into|].
      intros x (-> & L & Lx & Hx). split; [lia|].
      rewrite skipn_firstn_comm, skipn_app, skipn_all2 by len. cbn [app].
      replace (length m - length (firstn (length m) s1))%nat with 0%nat by len. cbn [skipn].
      replace (S b - length m)%nat with (length (skipn (length m) a)) by len.
      rewrite firstn_app_length. exact Ts. }
    intros s2 [L2 T2]. eapply room_bind with
      (R := fun '(s3, v) => length s3 = length s /\ v = false /\ topped (c + 1) (firstn (S b) s3)).
    { destruct o.
      - eapply room_post.
        + apply room_slice_in with (R := fun '(z, v) => length z = (S b - length m)%nat /\ v = false /\ topped (c + 1) z).
          intros Hb. rewrite firstn_skipn_comm.
          replace (length m + (S b - length m))%nat with (S b) by lia.
          eapply room_post; [apply (top_inc c); [lia|exact T2]|]. intros [z v] (Lz & H). split; [rewrite Lz; len|exact H].
        + intros [x v] (z & -> & (Lz & -> & Tz) & Hb). split; [len|]. split; [reflexivity|].
          rewrite app_assoc. replace (S b) with (length (firstn (length m) s2 ++ z)) at 1 by len.
          rewrite firstn_app_length. apply topped_app, Tz.
      - apply room_ret. split; [exact L2|]. split; [reflexivity|].
        rewrite <- (firstn_skipn (length m) (firstn (S b) s2)). apply topped_app.
        eapply topped_le; [|exact T2]. lia. }
    intros [s3 v] (L3 & -> & T3). apply room_ret. split; [exact L3|]. right. auto.
Qed.
Lemma room_unwrap_with_in (e : M (digits * result nat)) (R : digits -> nat -> Prop) (L : digits -> Prop) :
  room e (fun '(l, r) => L l /\ good (R l) r) -> room (unwrap_with e) (fun '(l, n) => L l /\ R l n).
Proof.
  intros H. unfold unwrap_with. eapply room_bind; [exact H|]. intros [l r] [HL G].
  eapply room_bind; [apply room_unwrap; exact G|]. intros n Hn. apply room_ret. split; assumption.
Qed.

Lemma r_eval b x y z p1 pm1 pm2 :
  (length x <= b)%nat -> (length y <= b)%nat -> (length z <= b)%nat ->
  (b + 1 <= length p1)%nat -> (b + 1 <= length pm1)%nat -> (b + 1 <= length pm2)%nat ->
  room (toom3_eval D x y z p1 pm1 pm2) (fun '((p1', n1), (pm1', (_, n2)), (pm2', (_, n3))) =>
    (length p1' = length p1 /\ length pm1' = length pm1 /\ length pm2' = length pm2
    /\ n1 <= b + 1 /\ n2 <= b + 1 /\ n3 <= b + 1)%nat).
Proof.
  intros Hx Hy Hz K1 K2 K3. unfold toom3_eval.
  eapply room_bind; [apply room_unwrap_with_in, capped_add_into with (b := b) (c := 0); [lia|exact Hz|exact K2|left; exact Hx]|].
  intros [a1 n1] [L1 C1]. cbv beta iota in *. change (0 + 1) with 1 in C1.
  assert (Pfx : forall c l n s, capped b c l n -> s = firstn n l -> length s = n ->
    (length s <= b)%nat \/ (length s = S b /\ topped c s)).
  { intros c l n s [C|[-> T]] -> Ls; [left; lia|right; auto]. }
  eapply room_bind; [apply room_prefix|]. intros s (Es & Ls & _).
  eapply room_bind; [apply room_unwrap_with_in, capped_add_into with (b := b) (c := 1); [lia|exact Hy|exact K1|eapply Pfx; eassumption]|].
  intros [a2 n2] [L2 C2]. cbv beta iota in *.
  eapply room_bind; [apply capped_sub_abs with (b := b) (c := 1); [lia|exact Hy|exact C1]|].
  intros [a3 [b3 n3]] (L3 & S3 & C3). cbv beta iota in *.
  eapply room_bind; [apply room_prefix|]. intros s' (Es' & Ls' & _).
  eapply room_bind with (R := fun '(l, (_, k)) => length l = length pm2 /\ capped b 2 l k).
  { destruct b3.
    - specialize (S3 eq_refl). eapply room_post; [apply (r_sub_into_abs D HD); [reflexivity|lia]|].
      intros [l [g k]] [L Hk]. cbn [fst snd] in *. split; [exact L|left; lia].
    - eapply room_bind; [apply room_unwrap_with_in, capped_add_into with (b := b) (c := 1); [lia|exact Hz|exact K3|eapply Pfx; eassumption]|].
      intros [l k] [L C]. apply room_ret. split; [exact L|exact C]. }
  intros [a4 [b4 n4]] [L4 C4].
  eapply room_bind; [apply capped_double with (b := b) (c := 2); [lia|exact C4]|].
  intros [a5 c5] (L5 & S5 & C5). change (2 * 2 + 1) with 5 in C5.
  eapply room_bind; [apply capped_push with (b := b) (c := 5); [lia|exact S5|exact C5]|].
  intros [a6 n6] [L6 C6].
  eapply room_bind with (R := fun '(l, (_, k)) => length l = length pm2 /\ capped b 6 l k).
  { destruct b4.
    - cbv zeta. assert (C6' : capped b 5 a6 (Nat.max n6 (length x))).
      { destruct C6 as [C|[-> T]]; [left; lia|]. right. replace (Nat.max (S b) (length x)) with (S b) by lia. auto. }
      eapply room_bind; [apply capped_add with (b := b) (c := 5); [lia|exact Hx|exact C6']|].
      intros [a7 c7] (L7 & S7 & C7). change (5 + 1) with 6 in C7.
      eapply room_bind; [apply capped_push with (b := b) (c := 6); [lia|exact S7|exact C7]|].
      intros [a8 n8] [L8 C8]. apply room_ret. split; [lia|exact C8].
    - eapply room_post; [apply capped_sub_abs with (b := b) (c := 5); [lia|exact Hx|exact C6]|].
      intros [l [g k]] (L & _ & C). split; [lia|]. eapply capped_le; [|exact C]. lia. }
  intros [a9 [b9 n9]] [L9 C9]. apply room_ret.
  apply capped_count in C2, C3, C9. lia.
Qed.
End Top.

Section Mul.
Variable B : Z.
Variable D : digit.
Hypothesis OK : digit_ok B D.
Hypothesis HD : digit_room D.

Lemma r_with_prefix {A} k l n (f : digits -> M (digits * A)) : length l = k ->
  (forall j s, length s = j -> room (f s) (keep j any)) -> room (with_prefix l n f) (keep k any).
Proof.
  intros <- H. eapply room_post; [apply room_with_prefix with (P := fun _ => any); exact H|].
  intros x [L _]. split; [exact L|exact I].
Qed.
Lemma r_with_suffix {A} k l n (f : digits -> M (digits * A)) : length l = k ->
  (forall j s, length s = j -> room (f s) (keep j any)) -> room (with_suffix l n f) (keep k any).
Proof.
  intros <- H. eapply room_post; [apply room_with_suffix with (P := fun _ => any); exact H|].
  intros x [L _]. split; [exact L|exact I].
Qed.
Lemma keep_any {A} k (e : M (digits * A)) P : room e (keep k P) -> room e (keep k any).
Proof. intros H. eapply room_post; [exact H|]. intros x [L _]. split; [exact L|exact I]. Qed.
Lemma keep_good {A} k (e : M (digits * result A)) P : room e (keep k (good P)) -> room e (keep k (good any)).
Proof.
  intros H. eapply room_post; [exact H|]. intros [l r] [L G]. split; [exact L|].
  destruct r; [exact I|exact G].
Qed.
Lemma r_push k o l n : length l = k -> room (push_carry o l n) (keep k any).
Proof.
  intros <-. unfold push_carry. destruct o; [|apply room_ret; split; [reflexivity|exact I]].
  eapply room_bind; [apply room_set|]. intros l' (_ & L & _). apply room_ret. split; [exact L|exact I].
Qed.

Ltac base := first [assumption | reflexivity | len].
Ltac kk :=
  match goal with
  | |- room (with_prefix _ _ _) _ => apply r_with_prefix; [base|intros ? ? ?; kk]
  | |- room (with_suffix _ _ _) _ => apply r_with_suffix; [base|intros ? ? ?; kk]
  | |- room (unwrap_with _) _ => apply room_unwrap_with; kk
  | |- room (sub_assign_big _ _ _) (keep _ (good _)) => eapply keep_good, (r_sub_assign_big D HD); base
  | |- room (rsub_assign_big _ _ _) (keep _ (good _)) => eapply keep_good, (r_rsub_assign_big D HD); base
  | |- room (add_assign_big _ _ _) _ => eapply keep_any, (r_add_assign_big D HD); base
  | |- room (sub_assign_big _ _ _) _ => eapply keep_any, (r_sub_assign_big D HD); base
  | |- room (rsub_assign_big _ _ _) _ => eapply keep_any, (r_rsub_assign_big D HD); base
  | |- room (sub_assign_big_abs_sign _ _ _ _) _ => eapply keep_any, (r_sub_abs D HD); base
  | |- room (div3_carry_assign _ _ _) _ => eapply keep_any, (r_div3 D HD); base
  | |- room (shr_carry_assign_within_digit _ _ _ _) _ => eapply keep_any, (r_shr D HD); base
  | |- room (shl_carry_assign_within_digit _ _ _ _) _ => eapply keep_any, (r_shl D HD); base
  | H : length ?s = ?j |- room (inc_assign _ ?s) (keep ?j _) => rewrite <- H; eapply keep_any, (r_inc D HD)
  | |- room (push_carry _ _ _) _ => apply r_push; base
  | |- room (Ret _) _ => apply room_ret; split; [cbn [fst]; base|exact I]
  end.
Ltac un := let L := fresh "L" in intros [? ?] [L _]; cbn [fst] in L;
  repeat match goal with x : (_ * _)%type |- _ => destruct x end.
(* next step of a computation whose first part returns a list of length [k] *)
Tactic Notation "st" constr(k) := apply room_bind with (R := keep k any); [repeat kk|un].
Ltac pre := eapply room_bind; [apply room_prefix|]; intros ? (_ & ? & _).

Lemma r_combine neg s n r z n0 n1 n2 :
  room (karatsuba_combine D neg s n r z n0 n1 n2)
    (fun '(r', z', _) => length r' = length r /\ length z' = length z).
Proof.
  unfold karatsuba_combine. eapply room_bind; [apply room_split_at|]. intros [z0 z2] _.
  pre. pre.
  apply room_bind with (R := fun '(z', r', _) => length z' = length z /\ length r' = length r).
  { destruct neg; cbv zeta.
    - st (length z). st (length z). st (length r); [destruct b; kk|].
      st (length r); [destruct b0; kk|]. apply room_ret. auto.
    - pre. destruct (num_lt _ _).
      + st (length z). st (length z). st (length r); [destruct b; kk|]. apply room_ret. auto.
      + st (length z). pre. eapply room_bind; [apply room_assert|]. intros u _. st (length z).
        apply room_ret. auto. }
  intros [[z' r'] k] [L1 L2]. pre. st (length r).
  eapply room_bind; [apply room_guard; exact I|]. intros u _.
  eapply room_bind; [apply room_drop|]. intros j _. apply room_ret. auto.
Qed.

Lemma r_interpolate b n r r1 r2 r3 l1 lm1 lm2 l0 l4 s1 s2 :
  room (toom3_interpolate D b n r r1 r2 r3 l1 lm1 lm2 l0 l4 s1 s2)
    (fun '(r', (x, y, z), _) => length r' = length r /\ length x = length r1 /\ length y = length r2
      /\ length z = length r3).
Proof.
  unfold toom3_interpolate. eapply room_bind; [apply room_split_at|]. intros [a0 a4] _.
  pre. pre. cbv zeta. pre.
  st (length r3). { destruct s2; st (length r3); kk. }
  st (length r3). pre. st (length r1). { destruct s1; st (length r1); kk. }
  st (length r1). st (length r2). { destruct s1; [|kk]. st (length r2). st (length r2). kk. }
  pre. st (length r3). { destruct (xorb _ _); st (length r3); kk. }
  st (length r3). pre.
  st (length r3).
  { destruct (negb _).
    - st (length r3). st (length r3). st (length r3). kk.
    - destruct (num_lt _ _); [st (length r3); st (length r3); kk|]. st (length r3). kk. }
  pre. st (length r2). { destruct b3; [kk|]. st (length r2). kk. }
  st (length r2). pre. st (length r1). pre. pre. st (length r). st (length r). st (length r).
  eapply room_bind; [apply room_drop|]. intros j _. apply room_ret. auto.
Qed.

Lemma r_parts l b : (length l <= 3 * b)%nat ->
  room (toom3_parts l b) (fun '(x, y, z) => (length x <= Nat.min b (length l) /\ length y <= b
    /\ length z = length l - Nat.min (2 * b) (length l))%nat).
Proof.
  intros H. unfold toom3_parts. cbv zeta. eapply room_bind; [apply room_drop|]. intros n Hn; cbv beta in Hn.
  eapply room_bind; [apply room_prefix|]. intros p (_ & Lp & _).
  eapply room_bind; [apply room_suffix|]. intros hi _.
  eapply room_bind; [apply room_drop|]. intros k Hk; cbv beta in Hk.
  eapply room_bind; [apply room_sub_slice|]. intros q (_ & Lq & _).
  eapply room_bind; [apply room_suffix|]. intros t (_ & Lt & _). apply room_ret. lia.
Qed.

(** What is asked of a multiplication routine on operands of lengths satisfying [P]. *)
Definition mroom (rec : mul_fn) : Prop := forall l m r w,
  (length l <> 0 -> length m <> 0 -> length l + length m <= length r)%nat ->
  (need (length l) (length m) <= length w)%nat ->
  room (rec l m r w) (fun '(r', w', _) => length r' = length r /\ length w' = length w).
Definition sroom (rec : square_fn) : Prop := forall l r w,
  (length l <> 0 -> 2 * length l <= length r)%nat ->
  (need (length l) (length l) <= length w)%nat ->
  room (rec l r w) (fun '(r', w', _) => length r' = length r /\ length w' = length w).

Ltac splitat := eapply room_bind; [apply room_split_at|];
  intros [? ?] (_ & _ & ? & ? & ?).

Lemma r_karatsuba rec l m r w : mroom rec -> (length l + length m <= length r)%nat ->
  (20 <= length l)%nat -> (20 <= length m)%nat -> (Nat.min (length l) (length m) < 128)%nat ->
  (calc_karatsuba_work_size (Nat.max (length l) (length m)) <= length w)%nat ->
  room (mul_big_karatsuba_into D rec l m r w) (fun '(r', w', _) => length r' = length r /\ length w' = length w).
Proof.
  intros Hrec Hr Hl Hm Hmin Hw. unfold mul_big_karatsuba_into. cbv zeta.
  eapply room_bind; [apply room_guard; exact I|]. intros u0 _.
  eapply room_bind; [apply room_guard_true, Nat.leb_le, Hw|]. intros u1 _.
  rewrite k_step in Hw by lia. pose proof (split_bounds (Nat.max (length l) (length m))) as SB.
  set (sp := Nat.div2 (Nat.max (length l) (length m) + 1)) in *.
  assert (Hneed : forall a b, (a <= sp)%nat -> (b <= sp)%nat -> (a <= length l)%nat -> (b <= length m)%nat ->
    (need a b <= calc_karatsuba_work_size sp)%nat) by (intros; apply need_le_k; lia).
  eapply room_bind; [apply room_split_at|]. intros [low0 high0] (_ & _ & A0 & A1 & _).
  eapply room_bind; [apply room_drop|]. intros nl0 Nl0; cbv beta in Nl0.
  eapply room_bind; [apply room_split_at|]. intros [low1 high1] (_ & _ & B0 & B1 & _).
  eapply room_bind; [apply room_drop|]. intros nl1 Nl1; cbv beta in Nl1.
  eapply room_bind; [apply room_split_at|]. intros [diff0 diff1] (_ & _ & C0 & C1 & C2).
  eapply room_bind; [apply room_prefix|]. intros lo0 (_ & E0 & _).
  eapply room_bind; [apply room_prefix|]. intros lo1 (_ & E1 & _).
  eapply room_bind; [apply (r_sub_into_abs D HD); [reflexivity|lia]|]. intros [df0 [s0 nd0]] [F0 G0].
  eapply room_bind; [apply (r_sub_into_abs D HD); [reflexivity|lia]|]. intros [df1 [s1 nd1]] [F1 G1].
  cbn [fst snd] in *.
  eapply room_bind; [apply room_split_at|]. intros [z1 nw] (_ & _ & H0 & H1 & _).
  eapply room_bind; [apply room_prefix|]. intros d0 (_ & I0 & _).
  eapply room_bind; [apply room_prefix|]. intros d1 (_ & I1 & _).
  eapply room_bind; [apply Hrec; [len|rewrite H1; etransitivity; [apply Hneed; lia|lia]]|].
  intros [[z1' w1] k1] [J1 K1].
  eapply room_bind; [apply room_fill_zero|]. intros res [Lres _]. rewrite app_length in Lres.
  eapply room_bind; [apply room_split_at|]. intros [z0 z2] (_ & _ & M0 & M1 & M2).
  eapply room_bind; [apply Hrec; [lia|rewrite K1, H1; etransitivity; [apply Hneed; lia|lia]]|].
  intros [[z0' w2] k0] [J2 K2].
  eapply room_bind; [apply Hrec; [lia|rewrite K2, K1, H1; etransitivity; [apply Hneed; lia|lia]]|].
  intros [[z2' w3] k2] [J3 K3].
  eapply room_bind; [apply r_combine|]. intros [[r' z1''] k] [N0 N1]. apply room_ret.
  rewrite !app_length in *. rewrite zeros_length in J1. lia.
Qed.

Lemma r_square_karatsuba rec l r w : sroom rec -> (2 * length l <= length r)%nat ->
  (20 <= length l < 128)%nat -> (calc_karatsuba_work_size (length l) <= length w)%nat ->
  room (square_karatsuba_into D rec l r w) (fun '(r', w', _) => length r' = length r /\ length w' = length w).
Proof.
  intros Hrec Hr Hl Hw. unfold square_karatsuba_into. cbv zeta.
  eapply room_bind; [apply room_guard; exact I|]. intros u0 _.
  eapply room_bind; [apply room_guard_true, Nat.leb_le, Hw|]. intros u1 _.
  rewrite k_step in Hw by lia. pose proof (split_bounds (length l)) as SB.
  set (sp := Nat.div2 (length l + 1)) in *.
  assert (Hneed : forall a, (a <= sp)%nat -> (need a a <= calc_karatsuba_work_size sp)%nat)
    by (intros; apply need_le_k; lia).
  eapply room_bind; [apply room_drop|]. intros nl0 Nl0; cbv beta in Nl0.
  eapply room_bind; [apply room_prefix|]. intros lo0 (_ & E0 & _).
  eapply room_bind; [apply room_suffix|]. intros hi0 (_ & E1 & _).
  eapply room_bind; [apply (r_sub_into_abs D HD); [reflexivity|lia]|]. intros [df0 [s0 nd0]] [F0 G0].
  cbn [fst snd] in *.
  eapply room_bind; [apply room_split_at|]. intros [z1 nw] (_ & _ & H0 & H1 & _).
  eapply room_bind; [apply room_prefix|]. intros d0 (_ & I0 & _).
  eapply room_bind; [apply Hrec; [len|rewrite H1; etransitivity; [apply Hneed; lia|lia]]|].
  intros [[z1' w1] k1] [J1 K1].
  eapply room_bind; [apply room_fill_zero|]. intros res [Lres _].
  eapply room_bind; [apply room_split_at|]. intros [z0 z2] (_ & _ & M0 & M1 & M2).
  eapply room_bind; [apply Hrec; [lia|rewrite K1, H1; etransitivity; [apply Hneed; lia|lia]]|].
  intros [[z0' w2] k0] [J2 K2].
  eapply room_bind; [apply Hrec; [lia|rewrite K2, K1, H1; etransitivity; [apply Hneed; lia|lia]]|].
  intros [[z2' w3] k2] [J3 K3].
  eapply room_bind; [apply r_combine|]. intros [[r' z1''] k] [N0 N1]. apply room_ret.
  rewrite !app_length in *. rewrite zeros_length in J1. lia.
Qed.

Lemma r_clear l n : room (clear_from l n) (fun l' => length l' = length l).
Proof. unfold clear_from. eapply room_post; [apply room_fill_zero|]. intros x [L _]. exact L. Qed.

Lemma r_toom3 rec l m r w : mroom rec -> (length l + length m <= length r)%nat ->
  (128 <= length l)%nat -> (128 <= length m)%nat ->
  (calc_toom3_work_size (Nat.max (length l) (length m)) <= length w)%nat ->
  room (mul_big_toom3_into D rec l m r w) (fun '(r', w', _) => length r' = length r /\ length w' = length w).
Proof.
  intros Hrec Hr Hl Hm Hw. unfold mul_big_toom3_into. cbv zeta.
  eapply room_bind; [apply room_guard; exact I|]. intros u0 _.
  eapply room_bind; [apply room_guard_true, Nat.leb_le, Hw|]. intros u1 _.
  rewrite t_step in Hw by lia. pose proof (third_bounds (Nat.max (length l) (length m))) as TB.
  set (b := ((Nat.max (length l) (length m) + 2) / 3)%nat) in *.
  assert (Hneed : forall x y, (x <= b + 1)%nat -> (y <= b + 1)%nat ->
    (need x y <= calc_toom3_work_size (b + 2))%nat) by (intros; apply need_le; lia).
  assert (N1 : (length l <= 3 * b)%nat) by (clear - TB; lia).
  assert (N2 : (length m <= 3 * b)%nat) by (clear - TB; lia).
  assert (S3 : (2 * b + 3 <= length r)%nat) by (clear - TB Hr Hl Hm; lia).
  clear TB Hl Hm.
  eapply room_bind; [apply room_split_at|]. intros [pm2 qm2] (_ & _ & A0 & A1 & _). rewrite zeros_length in A1.
  eapply room_bind; [apply room_split_at|]. intros [wrk nw] (_ & _ & A2 & A3 & A4).
  eapply room_bind; [apply room_split_at|]. intros [r1 wk] (_ & _ & A5 & A6 & _). rewrite zeros_length in A6.
  eapply room_bind; [apply room_split_at|]. intros [rm1 rm2] (_ & _ & A7 & A8 & _).
  eapply room_bind; [apply room_split_at|]. intros [p1 q1] (_ & _ & A9 & A10 & _).
  eapply room_bind; [apply room_split_at|]. intros [pm1 qm1] (_ & _ & A11 & A12 & A13).
  assert (P1 : (b + 1 <= length p1 /\ b + 1 <= length q1)%nat) by (clear - A7 A9 A10; lia).
  assert (P2 : (b + 1 <= length pm1 /\ b + 1 <= length qm1)%nat) by (clear - A2 A6 A8 A11 A12; lia).
  assert (P3 : (b + 1 <= length pm2 /\ b + 1 <= length qm2)%nat) by (clear - A0 A1 S3; lia).
  destruct P1 as [P1 Q1], P2 as [P2 Q2], P3 as [P3 Q3].
  eapply room_bind; [apply r_parts; assumption|]. intros [[p0 m1] pinf] (B0 & B1 & B2).
  eapply room_bind; [apply (r_eval B D OK HD b); [clear - B0; lia|clear - B1; lia|clear - B2 N1; lia|assumption|assumption|assumption]|].
  intros [[[p1' n1] [pm1' [s1 n2]]] [pm2' [s2 n3]]] (C0 & C1 & C2 & C3 & C4 & C5).
  eapply room_bind; [apply r_parts; assumption|]. intros [[q0 m2] qinf] (D0 & D1 & D2).
  eapply room_bind; [apply (r_eval B D OK HD b); [clear - D0; lia|clear - D1; lia|clear - D2 N2; lia|assumption|assumption|assumption]|].
  intros [[[q1' k1] [qm1' [t1 k2]]] [qm2' [t2 k3]]] (E0 & E1 & E2 & E3 & E4 & E5).
  assert (S0 : (length p0 <= b /\ length q0 <= b /\ length pinf <= b /\ length qinf <= b)%nat)
    by (split; [clear - B0|split; [clear - D0|split; [clear - B2 N1|clear - D2 N2]]]; lia).
  assert (S1 : (length p0 + length q0 <= Nat.min (4 * b) (length r))%nat) by (clear - B0 D0 Hr; lia).
  assert (S2 : (length pinf <> 0 -> length qinf <> 0 ->
    length pinf + length qinf <= length r - Nat.min (4 * b) (length r))%nat) by (clear - B2 D2 Hr; lia).
  assert (S4 : (length pm2' + length qm2' = length r)%nat) by (clear - A0 A1 C2 E2 S3; lia).
  assert (S5 : (length p1' + length q1' = 2 * b + 3)%nat) by (clear - A7 A9 A10 C0 E0; lia).
  assert (S6 : (length pm1' + length qm1' = 2 * b + 4)%nat) by (clear - A8 A6 A2 A11 A12 A13 C1 E1; lia).
  assert (S7 : (calc_toom3_work_size (b + 2) <= length nw)%nat) by (clear - A3 Hw; lia).
  clear P1 P2 P3 Q1 Q2 Q3 B0 B1 B2 D0 D1 D2 Hw N1 N2 Hr A0 A1 A2 A6 A7 A8 A9 A10 A11 A12 A13 C0 C1 C2 E0 E1 E2.
  eapply room_bind; [apply room_prefix|]. intros x1 (_ & X1 & _).
  eapply room_bind; [apply room_prefix|]. intros y1 (_ & Y1 & _).
  eapply room_bind; [apply Hrec; [lia|etransitivity; [apply Hneed; lia|lia]]|].
  intros [[r1' w1] nr1] [F0 F1].
  eapply room_bind; [apply room_prefix|]. intros x2 (_ & X2 & _).
  eapply room_bind; [apply room_prefix|]. intros y2 (_ & Y2 & _).
  eapply room_bind; [apply Hrec; [len|etransitivity; [apply Hneed; lia|lia]]|].
  intros [[rm1' w2] nr2] [G0 G1]. rewrite app_length in G0.
  eapply room_bind; [apply r_clear|]. intros rm1'' G2. cbv beta in G2.
  eapply room_bind; [apply room_prefix|]. intros x3 (_ & X3 & _).
  eapply room_bind; [apply room_prefix|]. intros y3 (_ & Y3 & _).
  eapply room_bind; [apply Hrec; [len|etransitivity; [apply Hneed; lia|lia]]|].
  intros [[rm2' w3] nr3] [H0 H1]. rewrite app_length in H0.
  eapply room_bind; [apply r_clear|]. intros rm2'' H2. cbv beta in H2.
  eapply room_bind; [apply room_fill_zero|]. intros res [I0 _]. rewrite app_length in I0.
  eapply room_bind; [apply room_split_at|]. intros [r0 r4] (_ & _ & J0 & J1 & _).
  eapply room_bind; [apply Hrec; [lia|etransitivity; [apply Hneed; lia|lia]]|].
  intros [[r0' w4] nr0] [K0 K1].
  eapply room_bind; [apply Hrec; [lia|etransitivity; [apply Hneed; lia|lia]]|].
  intros [[r4' w5] nr4] [L0 L1].
  eapply room_bind; [apply r_interpolate|].
  intros [[r' [[x y] z]] k] (M0 & M1 & M2 & M3). apply room_ret. rewrite !app_length in *. lia.
Qed.

Lemma r_square_toom3 rec l r w : sroom rec -> (2 * length l <= length r)%nat ->
  (128 <= length l)%nat -> (calc_toom3_work_size (length l) <= length w)%nat ->
  room (square_toom3_into D rec l r w) (fun '(r', w', _) => length r' = length r /\ length w' = length w).
Proof.
  intros Hrec Hr Hl Hw. unfold square_toom3_into. cbv zeta.
  eapply room_bind; [apply room_guard; exact I|]. intros u0 _.
  eapply room_bind; [apply room_guard_true, Nat.leb_le, Hw|]. intros u1 _.
  rewrite t_step in Hw by lia. pose proof (third_bounds (length l)) as TB.
  set (b := ((length l + 2) / 3)%nat) in *.
  assert (Hneed : forall x, (x <= b + 1)%nat ->
    (need x x <= calc_toom3_work_size (b + 2))%nat) by (intros; apply need_le; lia).
  assert (N1 : (length l <= 3 * b)%nat) by (clear - TB; lia).
  assert (S3 : (3 * b + 3 <= length r)%nat) by (clear - TB Hr Hl; lia).
  clear TB Hl.
  eapply room_bind; [apply room_split_at|]. intros [p1 rs] (_ & _ & A0 & A1 & A1').
  eapply room_bind; [apply room_split_at|]. intros [pm1 pm2] (_ & _ & A9 & A10 & A10').
  eapply room_bind; [apply room_split_at|]. intros [wrk nw] (_ & _ & A2 & A3 & A4).
  eapply room_bind; [apply room_split_at|]. intros [r1 wk] (_ & _ & A5 & A6 & _).
  eapply room_bind; [apply room_split_at|]. intros [rm1 rm2] (_ & _ & A7 & A8 & _).
  assert (P1 : (b + 1 <= length p1)%nat) by (clear - A0; lia).
  assert (P2 : (b + 1 <= length pm1)%nat) by (clear - A9; lia).
  assert (P3 : (b + 1 <= length pm2)%nat) by (clear - A10 A1 S3; lia).
  eapply room_bind; [apply r_parts; assumption|]. intros [[p0 m1] pinf] (B0 & B1 & B2).
  eapply room_bind; [apply (r_eval B D OK HD b); [clear - B0; lia|clear - B1; lia|clear - B2 N1; lia|assumption|assumption|assumption]|].
  intros [[[p1' n1] [pm1' [s1 n2]]] [pm2' [s2 n3]]] (C0 & C1 & C2 & C3 & C4 & C5).
  assert (S0 : (length p0 <= b /\ length pinf <= b)%nat) by (split; [clear - B0|clear - B2 N1]; lia).
  assert (S1 : (2 * length p0 <= Nat.min (4 * b) (length r))%nat) by (clear - B0 Hr; lia).
  assert (S2 : (length pinf <> 0 ->
    2 * length pinf <= length r - Nat.min (4 * b) (length r))%nat) by (clear - B2 Hr; lia).
  assert (S4 : (length p1' + (length pm1' + length pm2') = length r)%nat)
    by (clear - A0 A1 A1' A9 A10 A10' C0 C1 C2; lia).
  assert (S7 : (calc_toom3_work_size (b + 2) <= length nw)%nat) by (clear - A3 Hw; lia).
  clear P1 P2 P3 B0 B1 B2 Hw N1 Hr A0 A1 A1' A9 A10 A10' C0 C1 C2.
  eapply room_bind; [apply room_prefix|]. intros x1 (_ & X1 & _).
  eapply room_bind; [apply Hrec; [lia|etransitivity; [apply Hneed; lia|lia]]|].
  intros [[r1' w1] nr1] [F0 F1].
  eapply room_bind; [apply room_prefix|]. intros x2 (_ & X2 & _).
  eapply room_bind; [apply Hrec; [lia|etransitivity; [apply Hneed; lia|lia]]|].
  intros [[rm1' w2] nr2] [G0 G1].
  eapply room_bind; [apply r_clear|]. intros rm1'' G2. cbv beta in G2.
  eapply room_bind; [apply room_prefix|]. intros x3 (_ & X3 & _).
  eapply room_bind; [apply Hrec; [lia|etransitivity; [apply Hneed; lia|lia]]|].
  intros [[rm2' w3] nr3] [H0 H1].
  eapply room_bind; [apply r_clear|]. intros rm2'' H2. cbv beta in H2.
  eapply room_bind; [apply room_fill_zero|]. intros res [I0 _]. rewrite !app_length in I0.
  eapply room_bind; [apply room_split_at|]. intros [r0 r4] (_ & _ & J0 & J1 & _).
  eapply room_bind; [apply Hrec; [lia|etransitivity; [apply Hneed; lia|lia]]|].
  intros [[r0' w4] nr0] [K0 K1].
  eapply room_bind; [apply Hrec; [lia|etransitivity; [apply Hneed; lia|lia]]|].
  intros [[r4' w5] nr4] [L0 L1].
  eapply room_bind; [apply r_interpolate|].
  intros [[r' [[x y] z]] k] (M0 & M1 & M2 & M3). apply room_ret. rewrite !app_length in *. lia.
Qed.

Lemma need_toom n0 n1 : (128 <= n0)%nat -> (128 <= n1)%nat -> need n0 n1 = calc_toom3_work_size (Nat.max n0 n1).
Proof.
  intros H0 H1. unfold need. rewrite (proj2 (Nat.leb_le 128 n0) H0), (proj2 (Nat.leb_le 128 n1) H1). reflexivity.
Qed.
Lemma need_kara n0 n1 : (20 <= n0)%nat -> (20 <= n1)%nat -> (Nat.min n0 n1 < 128)%nat ->
  need n0 n1 = calc_karatsuba_work_size (Nat.max n0 n1).
Proof.
  intros H0 H1 H. unfold need.
  destruct (Nat.leb_spec 128 n0), (Nat.leb_spec 128 n1); cbn [andb]; try lia;
    rewrite (proj2 (Nat.leb_le 20 n0) H0), (proj2 (Nat.leb_le 20 n1) H1); reflexivity.
Qed.

Lemma r_mul_dispatch rec : mroom rec -> mroom (mul_dispatch D rec).
Proof.
  intros Hrec l m r w Hr Hw. unfold mul_dispatch, TOOM3_CUTOFF, KARATSUBA_CUTOFF. cbv zeta.
  destruct (Nat.eqb_spec (length l) 0); cbn [orb]; [apply room_ret; auto|].
  destruct (Nat.eqb_spec (length m) 0); [apply room_ret; auto|].
  specialize (Hr ltac:(assumption) ltac:(assumption)).
  eapply room_bind; [apply room_guard_true, Nat.leb_le, Hr|]. intros u _.
  assert (Short : room ('(p, n) <- mul_big_long_into D l m r ;; Ret (p, w, n))
    (fun '(r', w', _) => length r' = length r /\ length w' = length w)).
  { eapply room_bind; [apply (r_mul_long D HD)|]. intros [p k] [L _]. apply room_ret. auto. }
  destruct (Nat.leb_spec 128 (length l)), (Nat.leb_spec 128 (length m)); cbn [andb];
    try (apply r_toom3; try assumption; rewrite <- need_toom by lia; exact Hw);
    destruct (Nat.leb_spec 20 (length l)), (Nat.leb_spec 20 (length m)); cbn [andb]; try exact Short;
    apply r_karatsuba; try assumption; try lia; rewrite <- need_kara by lia; exact Hw.
Qed.
Lemma r_mul_fuel f : mroom (mul_fuel D f).
Proof.
  induction f as [|f IH]; [intros l m r w _ _; exact I|]. apply r_mul_dispatch, IH.
Qed.
Lemma r_mul_with_work : mroom (mul_big_into_with_work D).
Proof. intros l m r w. apply r_mul_fuel. Qed.
Lemma r_mul_into l m r : (length l <> 0 -> length m <> 0 -> length l + length m <= length r)%nat ->
  room (mul_big_into D l m r) (fun '(r', _) => length r' = length r).
Proof.
  intros Hr. unfold mul_big_into, TOOM3_CUTOFF, KARATSUBA_CUTOFF. cbv zeta.
  destruct (Nat.eqb_spec (length l) 0); cbn [orb]; [apply room_ret; auto|].
  destruct (Nat.eqb_spec (length m) 0); [apply room_ret; auto|].
  specialize (Hr ltac:(assumption) ltac:(assumption)).
  eapply room_bind; [apply room_guard_true, Nat.leb_le, Hr|]. intros u _.
  assert (Short : room (mul_big_long_into D l m r) (fun '(r', _) => length r' = length r)).
  { eapply room_post; [apply (r_mul_long D HD)|]. intros [p k] [L _]. exact L. }
  destruct (Nat.leb_spec 128 (length l)), (Nat.leb_spec 128 (length m)); cbn [andb];
    try (eapply room_bind; [apply r_toom3; try assumption; [apply r_mul_fuel|rewrite zeros_length; lia]|];
         intros [[p w] k] [L _]; exact L);
    destruct (Nat.leb_spec 20 (length l)), (Nat.leb_spec 20 (length m)); cbn [andb]; try exact Short;
    (eapply room_bind; [apply r_karatsuba; try assumption; try lia; [apply r_mul_fuel|rewrite zeros_length; lia]|];
     intros [[p w] k] [L _]; exact L).
Qed.

Lemma r_square_dispatch rec : sroom rec -> sroom (square_dispatch D rec).
Proof.
  intros Hrec l r w Hr Hw. unfold square_dispatch, TOOM3_CUTOFF, KARATSUBA_CUTOFF. cbv zeta.
  destruct (Nat.eqb_spec (length l) 0); [apply room_ret; auto|].
  specialize (Hr ltac:(assumption)).
  eapply room_bind; [apply room_guard_true, Nat.leb_le, Hr|]. intros u _.
  destruct (Nat.leb_spec 128 (length l)).
  { apply r_square_toom3; try assumption. rewrite need_toom, Nat.max_id in Hw by lia. exact Hw. }
  destruct (Nat.leb_spec 20 (length l)).
  { apply r_square_karatsuba; try assumption; try lia. rewrite need_kara, Nat.max_id in Hw by lia. exact Hw. }
  eapply room_bind; [apply (r_square_long D HD)|]. intros [p k] [L _]. apply room_ret. auto.
Qed.
Lemma r_square_fuel f : sroom (square_fuel D f).
Proof.
  induction f as [|f IH]; [intros l r w _ _; exact I|]. apply r_square_dispatch, IH.
Qed.
Lemma r_square_into l r : (length l <> 0 -> 2 * length l <= length r)%nat ->
  room (square_into D l r) (fun '(r', _) => length r' = length r).
Proof.
  intros Hr. unfold square_into, TOOM3_CUTOFF, KARATSUBA_CUTOFF. cbv zeta.
  destruct (Nat.eqb_spec (length l) 0); [apply room_ret; auto|].
  specialize (Hr ltac:(assumption)).
  eapply room_bind; [apply room_guard_true, Nat.leb_le, Hr|]. intros u _.
  destruct (Nat.leb_spec 128 (length l)).
  { eapply room_bind; [apply r_square_toom3; try assumption; [apply r_square_fuel|rewrite zeros_length; lia]|].
    intros [[p w] k] [L _]. exact L. }
  destruct (Nat.leb_spec 20 (length l)).
  { eapply room_bind; [apply r_square_karatsuba; try assumption; try lia; [apply r_square_fuel|rewrite zeros_length; lia]|].
    intros [[p w] k] [L _]. exact L. }
  eapply room_post; [apply (r_square_long D HD)|]. intros [p k] [L _]. exact L.
Qed.
End Mul.
