(** * EndsLow: a square whose argument ends in a zero digit ends in a zero digit, even
    where the square is wrong (C15); so it is never a single digit. *)
From Coq Require Import ZArith List Bool Lia.
From Verif Require Import Base Digit Slice Mul UBig Hoare ListLemmas Gives Ends.
Import ListNotations.
Open Scope Z_scope.
Open Scope m_scope.

(** a number or buffer whose lowest digit is present and zero *)
Definition low (l : digits) : Prop := exists r, l = 0 :: r.

Lemma low_app l m : low l -> low (l ++ m).
Proof. intros [r ->]. exists (r ++ m). reflexivity. Qed.
Lemma low_firstn n l : (1 <= n)%nat -> low l -> low (firstn n l).
Proof. intros Hn [r ->]. destruct n; [lia|]. exists (firstn n r). reflexivity. Qed.
Lemma low_length l : low l -> (1 <= length l)%nat.
Proof. intros [r ->]. cbn [length]. lia. Qed.

Lemma low_with_slice {A} l i j (f : digits -> M (digits * A)) : (1 <= i)%nat -> low l ->
  gives (with_slice l i j f) (fun '(l', _) => low l').
Proof.
  intros Hi Hl. unfold with_slice. apply gives_any. intros s. apply gives_any. intros [s' a].
  apply gives_ret. apply low_app, low_firstn; assumption.
Qed.
Lemma low_with_suffix {A} l i (f : digits -> M (digits * A)) : (1 <= i)%nat -> low l ->
  gives (with_suffix l i f) (fun '(l', _) => low l').
Proof. apply low_with_slice. Qed.
Lemma low_with_prefix {A} l n (f : digits -> M (digits * A)) : (1 <= n)%nat -> low l ->
  (forall s, low s -> gives (f s) (fun '(s', _) => low s')) ->
  gives (with_prefix l n f) (fun '(l', _) => low l').
Proof.
  intros Hn Hl Hf. unfold with_prefix, with_slice.
  apply gives_bind with (R := low).
  { intros s E. unfold sub_slice in E. destruct (_ && _); [|discriminate E]. injection E as <-.
    rewrite Nat.sub_0_r. apply low_firstn; assumption. }
  intros s Hs. eapply gives_bind; [apply Hf, Hs|]. intros [s' a] H. apply gives_ret.
  cbn [firstn app]. apply low_app, H.
Qed.
Lemma low_set l i v : (1 <= i)%nat -> low l -> gives (set l i v) low.
Proof.
  intros Hi Hl l' E. unfold set in E. destruct (_ <? _)%nat; [|discriminate E]. injection E as <-.
  apply low_app, low_firstn; assumption.
Qed.
Lemma low_fill l n : (1 <= n)%nat -> gives (fill_zero l 0 n) low.
Proof.
  intros Hn. unfold fill_zero, with_slice.
  apply gives_bind with (R := fun '(l', _) => low l').
  { eapply gives_bind; [apply sub_slice_gives|]. intros s [Ls _]. cbn [bind]. apply gives_ret.
    cbn [firstn app]. apply low_app. destruct s; [cbn [length] in Ls; lia|]. cbn [length].
    eexists. reflexivity. }
  intros [l' []] H. apply gives_ret. exact H.
Qed.
Lemma low_split l n : (1 <= n)%nat -> low l -> gives (split_at l n) (fun '(a, _) => low a).
Proof.
  intros Hn Hl [a b] E. unfold split_at in E. destruct (_ <=? _)%nat; [|discriminate E].
  injection E as <- <-. apply low_firstn; assumption.
Qed.
(** [n] digits of [l], not exactly one *)
Definition cut (m : nat) (l : digits) (n : nat) : Prop := (n <> 1 /\ n <= m /\ n <= length l)%nat.
Lemma low_drop l n : low l -> gives (drop_leading_zeros l n) (cut n l).
Proof.
  intros Hl. induction n as [|n IH]; cbn [drop_leading_zeros]; [apply gives_ret; unfold cut; lia|].
  apply gives_bind with (R := fun d => (n = 0%nat -> d = 0) /\ (n < length l)%nat).
  { intros d E. unfold get in E. destruct (nth_error l n) eqn:En; [|discriminate E]. injection E as ->.
    split; [|apply nth_error_Some; congruence]. intros ->. destruct Hl as [r ->]. injection En as <-. reflexivity. }
  intros d [Hd Hn]. destruct (Z.eqb_spec d 0) as [|Hz].
  - eapply gives_post; [exact IH|]. unfold cut. intros a. cbn. lia.
  - apply gives_ret. unfold cut. lia.
Qed.
Lemma hd_prefix l n : hd 0 l = 0 -> gives (prefix l n) (fun s => hd 0 s = 0).
Proof.
  intros Hl s E. unfold prefix, sub_slice in E. destruct (_ && _); [|discriminate E]. injection E as <-.
  rewrite Nat.sub_0_r. destruct l, n; cbn in *; auto.
Qed.

Section Squares.
Variable dbg : bool.
Variable t : dty.
Notation D := (impl dbg t).

Lemma double_zero : d_double_carry D 0 false = Ret (0, false).
Proof. destruct dbg, t; reflexivity. Qed.
Lemma prod_zero : d_add_prod_carry D 0 0 0 0 = Ret (0, 0).
Proof. destruct dbg, t; reflexivity. Qed.

Definition keeps_low (rec : square_fn) : Prop := forall x sq w, hd 0 x = 0 -> low sq ->
  gives (rec x sq w) (fun '(sq', _, _) => low sq').

Lemma long_loop_low x l n1 sq : low sq -> (1 <= n1)%nat -> gives (square_long_loop D x l n1 sq) low.
Proof.
  revert sq n1. induction l as [|d l IH]; intros sq n1 Hs H1; cbn [square_long_loop]; [apply gives_ret; exact Hs|].
  apply gives_any. intros p.
  eapply gives_bind; [apply low_with_slice; [exact H1|exact Hs]|]. intros [sq1 c] Hs1.
  eapply gives_bind; [apply low_set; [|exact Hs1]; lia|]. intros sq2 Hs2. apply IH; [exact Hs2|lia].
Qed.

Lemma long_low x sq : (1 <= length x)%nat -> hd 0 x = 0 ->
  gives (square_long_into D x sq) (fun '(sq', n) => low sq' /\ cut (2 * length x) sq' n).
Proof.
  intros Lx Hx. unfold square_long_into. cbv zeta.
  eapply gives_bind; [apply low_fill; lia|]. clear sq. intros sq Hs.
  eapply gives_bind; [apply long_loop_low; [exact Hs|lia]|].
  clear sq Hs. intros sq Hs. eapply gives_bind.
  { apply low_with_prefix; [lia|exact Hs|]. intros s [r ->]. cbn [double_carry_assign].
    rewrite double_zero. cbn [bind]. apply gives_any. intros [r' c]. apply gives_ret. exists r'. reflexivity. }
  clear sq Hs. intros [sq ?] Hs. eapply gives_bind.
  { apply low_with_prefix; [lia|exact Hs|]. intros s Hls. destruct x as [|d x]; [cbn [length] in Lx; lia|].
    cbn [hd] in Hx. subst d. destruct Hls as [r ->]. destruct r as [|r1 r]; cbn [square_diag].
    - apply gives_ret. exists []. reflexivity.
    - unfold from_bit. rewrite prod_zero. cbn [bind].
      apply gives_any. intros [r1' c]. apply gives_any. intros [r' c']. apply gives_ret.
      eexists. reflexivity. }
  clear sq Hs. intros [sq c] Hs. apply gives_any. intros ?.
  eapply gives_bind; [apply low_drop, Hs|]. intros n Hn. apply gives_ret. split; [exact Hs|exact Hn].
Qed.

Lemma combine_low neg split n result z1 nz0 nz1 nz2 : (1 <= split)%nat -> low result ->
  gives (karatsuba_combine D neg split n result z1 nz0 nz1 nz2)
    (fun '(r, _, k) => low r /\ cut n r k).
Proof.
  intros H1 Hr. unfold karatsuba_combine. cbv zeta.
  apply gives_any. intros [z0 z2]. apply gives_any. intros z0p. apply gives_any. intros z2p.
  apply gives_bind with (R := fun '(_, r, _) => low r).
  { assert (Hinc : forall k (c : bool) r, (1 <= k)%nat -> low r ->
      gives (if c then with_suffix r k (inc_assign D) else Ret (r, false)) (fun '(r', _) => low r')).
    { intros k c r Hk Hlr. destruct c; [apply low_with_suffix; assumption|apply gives_ret; exact Hlr]. }
    destruct neg.
    - apply gives_any. intros [? ?]. apply gives_any. intros [? ?].
      eapply gives_bind; [apply Hinc; [lia|exact Hr]|]. intros [r1 ?] Hr1.
      eapply gives_bind; [apply Hinc; [lia|exact Hr1]|]. intros [r2 ?] Hr2. apply gives_ret. exact Hr2.
    - apply gives_any. intros z1p. destruct (num_lt z1p z0p).
      + apply gives_any. intros [? ?]. apply gives_any. intros [? ?].
        eapply gives_bind; [apply Hinc; [lia|exact Hr]|]. intros [r1 ?] Hr1. apply gives_ret. exact Hr1.
      + apply gives_any. intros [? ?]. apply gives_any. intros ?. apply gives_any. intros ?.
        apply gives_any. intros [? ?]. apply gives_ret. exact Hr. }
  intros [[z1' r1] k1] Hr1. apply gives_any. intros z1p.
  eapply gives_bind; [apply low_with_suffix; [exact H1|exact Hr1]|]. intros [r2 c] Hr2.
  apply gives_any. intros ?. eapply gives_bind; [apply low_drop, Hr2|]. intros k Hk.
  apply gives_ret. split; [exact Hr2|exact Hk].
Qed.

Lemma karatsuba_low rec x sq w : keeps_low rec -> hd 0 x = 0 ->
  gives (square_karatsuba_into D rec x sq w)
    (fun '(sq', _, n) => low sq' /\ cut (2 * length x) sq' n).
Proof.
  intros Hrec Hx. unfold square_karatsuba_into. cbv zeta. unfold guard at 1.
  destruct (Nat.leb_spec 2 (length x)) as [Lx|]; [cbn [bind]|apply gives_panic].
  apply gives_any. intros ?. apply gives_any. intros nlow.
  eapply gives_bind; [apply hd_prefix, Hx|]. intros low0 Hl0.
  apply gives_any. intros high0. apply gives_any. intros [diff [? nd]].
  apply gives_any. intros [z1 w1]. apply gives_any. intros d0. apply gives_any. intros [[z1' w2] nz1].
  assert (Hsp : (1 <= Nat.div2 (length x + 1))%nat).
  { destruct (length x) as [|[|k]]; [lia|lia|]. cbn [Nat.add Nat.div2]. lia. }
  eapply gives_bind; [apply low_fill; lia|]. intros res Hres.
  eapply gives_bind; [apply low_split; [|exact Hres]; lia|]. intros [z0 z2] Hz0.
  eapply gives_bind; [apply Hrec; [exact Hl0|exact Hz0]|]. intros [[z0' w3] nz0] Hz0'.
  apply gives_any. intros [[z2' w4] nz2].
  eapply gives_bind; [apply combine_low; [exact Hsp|apply low_app, Hz0']|].
  intros [[r z1''] k] H. apply gives_ret. exact H.
Qed.

Lemma interpolate_low b n result r1 rm1 rm2 l1 lm1 lm2 l0 l4 s1 s2 : (1 <= b)%nat -> low result ->
  gives (toom3_interpolate D b n result r1 rm1 rm2 l1 lm1 lm2 l0 l4 s1 s2)
    (fun '(r, _, k) => low r /\ cut n r k).
Proof.
  intros Hb Hr. unfold toom3_interpolate. cbv zeta.
  apply gives_any. intros [? ?]. do 3 (apply gives_any; intros ?).
  apply gives_any. intros [? [[? ?] ?]]. apply gives_any. intros [? [? ?]]. apply gives_any. intros ?.
  apply gives_any. intros [? [? ?]]. apply gives_any. intros [? [? ?]].
  apply gives_any. intros [? [? ?]]. apply gives_any. intros ?.
  apply gives_any. intros [? [[? ?] ?]]. apply gives_any. intros [? [? ?]]. apply gives_any. intros ?.
  apply gives_any. intros [? ?]. apply gives_any. intros ?.
  apply gives_any. intros [? ?]. apply gives_any. intros [? ?]. apply gives_any. intros ?.
  apply gives_any. intros [? ?]. apply gives_any. intros ?. apply gives_any. intros ?.
  eapply gives_bind; [apply low_with_suffix; [lia|exact Hr]|]. intros [ra ?] Ha.
  eapply gives_bind; [apply low_with_suffix; [lia|exact Ha]|]. intros [rb ?] Hb'.
  eapply gives_bind; [apply low_with_suffix; [lia|exact Hb']|]. intros [rc ?] Hc.
  eapply gives_bind; [apply low_drop, Hc|]. intros k Hk. apply gives_ret. split; [exact Hc|exact Hk].
Qed.

Lemma toom3_low rec x sq w : keeps_low rec -> hd 0 x = 0 ->
  gives (square_toom3_into D rec x sq w)
    (fun '(sq', _, n) => low sq' /\ cut (2 * length x) sq' n).
Proof.
  intros Hrec Hx. unfold square_toom3_into. cbv zeta. unfold guard at 1.
  destruct (Nat.leb_spec 5 (length x)) as [Lx|]; [cbn [bind]|apply gives_panic].
  assert (Hb : (1 <= (length x + 2) / 3)%nat) by (apply Nat.div_le_lower_bound; lia).
  set (b := ((length x + 2) / 3)%nat) in *. clearbody b.
  apply gives_any. intros ?. apply gives_any. intros [? ?]. apply gives_any. intros [? ?].
  apply gives_any. intros [? ?]. apply gives_any. intros [? ?]. apply gives_any. intros [? ?].
  apply gives_bind with (R := fun '(p0, _, _) => hd 0 p0 = 0).
  { unfold toom3_parts. cbv zeta. apply gives_any. intros ?.
    eapply gives_bind; [apply hd_prefix, Hx|]. intros p0 H0. do 4 (apply gives_any; intros ?).
    apply gives_ret. exact H0. }
  intros [[p0 m1] pinf] Hp0. apply gives_any. intros [[[? ?] [? [? ?]]] [? [? ?]]].
  apply gives_any. intros ?. apply gives_any. intros [[? ?] ?].
  apply gives_any. intros ?. apply gives_any. intros [[? ?] ?]. apply gives_any. intros ?.
  apply gives_any. intros ?. apply gives_any. intros [[? ?] ?]. apply gives_any. intros ?.
  eapply gives_bind; [apply low_fill; lia|]. intros res Hres.
  pose proof (low_length _ Hres).
  eapply gives_bind; [apply low_split; [|exact Hres]; lia|]. intros [r0 r4] Hr0.
  eapply gives_bind; [apply Hrec; [exact Hp0|exact Hr0]|]. intros [[r0' ?] ?] Hr0'.
  apply gives_any. intros [[? ?] ?].
  eapply gives_bind; [apply interpolate_low; [exact Hb|apply low_app, Hr0']|].
  intros [[r [[? ?] ?]] k] H1. apply gives_ret. exact H1.
Qed.

Lemma fuel_low f : keeps_low (square_fuel D f).
Proof.
  induction f as [|f IH]; intros x sq w Hx Hs; cbn [square_fuel]; [intros a E; discriminate E|].
  unfold square_dispatch. cbv zeta.
  destruct (Nat.eqb_spec (length x) 0) as [|Lx]; [apply gives_ret; exact Hs|].
  apply gives_any. intros ?. destruct (_ <=? _)%nat.
  { eapply gives_post; [apply toom3_low; assumption|]. intros [[? ?] ?] H. apply H. }
  destruct (_ <=? _)%nat.
  { eapply gives_post; [apply karatsuba_low; assumption|]. intros [[? ?] ?] H. apply H. }
  eapply gives_bind; [apply long_low; [lia|exact Hx]|]. intros [s n] H. apply gives_ret. apply H.
Qed.

Theorem square_low x : low x ->
  gives (square D x) (fun r => hd 0 r = 0 /\ (length r <> 1 /\ length r <= 2 * length x)%nat).
Proof.
  intros Hl. pose proof (low_length _ Hl) as L1.
  assert (Hx : hd 0 x = 0) by (destruct Hl as [r ->]; reflexivity).
  unfold square. destruct (ubig_is_zero x) eqn:Ez; [destruct Hl as [r ->]; discriminate Ez|].
  apply gives_bind with (R := fun '(ds, n) => low ds /\ cut (2 * length x) ds n).
  { unfold square_into. cbv zeta. destruct (Nat.eqb_spec (length x) 0) as [|_]; [lia|].
    apply gives_any. intros ?. destruct (_ <=? _)%nat.
    { eapply gives_bind; [apply toom3_low; [apply fuel_low|exact Hx]|]. intros [[s w] n] H. apply gives_ret. exact H. }
    destruct (_ <=? _)%nat.
    { eapply gives_bind; [apply karatsuba_low; [apply fuel_low|exact Hx]|]. intros [[s w] n] H. apply gives_ret. exact H. }
    apply long_low; [exact L1|exact Hx]. }
  intros [ds n] [Hd Hn]. apply gives_ret. unfold truncate. rewrite firstn_length.
  unfold cut in Hn. split; [destruct Hd as [r ->]; destruct n; reflexivity|]. lia.
Qed.
End Squares.
