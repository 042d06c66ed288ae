(** * OrderProof: the comparison operators and the debug text. *)
From Coq Require Import ZArith String Ascii List Bool Lia.
From Verif Require Import Base Digit Slice UBig Text Order Spec SpecOrder TextProof ClaimsBasic LeadZero.
Import ListNotations.
Open Scope Z_scope.

(** ** Operators *)
Lemma operators_claim t x y : well_formed t x -> well_formed t y ->
  ubig_partial_cmp x y = Some (num t x ?= num t y)
  /\ ubig_lt x y = (num t x <? num t y) /\ ubig_le x y = (num t x <=? num t y)
  /\ ubig_gt x y = (num t y <? num t x) /\ ubig_ge x y = (num t y <=? num t x)
  /\ ubig_ne x y = negb (num t x =? num t y).
Proof.
  intros Wx Wy. unfold ubig_ne, ubig_lt, ubig_le, ubig_gt, ubig_ge, ubig_partial_cmp.
  rewrite (cmp_claim t x y Wx Wy).
  assert (E : ubig_eqb x y = (num t x =? num t y)).
  { apply eq_true_iff_eq. rewrite Z.eqb_eq. apply (eq_claim t x y Wx Wy). }
  rewrite E. split; [reflexivity|].
  destruct (Z.compare_spec (num t x) (num t y)) as [H|H|H];
    destruct (Z.ltb_spec (num t x) (num t y)), (Z.leb_spec (num t x) (num t y)),
      (Z.ltb_spec (num t y) (num t x)), (Z.leb_spec (num t y) (num t x)); repeat split; lia.
Qed.

Lemma operators_padded t x y : valid t x -> valid t y ->
  (ubig_lt x y = true <-> (length x < length y)%nat \/ (length x = length y /\ num t x < num t y))
  /\ ubig_gt x y = ubig_lt y x /\ ubig_le x y = negb (ubig_lt y x) /\ ubig_ge x y = negb (ubig_lt x y)
  /\ ubig_ne x y = ubig_lt x y || ubig_lt y x.
Proof.
  intros Vx Vy. unfold ubig_ne, ubig_lt, ubig_le, ubig_gt, ubig_ge, ubig_partial_cmp.
  assert (E : ubig_eqb x y = match ubig_cmp x y with Eq => true | _ => false end).
  { apply eq_true_iff_eq. rewrite <- (lead_cmp_eq t x y Vx Vy). destruct (ubig_cmp x y); split; congruence. }
  rewrite E. rewrite (lead_cmp t x y Vx Vy), (lead_cmp t y x Vy Vx).
  rewrite (Nat.compare_antisym (length x) (length y)), (Z.compare_antisym (num t x) (num t y)).
  destruct (Nat.compare_spec (length x) (length y)) as [L|L|L]; cbn [CompOpp];
    [destruct (Z.compare_spec (num t x) (num t y)) as [H|H|H]; cbn [CompOpp]| |];
    (split; [split; intros; solve [reflexivity|lia|discriminate]|repeat split]).
Qed.

Lemma max_min_claim t x y : well_formed t x -> well_formed t y ->
  well_formed t (ubig_max x y) /\ num t (ubig_max x y) = Z.max (num t x) (num t y)
  /\ well_formed t (ubig_min x y) /\ num t (ubig_min x y) = Z.min (num t x) (num t y).
Proof.
  intros Wx Wy. unfold ubig_max, ubig_min. rewrite (cmp_claim t x y Wx Wy).
  destruct (Z.compare_spec (num t x) (num t y)); repeat split; try apply Wx; try apply Wy; lia.
Qed.

Lemma clamp_claim t x lo hi : well_formed t x -> well_formed t lo -> well_formed t hi ->
  (num t lo <= num t hi -> exists r, ubig_clamp x lo hi = Ret r /\ well_formed t r
     /\ num t r = Z.max (num t lo) (Z.min (num t hi) (num t x)))
  /\ (num t hi < num t lo -> ubig_clamp x lo hi = Panic PAssert).
Proof.
  intros Wx Wl Wh. unfold ubig_clamp.
  destruct (operators_claim t lo hi Wl Wh) as (_ & _ & -> & _).
  destruct (operators_claim t x lo Wx Wl) as (_ & -> & _).
  destruct (operators_claim t x hi Wx Wh) as (_ & _ & _ & -> & _).
  split; intros H.
  - rewrite (proj2 (Z.leb_le _ _) H). eexists. split; [reflexivity|].
    destruct (Z.ltb_spec (num t x) (num t lo)), (Z.ltb_spec (num t hi) (num t x)); (split; [assumption|lia]).
  - rewrite (proj2 (Z.leb_gt _ _) H). reflexivity.
Qed.

(** ** Debug text *)
Lemma text_of_bytes s : ascii_bytes s = text_of s.
Proof.
  unfold ascii_bytes, text_of. apply map_ext. intros c. unfold nat_of_ascii. rewrite N_nat_Z. reflexivity.
Qed.
Definition kind (t : dty) : string := if is_binary t then "BinaryDigit" else "DecimalDigit".

Lemma good_ten : good_base 10. Proof. left. reflexivity. Qed.
Lemma plain_ok d : 0 <= d -> plain_numeral d (numeral 10 false d).
Proof.
  intros H. destruct (numeral_ok 10 false d good_ten H) as (N & V & M & _). split; [exact N|]. split; assumption.
Qed.
Lemma debug_claim t x : Forall (Z.le 0) x ->
  exists e, entries (kind t) x e /\ fmt_debug t x = text_of "UBig { digits: [" ++ e ++ text_of "] }".
Proof.
  intros H. exists (debug_entries t x). unfold fmt_debug. rewrite !text_of_bytes. split; [|reflexivity].
  assert (ED : forall d, debug_digit t d = text_of (kind t) ++ text_of "(" ++ numeral 10 false d ++ text_of ")").
  { intros d. unfold debug_digit, digit_name. rewrite !text_of_bytes. reflexivity. }
  induction x as [|d [|d' x] IH]; [constructor| |]; inversion H as [|? ? Hd Hx]; subst.
  - change (debug_entries t [d]) with (debug_digit t d). rewrite ED. constructor. apply plain_ok, Hd.
  - change (debug_entries t (d :: d' :: x)) with (debug_digit t d ++ ascii_bytes ", " ++ debug_entries t (d' :: x)).
    rewrite ED, text_of_bytes, <- !app_assoc. exact (more_entries _ d d' x _ _ (plain_ok d Hd) (IH Hx)).
Qed.

Lemma cut_close s s' r r' : Forall (char_of_base 10) s -> Forall (char_of_base 10) s' ->
  s ++ 41 :: r = s' ++ 41 :: r' -> s = s' /\ r = r'.
Proof.
  assert (C : forall c, char_of_base 10 c -> c <> 41).
  { intros c [[_ H]|[H _]]; [unfold dec_char in H; lia|discriminate H]. }
  intros H. revert s'. induction H as [|c s Hc H IH]; intros [|c' s'] H' E; cbn [app] in E.
  - injection E as E. auto.
  - inversion H' as [|? ? H1 H2]; subst. injection E as E1 E2. destruct (C c' H1). auto.
  - injection E as E1 E2. destruct (C c Hc). auto.
  - inversion H' as [|? ? H1 H2]; subst. injection E as -> E. destruct (IH s' H2 E) as [-> ->]. auto.
Qed.
Definition rest_of (name : string) (ds e : list Z) : list Z := match ds with [] => text_of "] }" | _ => text_of ", " ++ e ++ text_of "] }" end.
Lemma entries_open name d ds e : entries name (d :: ds) e ->
  exists s e', plain_numeral d s /\ entries name ds e'
    /\ e ++ text_of "] }" = text_of name ++ 40 :: s ++ 41 :: rest_of name ds e'.
Proof.
  intros H. inversion H as [|d0 s P|d0 d' ds0 s e' P H']; subst.
  - exists s, []. split; [exact P|]. split; [constructor|]. rewrite <- !app_assoc. reflexivity.
  - exists s, e'. split; [exact P|]. split; [exact H'|]. rewrite <- !app_assoc. reflexivity.
Qed.
Lemma entries_inj name name' x y e e' : (name = name' \/ hd 0 (text_of name) <> hd 0 (text_of name')) ->
  (1 < length (text_of name))%nat -> (1 < length (text_of name'))%nat ->
  hd 0 (text_of name) <> 93 -> hd 0 (text_of name') <> 93 ->
  entries name x e -> entries name' y e' -> e ++ text_of "] }" = e' ++ text_of "] }" ->
  x = y /\ (x <> [] -> name = name').
Proof.
  intros Hn L L' N N'. revert y e e'. induction x as [|d x IH]; intros [|d' y] e e' H H' E.
  - split; [reflexivity|]. intros F. destruct (F eq_refl).
  - exfalso. inversion H; subst. destruct (entries_open _ _ _ _ H') as (s & f & _ & _ & E'). rewrite E' in E.
    destruct (text_of name') as [|c n]; [cbn in L'; lia|]. cbn in E, N'. injection E as E. auto.
  - exfalso. inversion H'; subst. destruct (entries_open _ _ _ _ H) as (s & f & _ & _ & E'). rewrite E' in E.
    destruct (text_of name) as [|c n]; [cbn in L; lia|]. cbn in E, N. injection E as E. auto.
  - destruct (entries_open _ _ _ _ H) as (s & f & P & F & E1). destruct (entries_open _ _ _ _ H') as (s' & f' & P' & F' & E2).
    rewrite E1, E2 in E. destruct Hn as [Hn|Hn].
    + subst name'. split; [|reflexivity]. apply app_inv_head in E. injection E as E.
      apply cut_close in E; [|apply P|apply P']. destruct E as [-> E].
      assert (d = d') as -> by (destruct P as (_ & _ & <-), P' as (_ & _ & <-); reflexivity). f_equal.
      destruct x as [|a x], y as [|b y]; cbn [rest_of] in E; [reflexivity|discriminate E|discriminate E|].
      apply app_inv_head in E. apply (IH (b :: y) f f' F F' E).
    + exfalso. destruct (text_of name) as [|c n]; [cbn in L; lia|]. destruct (text_of name') as [|c' n']; [cbn in L'; lia|].
      cbn in Hn, E. injection E as E _. auto.
Qed.
Lemma debug_inj_claim t t' x y : Forall (Z.le 0) x -> Forall (Z.le 0) y -> fmt_debug t x = fmt_debug t' y ->
  x = y /\ (x <> [] -> is_binary t = is_binary t').
Proof.
  intros Hx Hy E. destruct (debug_claim t x Hx) as (e & H & E1). destruct (debug_claim t' y Hy) as (e' & H' & E2).
  rewrite E1, E2 in E. apply app_inv_head in E.
  destruct (entries_inj (kind t) (kind t') x y e e') as [A B]; try assumption;
    try (unfold kind; destruct (is_binary t); vm_compute; lia); try (unfold kind; destruct (is_binary t'); vm_compute; lia).
  - unfold kind. destruct (is_binary t), (is_binary t'); [left; reflexivity|right|right|left; reflexivity]; vm_compute; lia.
  - split; [exact A|]. intros F. specialize (B F). unfold kind in B. destruct (is_binary t), (is_binary t'); congruence.
Qed.

(** ** Over several lines *)
Lemma pad_line a b : ~ In 10 a -> pad_lines true (a ++ 10 :: b) = repeat 32 4 ++ a ++ 10 :: pad_lines true b.
Proof.
  intros H. assert (F : forall a, ~ In 10 a -> pad_lines false (a ++ 10 :: b) = a ++ 10 :: pad_lines true b).
  { clear. induction a as [|c a IH]; intros H; [reflexivity|]. cbn [app pad_lines].
    assert (c <> 10) by (intros ->; apply H; left; reflexivity).
    rewrite (proj2 (Z.eqb_neq c 10)) by assumption. rewrite IH; [reflexivity|]. intros I. apply H. right. exact I. }
  destruct a as [|c a]; [reflexivity|]. cbn [app pad_lines].
  assert (c <> 10) by (intros ->; apply H; left; reflexivity).
  rewrite (proj2 (Z.eqb_neq c 10)) by assumption. rewrite F; [reflexivity|]. intros I. apply H. right. exact I.
Qed.
Lemma digits_no_newline s : Forall (char_of_base 10) s -> ~ In 10 s.
Proof.
  intros H I. rewrite Forall_forall in H. destruct (H 10 I) as [[_ C]|[C _]]; [unfold dec_char in C; lia|discriminate C].
Qed.
Lemma kind_no_newline t : ~ In 10 (text_of (kind t)).
Proof. unfold kind. destruct (is_binary t); vm_compute; intuition discriminate. Qed.
Lemma pretty_digit_eq t d : 0 <= d ->
  pretty_digit t d = (text_of (kind t) ++ text_of "(") ++ 10 :: line 4 (numeral 10 false d ++ text_of ",") ++ text_of ")".
Proof.
  intros H. unfold pretty_digit, digit_name. rewrite !text_of_bytes. fold (kind t). unfold line. rewrite <- !app_assoc. cbn [app].
  do 3 f_equal. change (pad_lines true (numeral 10 false d ++ text_of "," ++ [10]))
    with (pad_lines true (numeral 10 false d ++ [44; 10])).
  replace (numeral 10 false d ++ [44; 10]) with ((numeral 10 false d ++ [44]) ++ 10 :: []) by (rewrite <- app_assoc; reflexivity).
  rewrite pad_line.
  - cbn [pad_lines]. rewrite <- !app_assoc. reflexivity.
  - intros I. apply in_app_or in I. destruct I as [I|[I|[]]]; [|discriminate I]. revert I. apply digits_no_newline, (plain_ok d H).
Qed.
Lemma repeat_split n m : repeat 32 (n + m) = repeat 32 n ++ repeat 32 m.
Proof. apply repeat_app. Qed.
(** a line after indentation by 4 *)
Lemma pad_line_line n s b : ~ In 10 s -> pad_lines true (line n s ++ b) = line (4 + n) s ++ pad_lines true b.
Proof.
  intros H. unfold line. rewrite <- !app_assoc. cbn [app].
  rewrite (app_assoc (repeat 32 n)). rewrite pad_line.
  - rewrite (repeat_split 4 n), <- !app_assoc. reflexivity.
  - intros I. apply in_app_or in I. destruct I as [I|I]; [apply repeat_spec in I; discriminate I|auto].
Qed.
Lemma not_in_app (a b : list Z) : ~ In 10 a -> ~ In 10 b -> ~ In 10 (a ++ b).
Proof. intros H H' I. apply in_app_or in I. tauto. Qed.
Lemma pretty_element t d : 0 <= d ->
  pad_lines true (pretty_digit t d ++ ascii_bytes "," ++ [10])
  = line 4 (text_of (kind t) ++ text_of "(") ++ line 8 (numeral 10 false d ++ text_of ",") ++ line 4 (text_of "),").
Proof.
  intros H. rewrite (pretty_digit_eq t d H), text_of_bytes.
  assert (N1 : ~ In 10 (text_of (kind t) ++ text_of "(")) by (apply not_in_app; [apply kind_no_newline|vm_compute; intuition discriminate]).
  assert (N2 : ~ In 10 (numeral 10 false d ++ text_of ","))
    by (apply not_in_app; [apply digits_no_newline, (plain_ok d H)|vm_compute; intuition discriminate]).
  set (a := text_of (kind t) ++ text_of "(") in *. set (b := numeral 10 false d ++ text_of ",") in *.
  transitivity (pad_lines true (line 0 a ++ line 4 b ++ line 0 (text_of "),"))).
  { f_equal. unfold line. rewrite <- !app_assoc. cbn [app repeat]. rewrite <- !app_assoc. reflexivity. }
  rewrite (pad_line_line 0 a _ N1), (pad_line_line 4 b _ N2).
  rewrite <- (app_nil_r (line 0 (text_of "),"))), pad_line_line by (vm_compute; intuition discriminate).
  cbn [pad_lines]. rewrite app_nil_r. reflexivity.
Qed.
Lemma pretty_entries_eq t x : Forall (Z.le 0) x -> exists e, pretty_entries (kind t) x e
  /\ forall b, pad_lines true (flat_map (fun d => pad_lines true (pretty_digit t d ++ ascii_bytes "," ++ [10])) x ++ b)
     = e ++ pad_lines true b.
Proof.
  induction 1 as [|d x Hd Hx IH]; [exists []; split; [constructor|reflexivity]|].
  destruct IH as (e & He & IH). eexists. split; [apply (more_pretty _ d x _ e (plain_ok d Hd) He)|].
  intros b. cbn [flat_map]. rewrite (pretty_element t d Hd), <- !app_assoc.
  rewrite pad_line_line by (apply not_in_app; [apply kind_no_newline|vm_compute; intuition discriminate]).
  rewrite pad_line_line by (apply not_in_app; [apply digits_no_newline, (plain_ok d Hd)|vm_compute; intuition discriminate]).
  rewrite pad_line_line by (vm_compute; intuition discriminate). rewrite IH. reflexivity.
Qed.
Lemma pretty_claim t x : Forall (Z.le 0) x -> exists e, pretty_entries (kind t) x e /\ fmt_debug_pretty t x = pretty_text x e.
Proof.
  intros H. destruct (pretty_entries_eq t x H) as (e & He & E). exists e. split; [exact He|].
  unfold fmt_debug_pretty, pretty_text, pretty_list. rewrite !text_of_bytes. destruct x as [|d x]; [reflexivity|].
  set (f := flat_map _ (d :: x)) in *.
  transitivity (text_of "UBig {" ++ [10] ++ pad_lines true (line 0 (text_of "digits: [") ++ f ++ line 0 (text_of "],")) ++ text_of "}").
  { do 2 f_equal. f_equal. f_equal. unfold line. rewrite <- !app_assoc. reflexivity. }
  rewrite pad_line_line by (vm_compute; intuition discriminate). rewrite E.
  rewrite <- (app_nil_r (line 0 (text_of "],"))), pad_line_line by (vm_compute; intuition discriminate).
  cbn [pad_lines]. unfold line. rewrite <- !app_assoc. reflexivity.
Qed.

Lemma cut_comma s s' r r' : Forall (char_of_base 10) s -> Forall (char_of_base 10) s' ->
  s ++ 44 :: r = s' ++ 44 :: r' -> s = s' /\ r = r'.
Proof.
  assert (C : forall c, char_of_base 10 c -> c <> 44).
  { intros c [[_ H]|[H _]]; [unfold dec_char in H; lia|discriminate H]. }
  intros H. revert s'. induction H as [|c s Hc H IH]; intros [|c' s'] H' E; cbn [app] in E.
  - injection E as E. auto.
  - inversion H' as [|? ? H1 H2]; subst. injection E as E1 E2. destruct (C c' H1). auto.
  - injection E as E1 E2. destruct (C c Hc). auto.
  - inversion H' as [|? ? H1 H2]; subst. injection E as -> E. destruct (IH s' H2 E) as [-> ->]. auto.
Qed.
Lemma pretty_inj t t' x y e e' z : pretty_entries (kind t) x e -> pretty_entries (kind t') y e' ->
  e ++ line 4 (text_of "],") ++ z = e' ++ line 4 (text_of "],") ++ z ->
  x = y /\ (x <> [] -> is_binary t = is_binary t').
Proof.
  intros H. revert y e'. induction H as [|d x s e P H IH]; intros y e' H' E.
  - inversion H' as [|d' y' s' f P' F]; subst; [split; [reflexivity|congruence]|].
    exfalso. rewrite <- !app_assoc in E. discriminate E.
  - inversion H' as [|d' y' s' f P' F]; subst; [exfalso; rewrite <- !app_assoc in E; discriminate E|].
    assert (K : is_binary t = is_binary t').
    { unfold kind in E. destruct (is_binary t), (is_binary t'); try reflexivity; exfalso;
        unfold line in E; rewrite <- !app_assoc in E; discriminate E. }
    assert (K' : kind t' = kind t) by (unfold kind; rewrite K; reflexivity).
    rewrite K' in E, F, H'. rewrite <- !app_assoc in E. apply app_inv_head in E.
    unfold line in E. rewrite <- !app_assoc in E. apply app_inv_head in E. cbn [text_of map list_ascii_of_string app] in E.
    change (map (fun c => Z.of_nat (nat_of_ascii c)) [","%char]) with [44] in E.
    apply cut_comma in E; [|apply P|apply P']. destruct E as [Es E].
    assert (d = d') by (destruct P as (_ & _ & <-), P' as (_ & _ & <-); rewrite Es; reflexivity). subst d'.
    rewrite <- K' in F. destruct (IH y' f F) as [-> _]; [|split; [reflexivity|auto]].
    unfold line. rewrite <- !app_assoc. repeat (injection E as E). exact E.
Qed.
Lemma pretty_inj_claim t t' x y : Forall (Z.le 0) x -> Forall (Z.le 0) y -> fmt_debug_pretty t x = fmt_debug_pretty t' y ->
  x = y /\ (x <> [] -> is_binary t = is_binary t').
Proof.
  intros Hx Hy E. destruct (pretty_claim t x Hx) as (e & H & E1). destruct (pretty_claim t' y Hy) as (e' & H' & E2).
  rewrite E1, E2 in E. unfold pretty_text in E. apply app_inv_head in E.
  destruct x as [|d x], y as [|d' y].
  - split; [reflexivity|congruence].
  - exfalso. unfold line in E. rewrite <- !app_assoc in E. discriminate E.
  - exfalso. unfold line in E. rewrite <- !app_assoc in E. discriminate E.
  - rewrite <- !app_assoc in E. apply app_inv_head in E. apply (pretty_inj t t' _ _ e e' (text_of "}") H H' E).
Qed.
