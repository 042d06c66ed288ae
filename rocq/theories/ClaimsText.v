(** * ClaimsText: the property theorems on parsing and formatting. *)
From Coq Require Import ZArith List Bool Lia.
From Verif Require Import Base Digit Slice Mul Div UBig Text Spec Hoare DigitOK ListLemmas SliceProof
  MulProof UBigProof DivProof TypedProof TextProof ClaimsBasic.
Import ListNotations.
Open Scope Z_scope.
Open Scope m_scope.

Lemma dec_chars s : Forall (char_of_base 10) s -> Forall (fun c => 48 <= c <= 57) s.
Proof. apply Forall_impl. unfold char_of_base, dec_char. lia. Qed.
Lemma hex_chars s : Forall (char_of_base 16) s -> Forall (fun c => 48 <= c <= 102) s.
Proof. apply Forall_impl. unfold char_of_base, hex_char. lia. Qed.

Lemma ascii_le s m : m < 128 -> Forall (fun c => 48 <= c <= m) s -> is_ascii s = true.
Proof.
  intros Hm H. unfold is_ascii. apply forallb_forall. rewrite Forall_forall in H.
  intros c Hc. apply Z.ltb_lt. specialize (H c Hc). lia.
Qed.

Lemma strip_some s r : strip_0x s = Some r -> s = hex_prefix ++ r.
Proof.
  unfold strip_0x. intros E.
  repeat match type of E with
         | match ?x with _ => _ end = _ => destruct x; try discriminate E
         end; injection E as <-; reflexivity.
Qed.
Lemma strip_hex r : strip_0x (hex_prefix ++ r) = Some r.
Proof. reflexivity. Qed.
Lemma strip_dec s : Forall (char_of_base 10) s -> strip_0x s = None.
Proof.
  intros H. destruct (strip_0x s) as [r|] eqn:E; [|reflexivity]. apply strip_some in E. subst s.
  inversion H as [|? ? _ H1]; subst. inversion H1 as [|? ? H2 _]; subst.
  unfold char_of_base, dec_char in H2. lia.
Qed.

Lemma from_str_value dbg t s base b : is_ascii s = true -> body s = (base, b) ->
  Forall (char_of_base base) b ->
  exists r, from_str dbg t s = Ret (ROk r) /\ well_formed t r /\ num t r = numeral_value base b.
Proof.
  intros Ha Hb Hc. destruct (total_inv _ _ (from_str_ok dbg t s)) as (res & E & H).
  rewrite Ha, Hb in H. cbn [fst snd] in H. destruct res as [r|e].
  - destruct H as (H1 & H2 & H3 & _). exists r. unfold well_formed, valid, num. auto.
  - destruct H as [_ H]. contradiction.
Qed.

Lemma parse_dec_claim : forall dbg t s, numeral_of 10 s ->
  exists r, from_str dbg t s = Ret (ROk r) /\ well_formed t r /\ num t r = numeral_value 10 s.
Proof.
  intros dbg t s [_ H]. apply from_str_value.
  - apply ascii_le with 57; [lia|]. apply dec_chars, H.
  - unfold body. rewrite strip_dec by assumption. reflexivity.
  - exact H.
Qed.

Lemma parse_hex_claim : forall dbg t s, numeral_of 16 s ->
  exists r, from_str dbg t (hex_prefix ++ s) = Ret (ROk r) /\ well_formed t r
    /\ num t r = numeral_value 16 s.
Proof.
  intros dbg t s [_ H]. apply from_str_value.
  - unfold hex_prefix. cbn [app]. unfold is_ascii. cbn [forallb].
    change (48 <? 128) with true. change (120 <? 128) with true. cbn [andb].
    apply (ascii_le s 102); [lia|]. apply hex_chars, H.
  - reflexivity.
  - exact H.
Qed.

Lemma parse_total_claim : forall dbg t s, exists res, from_str dbg t s = Ret res /\
  match res with ROk r => well_formed t r | RErr e => e = InvalidNumber end.
Proof.
  intros dbg t s. destruct (total_inv _ _ (from_str_ok dbg t s)) as (res & E & H).
  exists res. split; [exact E|]. destruct (is_ascii s); [|subst; reflexivity].
  destruct res as [r|e]; [|apply H]. destruct H as (H1 & H2 & _). split; assumption.
Qed.

Lemma parse_reject_claim : forall dbg t s, s <> [] -> s <> hex_prefix -> ~ In plus_char s ->
  ~ numeral_of 10 s -> (forall h, s = hex_prefix ++ h -> ~ numeral_of 16 h) ->
  from_str dbg t s = Ret (RErr InvalidNumber).
Proof.
  intros dbg t s Hs Hx Hp H10 H16. destruct (total_inv _ _ (from_str_ok dbg t s)) as (res & E & H).
  rewrite E. destruct (is_ascii s); [|subst; reflexivity].
  destruct res as [r|e]; [|destruct H as [-> _]; reflexivity]. exfalso.
  destruct H as (_ & _ & _ & H). unfold body in H. destruct (strip_0x s) as [b|] eqn:Es; cbn [fst snd] in H.
  - apply strip_some in Es. subst s. apply (H16 b eq_refl). split.
    + intros ->. apply Hx. reflexivity.
    + apply H. intros Hin. apply Hp. apply in_or_app. right. exact Hin.
  - apply H10. split; [exact Hs|]. apply H. exact Hp.
Qed.

(** ** Formatting *)
Lemma pad_plain pre s : pad_integral plain pre s = s.
Proof. reflexivity. Qed.
Definition alternate : fmt := mkFmt None 32 AUnknown false true false.
Lemma pad_alternate pre s : pad_integral alternate pre s = pre ++ s.
Proof. reflexivity. Qed.

Lemma hex_base t : is_binary t = true -> 16 ^ Z.of_nat (NR_HEX_PLACES t) = radix t /\ (0 < NR_HEX_PLACES t)%nat.
Proof.
  intros Hb. destruct (hex_places true t) as (Q1 & Q2 & _). split; [|lia].
  rewrite radix_bin by assumption. exact Q2.
Qed.
Lemma dec_base t : is_binary t = false -> 10 ^ Z.of_nat (NR_DECIMAL_PLACES t) = radix t
  /\ (0 < NR_DECIMAL_PLACES t)%nat.
Proof.
  intros Hb. destruct (dec_places true t) as (_ & _ & Q1 & Q2). split; [|lia].
  rewrite <- radix_dec by assumption. exact Q1.
Qed.

Lemma same_number t x y : well_formed t x -> well_formed t y -> num t x = num t y -> x = y.
Proof. intros [X1 X2] [Y1 Y2] E. exact (normal_inj (radix t) (radix_gt t) x y X1 Y1 X2 Y2 E). Qed.

Lemma hex_claim : forall t upper x, is_binary t = true -> well_formed t x ->
  exists s, fmt_hex t upper plain x = s /\ fmt_hex t upper alternate x = hex_prefix ++ s
    /\ numeral_of 16 s /\ numeral_value 16 s = num t x /\ minimal s
    /\ (if upper then upper_case s else lower_case s).
Proof.
  intros t upper x Hb [X1 X2]. destruct (hex_base t Hb) as [E Hk].
  unfold valid in X1. rewrite <- E in X1.
  destruct (fmt_ubig_ok 16 upper (NR_HEX_PLACES t) x (or_intror eq_refl) Hk X1 X2)
    as (s & (S1 & S2 & S3 & S4) & F).
  exists s. unfold fmt_hex. rewrite !F, pad_plain, pad_alternate. rewrite E in S2. conj; auto.
Qed.

Lemma hex_round_claim : forall dbg t upper x, is_binary t = true -> well_formed t x ->
  from_str dbg t (fmt_hex t upper alternate x) = Ret (ROk x).
Proof.
  intros dbg t upper x Hb Hx. destruct (hex_claim t upper x Hb Hx) as (s & _ & -> & N & V & _).
  destruct (parse_hex_claim dbg t s N) as (r & -> & W & Vr).
  rewrite (same_number t r x); auto. congruence.
Qed.

Lemma dec_claim : forall t x, is_binary t = false -> well_formed t x ->
  exists s, fmt_display_dec t plain x = s
    /\ numeral_of 10 s /\ numeral_value 10 s = num t x /\ minimal s.
Proof.
  intros t x Hb [X1 X2]. destruct (dec_base t Hb) as [E Hk].
  unfold valid in X1. rewrite <- E in X1.
  destruct (fmt_ubig_ok 10 false (NR_DECIMAL_PLACES t) x (or_introl eq_refl) Hk X1 X2)
    as (s & (S1 & S2 & S3 & S4) & F).
  exists s. unfold fmt_display_dec. rewrite !F, pad_plain. rewrite E in S2. conj; auto.
Qed.

Lemma dec_round_claim : forall dbg t x, is_binary t = false -> well_formed t x ->
  from_str dbg t (fmt_display_dec t plain x) = Ret (ROk x).
Proof.
  intros dbg t x Hb Hx. destruct (dec_claim t x Hb Hx) as (s & -> & N & V & _).
  destruct (parse_dec_claim dbg t s N) as (r & -> & W & Vr).
  rewrite (same_number t r x); auto. congruence.
Qed.

(** [out] is [s] with sign, prefix and padding as the flags of [f] ask for *)
Definition padded (f : fmt) (pre s out : list Z) : Prop :=
  let head := (if f_plus f then [plus_char] else []) ++ (if f_alt f then pre else []) in
  let width := match f_width f with Some n => n | None => 0%nat end in
  exists l z r, out = repeat (f_fill f) l ++ head ++ repeat 48 z ++ s ++ repeat (f_fill f) r
  /\ (length out = Nat.max width (length head + length s))%nat
  /\ (f_zero f = true -> l = 0 /\ r = 0)%nat
  /\ (f_zero f = false -> z = 0 /\ match f_align f with
        | ALeft => l = 0 | AUnknown | ARight => r = 0 | ACenter => l = r \/ S l = r end)%nat.

Lemma fmt_ubig_pad base upper k f x :
  fmt_ubig base upper k f x = pad_integral f (prefix_of base) (fmt_ubig base upper k plain x).
Proof.
  unfold fmt_ubig. destruct (rev x) as [|a [|b l]]; reflexivity.
Qed.

Lemma pad_hex_claim : forall t upper f x,
  padded f hex_prefix (fmt_hex t upper plain x) (fmt_hex t upper f x).
Proof.
  intros. unfold fmt_hex. rewrite (fmt_ubig_pad _ _ _ f). exact (pad_ok f hex_prefix _).
Qed.
Lemma pad_dec_claim : forall t f x,
  padded f [] (fmt_display_dec t plain x) (fmt_display_dec t f x).
Proof.
  intros. unfold fmt_display_dec. rewrite (fmt_ubig_pad _ _ _ f). exact (pad_ok f [] _).
Qed.
Lemma pad_bin_claim : forall dbg t f x out, fmt_display_bin dbg t f x = Ret out ->
  exists s, fmt_display_bin dbg t plain x = Ret s /\ padded f [] s out.
Proof.
  intros dbg t f x out. unfold fmt_display_bin. destruct (to_decimal dbg t x) as [ds| |]; try discriminate.
  cbn [bind]. intros [= <-]. eexists. split; [reflexivity|]. apply pad_dec_claim.
Qed.

(** ** to_decimal *)
Lemma to_decimal_claim : forall dbg t x, is_binary t = true -> well_formed t x ->
  (length x < 16)%nat ->
  exists r, to_decimal dbg t x = Ret r /\ well_formed (decimal_of t) r /\ num (decimal_of t) r = num t x.
Proof.
  intros dbg t x Hb [X1 X2] Hl.
  destruct (total_inv _ _ (to_decimal_small dbg t Hb x X1 X2 Hl)) as (r & E & R1 & R2 & R3).
  exists r. split; [exact E|]. split; [split; assumption|exact R3].
Qed.
Lemma display_bin_claim : forall dbg t x, is_binary t = true -> well_formed t x ->
  (length x < 16)%nat ->
  exists s, fmt_display_bin dbg t plain x = Ret s /\ numeral_of 10 s
    /\ numeral_value 10 s = num t x /\ minimal s.
Proof.
  intros dbg t x Hb Hx Hl. destruct (to_decimal_claim dbg t x Hb Hx Hl) as (r & E & W & V).
  unfold fmt_display_bin. rewrite E. cbn [bind].
  destruct (dec_claim (decimal_of t) r (decimal_of_dec t Hb) W) as (s & S1 & S2 & S3 & S4).
  exists s.
  assert (Ed : fmt_display_dec t plain r = fmt_display_dec (decimal_of t) plain r) by (destruct t; reflexivity).
  rewrite Ed, S1. conj; auto. congruence.
Qed.
