(** * Properties C23-C29: parsing, formatting, conversion to decimal.

    Strings are lists of character codes: 48 is "0", 97 "a", 43 "+", 120 "x". *)
From Coq Require Import ZArith List Bool.
From Verif Require Import Base Digit Slice Mul Div UBig Text Spec SpecDiv SpecParse Cases Witness ClaimsDiv ClaimsText
  ParseExact SpecBz DecExact DecJam SpecDec.
Import ListNotations.
Open Scope Z_scope.

Theorem C23_parse_decimal : forall dbg t s, numeral_of 10 s ->
  exists r, from_str dbg t s = Ret (ROk r) /\ well_formed t r /\ num t r = numeral_value 10 s.
Proof. exact parse_dec_claim. Qed.
Print Assumptions C23_parse_decimal.
(** "0070000000000000000000012" *)
Example C23_case :
  let s := [48; 48; 55] ++ repeat 48 20 ++ [49; 50] in
  numeral_value 10 s = 70000000000000000000012
  /\ from_str true B8 s = Ret (ROk [12; 0; 192; 223; 26; 132; 37; 181; 210; 14])
  /\ from_str false D64 s = Ret (ROk [12; 7000]).
Proof. fact. Qed.
Example C23_numeral : numeral_of 10 ([48; 48; 55] ++ repeat 48 20 ++ [49; 50]).
Proof.
  split; [discriminate|]. cbn. repeat (constructor; [left; split; [reflexivity|split; discriminate]|]).
  constructor.
Qed.

Theorem C24_parse_hex : forall dbg t s, numeral_of 16 s ->
  exists r, from_str dbg t (hex_prefix ++ s) = Ret (ROk r) /\ well_formed t r
    /\ num t r = numeral_value 16 s.
Proof. exact parse_hex_claim. Qed.
Print Assumptions C24_parse_hex.
(** "0x0fFa1" *)
Example C24_case : numeral_value 16 [48; 102; 70; 97; 49] = 65441
  /\ from_str true B8 (hex_prefix ++ [48; 102; 70; 97; 49]) = Ret (ROk [161; 255])
  /\ from_str true D8 (hex_prefix ++ [48; 102; 70; 97; 49]) = Ret (ROk [41; 54; 6]).
Proof. fact. Qed.

(** Rejection fails for a plus sign at the start of a chunk, and for the empty numeral. *)
Theorem C25_refuted : exists s r, ~ numeral_of 10 s /\ (forall h, s <> hex_prefix ++ h)
  /\ In plus_char (tl s) /\ from_str false D8 s = Ret (ROk r) /\ num D8 r = 1203.
Proof.
  exists [49; 50; 43; 51], [3; 12]. split; [|split; [|split; [|split; reflexivity]]].
  - intros [_ H]. rewrite Forall_forall in H.
    destruct (H 43 (or_intror (or_intror (or_introl eq_refl)))) as [[_ [H3 _]]|[H3 _]];
      [apply H3; reflexivity|discriminate H3].
  - intros h Hh. discriminate Hh.
  - right. left. reflexivity.
Qed.
Print Assumptions C25_refuted.
Theorem C25_empty_refuted : forall dbg t, from_str dbg t [] = Ret (ROk [])
  /\ from_str dbg t hex_prefix = Ret (ROk []).
Proof. intros dbg t. destruct dbg, t; split; reflexivity. Qed.
Print Assumptions C25_empty_refuted.
Theorem C25_never_panics : forall dbg t s, exists res, from_str dbg t s = Ret res /\
  match res with ROk r => well_formed t r | RErr e => e = InvalidNumber end.
Proof. exact parse_total_claim. Qed.
Print Assumptions C25_never_panics.
(** Missing from the full statement: strings with a plus sign, "" and "0x". *)
Theorem C25_partial : forall dbg t s, s <> [] -> s <> hex_prefix -> ~ In plus_char s ->
  ~ numeral_of 10 s -> (forall h, s = hex_prefix ++ h -> ~ numeral_of 16 h) ->
  from_str dbg t s = Ret (RErr InvalidNumber).
Proof. exact parse_reject_claim. Qed.
Print Assumptions C25_partial.
(** Exactly what is accepted instead of numerals, and as which number: the characters are
    taken in groups of the widest size that fits a digit, each of which may start with a
    plus sign ([grouped], SpecParse.v). *)
Theorem C25_exact_partial : forall dbg t kd kh s, group_width t 10 kd -> group_width t 16 kh ->
  (forall r, from_str dbg t s = Ret (ROk r) <->
     well_formed t r /\ (grouped 10 kd s (num t r) \/ exists h, s = hex_prefix ++ h /\ grouped 16 kh h (num t r)))
  /\ (from_str dbg t s = Ret (RErr InvalidNumber) <->
       forall v, ~ (grouped 10 kd s v \/ exists h, s = hex_prefix ++ h /\ grouped 16 kh h v)).
Proof. exact parse_exact_claim. Qed.
Print Assumptions C25_exact_partial.
(** "7+5+3" over base 100 is 7, +5, +3; the groups have 2 decimal or 1 hexadecimal characters *)
Example C25_exact_case : group_width D8 10 2 /\ group_width D8 16 1
  /\ grouped 10 2 [55; 43; 53; 43; 51] 70503
  /\ from_str true D8 [55; 43; 53; 43; 51] = Ret (ROk [3; 5; 7]).
Proof.
  split; [split; vm_compute; congruence|]. split; [split; vm_compute; congruence|].
  split; [|reflexivity].
  assert (N : forall c, 48 <= c <= 57 -> numeral_of 10 [c])
    by (intros c H; split; [discriminate|constructor; [left; split; [reflexivity|exact H]|constructor]]).
  assert (R : forall c, 48 <= c -> c <= 57 -> numeral_of 10 [c]) by (intros; apply N; split; assumption).
  apply (grouped_more 10 2 [55; 43; 53] 705 [43; 51] 3); try discriminate; try reflexivity.
  - apply (grouped_more 10 2 [55] 7 [43; 53] 5); try discriminate; try reflexivity.
    + apply grouped_one; [repeat constructor|]. apply (group_plain 10 [55]), R; discriminate.
    + apply (group_plus 10 [53]), R; discriminate.
  - apply (group_plus 10 [51]), R; discriminate.
Qed.
(** "1 2", a non-ASCII byte, "0xg", "-1" *)
Example C25_case : from_str true B32 [49; 32; 50] = Ret (RErr InvalidNumber)
  /\ from_str true D32 [49; 195; 50] = Ret (RErr InvalidNumber)
  /\ from_str true D32 [48; 120; 103] = Ret (RErr InvalidNumber)
  /\ from_str true D32 [45; 49] = Ret (RErr InvalidNumber)
  /\ from_str true D32 [43; 49] = Ret (ROk [1]).
Proof. fact. Qed.

Theorem C26_hex : forall t upper x, is_binary t = true -> well_formed t x ->
  exists s, fmt_hex t upper plain x = s /\ fmt_hex t upper alternate x = hex_prefix ++ s
    /\ numeral_of 16 s /\ numeral_value 16 s = num t x /\ minimal s
    /\ (if upper then upper_case s else lower_case s).
Proof. exact hex_claim. Qed.
Print Assumptions C26_hex.
Theorem C26_round_trip : forall dbg t upper x, is_binary t = true -> well_formed t x ->
  from_str dbg t (fmt_hex t upper alternate x) = Ret (ROk x).
Proof. exact hex_round_claim. Qed.
Print Assumptions C26_round_trip.
(** "a0005" and "0" *)
Example C26_case : well_formed B8 [5; 0; 10] /\ fmt_hex B8 false plain [5; 0; 10] = [97; 48; 48; 48; 53]
  /\ fmt_hex B8 true plain [5; 0; 10] = [65; 48; 48; 48; 53] /\ fmt_hex B8 false plain [] = [48].
Proof. fact. Qed.

Theorem C27_decimal : forall t x, is_binary t = false -> well_formed t x ->
  exists s, fmt_display_dec t plain x = s
    /\ numeral_of 10 s /\ numeral_value 10 s = num t x /\ minimal s.
Proof. exact dec_claim. Qed.
Print Assumptions C27_decimal.
Theorem C27_round_trip : forall dbg t x, is_binary t = false -> well_formed t x ->
  from_str dbg t (fmt_display_dec t plain x) = Ret (ROk x).
Proof. exact dec_round_claim. Qed.
Print Assumptions C27_round_trip.
(** "50007" *)
Example C27_case : well_formed D8 [7; 0; 5] /\ fmt_display_dec D8 plain [7; 0; 5] = [53; 48; 48; 48; 55].
Proof. fact. Qed.

Theorem C28_hex : forall t upper f x,
  padded f hex_prefix (fmt_hex t upper plain x) (fmt_hex t upper f x).
Proof. exact pad_hex_claim. Qed.
Print Assumptions C28_hex.
Theorem C28_decimal : forall t f x,
  padded f [] (fmt_display_dec t plain x) (fmt_display_dec t f x).
Proof. exact pad_dec_claim. Qed.
Print Assumptions C28_decimal.
Theorem C28_display_binary : forall dbg t f x out, fmt_display_bin dbg t f x = Ret out ->
  exists s, fmt_display_bin dbg t plain x = Ret s /\ padded f [] s out.
Proof. exact pad_bin_claim. Qed.
Print Assumptions C28_display_binary.
(** {:+#010x} of 0x1ff gives "+0x00001ff"; {:*^8} of 1234 gives "**1234**" *)
Example C28_case :
  fmt_hex B8 false (mkFmt (Some 10%nat) 32 AUnknown true true true) [255; 1]
    = [43; 48; 120; 48; 48; 48; 48; 49; 102; 102]
  /\ fmt_display_dec D8 (mkFmt (Some 8%nat) 42 ACenter false true false) [34; 12]
    = [42; 42; 49; 50; 51; 52; 42; 42].
Proof. fact. Qed.

(** 10^38 converts to 10^22: the low part is not padded with zeros. *)
Theorem C29_refuted : exists x r, well_formed B8 x /\ num B8 x = 10 ^ 38
  /\ to_decimal false B8 x = Ret r /\ num D8 r = 10 ^ 22.
Proof. exists ten38, (zeros 11 ++ [1]). fact. Qed.
Print Assumptions C29_refuted.
(** Missing from the full statement: 16 digits or more. *)
Theorem C29_partial : forall dbg t x, is_binary t = true -> well_formed t x ->
  (length x < 16)%nat ->
  exists r, to_decimal dbg t x = Ret r /\ well_formed (decimal_of t) r /\ num (decimal_of t) r = num t x.
Proof. exact to_decimal_claim. Qed.
Print Assumptions C29_partial.
Theorem C29_display_partial : forall dbg t x, is_binary t = true -> well_formed t x ->
  (length x < 16)%nat ->
  exists s, fmt_display_bin dbg t plain x = Ret s /\ numeral_of 10 s
    /\ numeral_value 10 s = num t x /\ minimal s.
Proof. exact display_bin_claim. Qed.
Print Assumptions C29_display_partial.
(** From 16 digits on: the conversion divides off powers of ten.  If no such division meets
    a tie ([cut_smoothly], SpecDec.v), it stops exactly when one of the divisions or of the
    squares that give the powers does ([cut_jams], [scale_jams], SpecBz.v), and otherwise
    the result is right exactly when no lower part starts with a zero decimal digit
    ([filled]), and too small if one does.  Missing: ties, and more than 5102 digits, where a
    power of ten may be wrong (C15). *)
Theorem C29_exact_partial : forall dbg t x, is_binary t = true -> well_formed t x ->
  Z.of_nat (length x) <= 5102 -> cut_smoothly t (num t x) ->
  (scale_jams t (num t x) \/ cut_jams t (num t x) -> to_decimal dbg t x = Panic (PUnwrap Underflow))
  /\ (~ (scale_jams t (num t x) \/ cut_jams t (num t x)) -> exists r, to_decimal dbg t x = Ret r
       /\ well_formed (decimal_of t) r /\ num (decimal_of t) r <= num t x
       /\ (num (decimal_of t) r = num t x <-> filled t (num t x))).
Proof. exact to_decimal_jam_claim. Qed.
Print Assumptions C29_exact_partial.
Theorem C29_display_exact_partial : forall dbg t x, is_binary t = true -> well_formed t x ->
  Z.of_nat (length x) <= 5102 -> cut_smoothly t (num t x) ->
  (scale_jams t (num t x) \/ cut_jams t (num t x) -> fmt_display_bin dbg t plain x = Panic (PUnwrap Underflow))
  /\ (~ (scale_jams t (num t x) \/ cut_jams t (num t x)) -> exists s, fmt_display_bin dbg t plain x = Ret s
       /\ numeral_of 10 s /\ minimal s /\ numeral_value 10 s <= num t x
       /\ (numeral_value 10 s = num t x <-> filled t (num t x))).
Proof. exact display_jam_claim. Qed.
Print Assumptions C29_display_exact_partial.
(** Up to 120 digits nothing stops. *)
Theorem C29_short : forall t x, is_binary t = true -> well_formed t x -> (length x <= 120)%nat ->
  ~ (scale_jams t (num t x) \/ cut_jams t (num t x)).
Proof. exact conversion_short. Qed.
Print Assumptions C29_short.
(** 3^83 and 3^85 have 17 digits; both are divided by 10^16, and the remainder of the
    second is below 10^14. *)
Definition p83 : digits := [219; 98; 217; 128; 184; 111; 183; 108; 218; 41; 153; 171; 67; 132; 95; 186; 11].
Definition p85 : digits := [179; 121; 164; 135; 124; 237; 114; 210; 173; 120; 98; 8; 97; 166; 91; 141; 105].
Example C29_exact_case : cut_smoothly B8 (num B8 p83) /\ filled B8 (num B8 p83)
  /\ cut_smoothly B8 (num B8 p85) /\ ~ filled B8 (num B8 p85)
  /\ match to_decimal true B8 p83 with Ret r => num D8 r = 3 ^ 83 | _ => False end
  /\ match to_decimal true B8 p85 with
     | Ret r => num D8 r = 3 ^ 85 / 10 ^ 16 * 10 ^ 14 + 3 ^ 85 mod 10 ^ 16 | _ => False end.
Proof.
  assert (C83 : cut B8 (num B8 p83) (10 ^ 16)).
  { exists 17, 3. split; [discriminate|]. split; [fact|]. split; [discriminate|]. split; [discriminate|].
    split; [right; reflexivity|reflexivity]. }
  assert (C85 : cut B8 (num B8 p85) (10 ^ 16)).
  { exists 17, 3. split; [discriminate|]. split; [fact|]. split; [discriminate|]. split; [discriminate|].
    split; [right; reflexivity|reflexivity]. }
  split.
  { apply (smooth_check B8 _ (10 ^ 16) p83 [0; 0; 193; 111; 242; 134; 35]);
      [reflexivity|exact C83|fact|fact|fact|reflexivity|fact|fact|].
    change (~ tie B8 p83 [0; 0; 193; 111; 242; 134; 35]).
    apply (no_tie_computed B8 _ _ 2); [reflexivity|dfact|vm_compute; reflexivity]. }
  split. { apply (filled_check B8 _ (10 ^ 16)); [reflexivity|exact C83|fact|fact|fact]. }
  split.
  { apply (smooth_check B8 _ (10 ^ 16) p85 [0; 0; 193; 111; 242; 134; 35]);
      [reflexivity|exact C85|fact|fact|fact|reflexivity|fact|fact|].
    change (~ tie B8 p85 [0; 0; 193; 111; 242; 134; 35]).
    apply (no_tie_computed B8 _ _ 2); [reflexivity|dfact|vm_compute; reflexivity]. }
  split. { rewrite (filled_check B8 _ (10 ^ 16) eq_refl C85); [|fact..]. apply Z.nle_gt. fact. }
  split; vm_compute; reflexivity.
Qed.
Example C29_case : well_formed B16 (zeros 14 ++ [3])
  /\ to_decimal true B16 [0; 0; 3] = Ret [1888; 8490; 128]
  /\ fmt_display_bin true B16 plain [0; 0; 3] = Ret [49; 50; 56; 56; 52; 57; 48; 49; 56; 56; 56].
Proof. fact. Qed.
