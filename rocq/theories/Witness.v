(** * Witness: concrete numbers used in refutations. *)
From Coq Require Import ZArith List Bool Lia.
From Verif Require Import Base Digit Slice Mul Div UBig Spec Cases.
Import ListNotations.
Open Scope Z_scope.

(** 41 digits whose low half is zero and whose high half is long: the middle
    product of the first Karatsuba step meets an operand with leading zeros. *)
Definition kara_bad : list Z := zeros 20 ++ [1] ++ [251] ++ repeat 255 19.

(** The same number with 64-bit digits, and its square. *)
Definition kara_bad64 : list Z :=
  [0; 0; 18446738580446380032; 18446744073709551615; 18446744073709551615; 255].
Definition kara_bad64_square : list Z :=
  [0;
   0;
   0;
   0;
   0;
   1635841;
   0;
   18443931522965700608;
   18446744073709551615;
   18446744073709551615;
   65535].

(** 128 digits with a short low third and a long middle third. *)
Definition toom_dirty : list Z := repeat 1 42 ++ [0] ++ repeat 255 43 ++ repeat 1 42.

(** Two short numbers of 128 digits.  The first is lost when the product is put
    together, the second when its value at -2 is formed. *)
Definition toom_bad (t : dty) : list Z := repeat (radix t - 1) 43 ++ zeros 84 ++ [1].
Definition toom_bad_point (t : dty) : list Z :=
  repeat (radix t - 1) 40 ++ zeros 3 ++ [radix t - 6] ++ repeat (radix t - 1) 39 ++ [0; 2; 0] ++ zeros 41 ++ [1].

Fixpoint bytes (n : nat) (v : Z) : list Z :=
  match n with O => [] | S n => v mod 256 :: bytes n (v / 256) end.

(** A number of 1132 digits, five of them non-zero, that is squared wrongly:
    on the third level of Toom-3 squaring an evaluation is shorter than the
    buffer its square is read from. *)
Definition square_bad (t : dty) : list Z :=
  let m := radix t - 1 in
  zeros 41 ++ [m; m] ++ zeros 712 ++ [m] ++ zeros 86 ++ [1] ++ zeros 288 ++ [1].

(** One evaluation that establishes a wrong square. *)
Definition wrong_square_b (dbg : bool) (t : dty) (n : nat) (x : list Z) : bool :=
  valid_b t x && normal_b x && (length x =? n)%nat
  && match square (impl dbg t) x with
     | Ret r => negb (num t r =? num t x * num t x)
     | _ => false
     end.
Lemma wrong_square_ok dbg t n x : wrong_square_b dbg t n x = true ->
  exists r, length x = n /\ well_formed t x /\ square (impl dbg t) x = Ret r
    /\ num t r <> num t x * num t x.
Proof.
  unfold wrong_square_b. intros H. apply andb_prop in H. destruct H as [H1 H2].
  apply andb_prop in H1. destruct H1 as [H1 Hn].
  destruct (square (impl dbg t) x) as [r|w|]; try discriminate H2.
  exists r. split; [apply Nat.eqb_eq, Hn|]. split; [apply well_formed_b_ok, H1|]. split; [reflexivity|].
  destruct (Z.eqb_spec (num t r) (num t x * num t x)); [discriminate H2|assumption].
Qed.

(** The entry point of squaring with caller-provided buffers (src/ubig/mul.rs:219-244). *)
Definition square_with_work (dbg : bool) (t : dty) (x out work : list Z) : M (list Z) :=
  match square_fuel (impl dbg t) (S (length x)) x out work with
  | Ret (pr, _, n) => Ret (firstn n pr)
  | Panic w => Panic w
  | NoFuel => NoFuel
  end.
Definition value_of (e : M (list Z)) : option Z :=
  match e with Ret r => Some (num B8 r) | _ => None end.
Definition dirty_b (x out out' work : list Z) : bool :=
  match square_with_work true B8 x out work, square_with_work true B8 x out' work with
  | Ret r, Ret r' => negb (num B8 r =? num B8 r')
  | _, _ => false
  end.
Lemma dirty_ok x out out' work : dirty_b x out out' work = true ->
  exists r r', square_with_work true B8 x out work = Ret r
    /\ square_with_work true B8 x out' work = Ret r' /\ num B8 r <> num B8 r'.
Proof.
  unfold dirty_b. destruct (square_with_work true B8 x out work) as [r| |]; try discriminate.
  destruct (square_with_work true B8 x out' work) as [r'| |]; try discriminate.
  intros H. exists r, r'. repeat split; auto.
  destruct (Z.eqb_spec (num B8 r) (num B8 r')); [discriminate H|assumption].
Qed.

(** 10^38 in 16 bytes *)
Definition ten38 : list Z := bytes 16 (10 ^ 38).
