(** * Property C38: buffers are always large enough.

    Digits are arbitrary here: not even their range is assumed. *)
From Coq Require Import ZArith List Bool.
From Verif Require Import Base Digit Slice Mul Div UBig Spec SpecRoom Room RoomDiv Cases.
Import ListNotations.
Open Scope Z_scope.

Theorem C38_multiply : forall dbg t x y, enough_room (mul_big (impl dbg t) x y).
Proof. exact room_mul_claim. Qed.
Print Assumptions C38_multiply.
Theorem C38_square : forall dbg t x, enough_room (square (impl dbg t) x).
Proof. exact room_square_claim. Qed.
Print Assumptions C38_square.
Theorem C38_pow : forall dbg t x n, enough_room (pow (impl dbg t) x n).
Proof. exact room_pow_claim. Qed.
Print Assumptions C38_pow.
(** a divisor with a zero leading digit is not a value of the type (C01) *)
Theorem C38_divide : forall dbg t x y, normal y ->
  enough_room (div_assign (impl dbg t) x y) /\ enough_room (div_assign_big (impl dbg t) x y)
  /\ forall q, div_assign_big (impl dbg t) x y <> Ret (q, RErr NoSpace).
Proof. exact room_div_claim. Qed.
Print Assumptions C38_divide.
Theorem C38_remainder : forall dbg t x y, normal y ->
  enough_room (rem_assign (impl dbg t) x y) /\ enough_room (rem_assign_big (impl dbg t) x y)
  /\ forall q, rem_assign_big (impl dbg t) x y <> Ret (q, RErr NoSpace).
Proof. exact room_rem_claim. Qed.
Print Assumptions C38_remainder.

(** Scratch and recursion in use: an unbalanced Toom-3 product inside which
    Karatsuba is used, and a recursive division by 78 digits *)
Example C38_case :
  match mul_big (impl true B8) (repeat 255 300) (repeat 7 130) with
  | Ret r => length r = 430%nat
  | _ => False
  end
  /\ match div_assign_big (impl false B8) (repeat 255 200) (repeat 3 77 ++ [128]) with
     | Ret (q, ROk r) => length q = 123%nat
     | _ => False
     end.
Proof. vm_compute. split; reflexivity. Qed.
