(** * Base: outcomes, panics, slices.

    No proofs in this file.  It fixes how Rust control flow is represented:

    - a Rust [Result<A>] is a value of type [result A];
    - a Rust computation that may panic is a value of type [M A]; [Panic w]
      says the thread panics, [w] records the cause;
    - loops/recursions that are not structural run on fuel; running out is the
      separate outcome [NoFuel], which theorems have to exclude;
    - a slice or vector of digits is a [list Z] in the crate's little-endian
      order; a [&mut] argument is passed in and returned. *)
From Coq Require Import ZArith List Bool.
Import ListNotations.
Open Scope Z_scope.

(** src/result.rs:14-26 *)
Inductive error := InvalidNumber | Underflow | DivisionByZero | NoSpace.

Inductive result (A : Type) := ROk (a : A) | RErr (e : error).
Arguments ROk {A} a.
Arguments RErr {A} e.

(** Causes of a panic. *)
Inductive panic :=
| PIndex                 (* index or slice range out of bounds *)
| POverflow              (* arithmetic overflow check (debug builds only) *)
| PDivZero               (* machine division by zero *)
| PAssert                (* assert! without one of the two messages below *)
| PWork                  (* assert!(.., "Insufficient work space"), and the debug assertions
                            on the length of a scratch buffer *)
| PSpace                 (* assert!(.., "Not enough space to store the result") *)
| PDebug                 (* debug_assert! (debug builds only) *)
| PUnwrap (e : error)    (* unwrap() on Err(e) *)
| PExplicit (e : error)  (* panic!("Failed to ...: {}", err) in src/ubig/ops.rs *)
| PUnimplemented.        (* unimplemented!() *)

Inductive M (A : Type) := Ret (a : A) | Panic (w : panic) | NoFuel.
Arguments Ret {A} a.
Arguments Panic {A} w.
Arguments NoFuel {A}.

Definition bind {A B} (e : M A) (k : A -> M B) : M B :=
  match e with Ret a => k a | Panic w => Panic w | NoFuel => NoFuel end.

Declare Scope m_scope.
Notation "x <- e ;; k" := (bind e (fun x => k))
  (at level 61, e at next level, right associativity) : m_scope.
Notation "' p <- e ;; k" := (bind e (fun p => k))
  (at level 61, p pattern, e at next level, right associativity) : m_scope.
Notation "e ;;; k" := (bind e (fun _ : unit => k))
  (at level 61, right associativity) : m_scope.
Open Scope m_scope.

(** [r.unwrap()] *)
Definition unwrap {A} (r : result A) : M A :=
  match r with ROk a => Ret a | RErr e => Panic (PUnwrap e) end.

(** [assert!(b)] with a given panic cause *)
Definition guard (b : bool) (w : panic) : M unit := if b then Ret tt else Panic w.

(** [debug_assert!(b)]: evaluated in debug builds only *)
Definition debug_assert (dbg b : bool) : M unit :=
  if dbg then guard b PDebug else Ret tt.

(** [debug_assert!(b, "Insufficient work space")] *)
Definition debug_work (dbg b : bool) : M unit :=
  if dbg then guard b PWork else Ret tt.

(** ** Slices *)
Definition digits := list Z.

(** [vec![T::zero(); n]] *)
Definition zeros (n : nat) : digits := repeat 0 n.

(** [&l[i..j]] *)
Definition sub_slice (l : digits) (i j : nat) : M digits :=
  if (i <=? j)%nat && (j <=? length l)%nat
  then Ret (firstn (j - i) (skipn i l)) else Panic PIndex.

(** [&l[..n]] *)
Definition prefix (l : digits) (n : nat) : M digits := sub_slice l 0 n.

(** [&l[i..]] *)
Definition suffix (l : digits) (i : nat) : M digits := sub_slice l i (length l).

(** [f(&mut l[i..j])]: run [f] on the sub-slice and write it back *)
Definition with_slice {A} (l : digits) (i j : nat)
    (f : digits -> M (digits * A)) : M (digits * A) :=
  s <- sub_slice l i j ;;
  '(s', a) <- f s ;;
  Ret (firstn i l ++ s' ++ skipn j l, a).

Definition with_prefix {A} (l : digits) (n : nat) (f : digits -> M (digits * A)) :=
  with_slice l 0 n f.
Definition with_suffix {A} (l : digits) (i : nat) (f : digits -> M (digits * A)) :=
  with_slice l i (length l) f.

(** [l.split_at(n)] / [l.split_at_mut(n)] *)
Definition split_at (l : digits) (n : nat) : M (digits * digits) :=
  if (n <=? length l)%nat then Ret (firstn n l, skipn n l) else Panic PIndex.

(** [l[i]] *)
Definition get (l : digits) (i : nat) : M Z :=
  match nth_error l i with Some d => Ret d | None => Panic PIndex end.

(** [l[i] = v] *)
Definition set (l : digits) (i : nat) (v : Z) : M digits :=
  if (i <? length l)%nat
  then Ret (firstn i l ++ v :: skipn (S i) l) else Panic PIndex.

(** [l[i..j].fill(0)] *)
Definition fill_zero (l : digits) (i j : nat) : M digits :=
  '(l, _) <- with_slice l i j (fun s => Ret (zeros (length s), tt)) ;; Ret l.

(** [l[i..j].copy_from_slice(s)]: panics when the lengths differ *)
Definition copy_into (l : digits) (i j : nat) (s : digits) : M digits :=
  '(l, _) <- with_slice l i j
     (fun t => guard (length t =? length s)%nat PIndex ;;; Ret (s, tt)) ;; Ret l.

(** [vec.truncate(n)] (keeps everything when [n] exceeds the length) *)
Definition truncate (n : nat) (l : digits) : digits := firstn n l.
