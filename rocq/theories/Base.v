(** Common vocabulary of the model: outcomes with undefined behaviour and
    machine integers.  This file models C++ itself, not a file of /repo. *)
From Coq Require Import String Ascii ZArith Bool List Lia.
Import ListNotations.

(** ** Outcomes *)

(** Kinds of undefined behaviour the model distinguishes. *)
Inductive ub : Type :=
| OutOfBounds      (* access outside an array *)
| Uninitialised    (* use of an uninitialised object *)
| NullDeref        (* dereference of / string operation on NULL *)
| IntOverflow      (* signed integer overflow *)
| Diverges.        (* loop fuel exhausted: a model artefact, excluded by theorems *)

(** A C++ call either returns or has undefined behaviour. *)
Inductive res (A : Type) : Type :=
| Ok (a : A)
| UB (u : ub).
Arguments Ok {A} a.
Arguments UB {A} u.

Definition bind {A B} (x : res A) (f : A -> res B) : res B :=
  match x with Ok a => f a | UB u => UB u end.

Declare Scope res_scope.
Delimit Scope res_scope with res.
Notation "'let*' x ':=' e 'in' f" :=
  (bind e (fun x => f)) (at level 200, x pattern, e at level 100, f at level 200) : res_scope.
Open Scope res_scope.

(** Array read and write with bounds check. *)
Definition rd {A} (l : list A) (i : nat) : res A :=
  match nth_error l i with Some a => Ok a | None => UB OutOfBounds end.

Fixpoint list_set {A} (l : list A) (i : nat) (x : A) : list A :=
  match l, i with
  | [], _ => []
  | _ :: t, 0 => x :: t
  | h :: t, S j => h :: list_set t j x
  end.

Definition wr {A} (l : list A) (i : nat) (x : A) : res (list A) :=
  if Nat.ltb i (length l) then Ok (list_set l i x) else UB OutOfBounds.

(** ** Machine integers *)

Definition u8  (z : Z) : Z := (z mod 256)%Z.
Definition u16 (z : Z) : Z := (z mod 65536)%Z.
Definition u32 (z : Z) : Z := (z mod 4294967296)%Z.
Definition u64 (z : Z) : Z := (z mod 18446744073709551616)%Z.
Definition i16 (z : Z) : Z := ((z + 32768) mod 65536 - 32768)%Z.
Definition i32 (z : Z) : Z := ((z + 2147483648) mod 4294967296 - 2147483648)%Z.

(** ** Characters *)

Definition byte := ascii.
Definition bytes := list ascii.

Definition NUL : ascii := "000"%char.
Definition LF : ascii := "010"%char.
Definition CR : ascii := "013"%char.
Definition DQ : ascii := "034"%char.

Definition bs (s : string) : bytes := list_ascii_of_string s.

Definition aeqb (a b : ascii) : bool := Ascii.eqb a b.

(** Closing concrete goals by computation. *)
Ltac conj_ex := repeat match goal with |- _ /\ _ => split | |- exists _, _ => eexists end.
Ltac compute_all := conj_ex; vm_compute; reflexivity.
