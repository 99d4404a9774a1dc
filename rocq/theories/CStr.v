(** C library functions on character arrays used by the drivers: strlen,
    strncmp, strtol, "%u" printing.  An array is the list of its bytes from the
    pointer on; running off its end is [UB OutOfBounds].  This file models the C
    library, not a file of /repo. *)
From Coq Require Import String Ascii ZArith Bool List.
From Verif Require Import Base SerialSpec.
Import ListNotations.
Local Open Scope Z_scope.

(** What differs between platforms: signedness of plain char, width of long. *)
Record plat : Type := mkPlat { char_signed : bool; long64 : bool }.

(** A [const char*] member: never assigned, NULL, or a string (its characters;
    the terminating NUL is implied). *)
Inductive cptr : Type := PUninit | PNull | PStr (s : bytes).

(** strlen of a string literal or a terminated string. *)
Definition clen (s : bytes) : nat := length (str_body (s ++ [NUL])).

(** strncmp(a, b, n) == 0 *)
Fixpoint strncmp (n : nat) (a b : bytes) : res bool :=
  match n with
  | O => Ok true
  | S n' =>
      match a, b with
      | x :: a', y :: b' =>
          if negb (aeqb x y) then Ok false
          else if aeqb x NUL then Ok true
          else strncmp n' a' b'
      | _, _ => UB OutOfBounds
      end
  end.

Definition code (c : ascii) : Z := Z.of_nat (nat_of_ascii c).
Definition is_digit (c : ascii) : bool := (48 <=? code c) && (code c <=? 57).
Definition digit_val (c : ascii) : Z := code c - 48.
(** isspace in the C locale *)
Definition is_space (c : ascii) : bool := (code c =? 32) || ((9 <=? code c) && (code c <=? 13)).

(** strtol: leading white space, sign, digits. *)
Fixpoint strtol_digits (a : bytes) (acc : Z) : res Z :=
  match a with
  | [] => UB OutOfBounds
  | c :: a' => if is_digit c then strtol_digits a' (acc * 10 + digit_val c) else Ok acc
  end.

Definition strtol_sign (a : bytes) : res Z :=
  match a with
  | [] => UB OutOfBounds
  | c :: a' =>
      if code c =? 45 then let* v := strtol_digits a' 0 in Ok (- v)
      else if code c =? 43 then strtol_digits a' 0
      else strtol_digits a 0
  end.

Fixpoint strtol_raw (a : bytes) : res Z :=
  match a with
  | [] => UB OutOfBounds
  | c :: a' => if is_space c then strtol_raw a' else strtol_sign a
  end.

(** Saturation at LONG_MIN / LONG_MAX. *)
Definition long_max (p : plat) : Z := if long64 p then 9223372036854775807 else 2147483647.
Definition long_sat (p : plat) (v : Z) : Z :=
  if v <? - long_max p - 1 then - long_max p - 1
  else if long_max p <? v then long_max p else v.

Definition strtol (p : plat) (a : bytes) : res Z :=
  let* v := strtol_raw a in Ok (long_sat p v).

(** "%u": decimal digits of a 32 bit unsigned value, no leading zeros.  Ten
    digits are enough for 32 bits. *)
Definition digit (d : Z) : ascii := ascii_of_nat (Z.to_nat (48 + d)).
Fixpoint dec_loop (fuel : nat) (n : Z) (acc : bytes) : bytes :=
  match fuel with
  | O => acc
  | S f => let acc' := digit (n mod 10) :: acc in
           if n / 10 =? 0 then acc' else dec_loop f (n / 10) acc'
  end.
Definition dec (n : Z) : bytes := dec_loop 10 (u32 n) [].

(** snprintf(buf, 6, "%u", n): cut to five characters. *)
Definition snprintf6 (n : Z) : bytes := firstn 5 (dec n).
(** sprintf(buf, "%u", n) into a 6 byte array. *)
Definition sprintf6 (n : Z) : res bytes :=
  if Nat.leb (length (dec n)) 5 then Ok (dec n) else UB OutOfBounds.

(** Storing consecutive characters into an array from index [i] on. *)
Fixpoint wr_list (buf : bytes) (i : nat) (l : bytes) : res bytes :=
  match l with
  | [] => Ok buf
  | c :: l' => let* buf' := wr buf i c in wr_list buf' (S i) l'
  end.
