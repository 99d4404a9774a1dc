(** Pieces of the commands of the Simcom drivers. *)
From Coq Require Import String Ascii ZArith Bool List.
From Verif Require Import Base QueueSpec SerialSpec CStr CStrProofs Dev DevProofs SimDev.
Import ListNotations.
Local Open Scope nat_scope.

(** The string a pointer member points to. *)
Definition text (p : cptr) : bytes := match p with PStr s => cbody s | _ => [] end.
Definition quoted (s : bytes) : bytes := [DQ] ++ s ++ [DQ].
