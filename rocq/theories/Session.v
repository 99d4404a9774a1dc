(** Scripts of calls and modem replies, for the examples beside the theorems. *)
From Coq Require Import String Ascii ZArith List Bool Arith.
From Verif Require Import Base Ring LineRing Serial SerialSpec CStr Dev.
Import ListNotations.
Local Open Scope nat_scope.

Section Session.
Context {SS RS X XO : Type}.
Variable D : driver SS RS X XO.
Notation dv := (dev SS RS X).

Definition script : Type := list (dop XO * list (list isr)).

(** The modem takes what was sent to it and answers [s], between two calls. *)
Definition modem (s : bytes) : dop XO * list (list isr) :=
  (OpIdle, [map (fun c => Transfer (Some c) true) s ++ repeat (Transfer None true) 128]).
(** A call without interrupts. *)
Definition call (o : dop XO) : dop XO * list (list isr) := (o, []).
Definition runs_ (n : nat) : script := repeat (call (OpRun true)) n.
(** Answers to commands, with a run() after each. *)
Definition dialog (l : list bytes) : script := flat_map (fun s => [modem s; call (OpRun true)]) l.

(** For reading: without line ends. *)
Definition shown (b : bytes) : string :=
  string_of_list_ascii (filter (fun c => negb (Ascii.eqb c CR || Ascii.eqb c LF)) b).

(** What is seen: the results of the calls other than run() and the bytes
    queued for the modem, call by call. *)
Definition seen (d0 : res dv) (h : script) : res (list dobs * list string) :=
  let* d := d0 in let* (_, outs) := d_run D d h in
  Ok (filter (fun o => match o with DNone => false | _ => true end) (map fst outs),
      map shown (filter (fun b => negb (length b =? 0)) (map (fun o => put (snd o)) outs))).
(** A part of the state at the end. *)
Definition ends {A} (f : dv -> A) (d0 : res dv) (h : script) : res A :=
  let* d := d0 in let* (d, _) := d_run D d h in Ok (f d).
End Session.

Definition crlf (s : bytes) : bytes := s ++ [CR; LF].
Definition ser64 : serial := mkSerial (lring_new (repeat NUL 128)) (lring_new (repeat NUL 128)).
