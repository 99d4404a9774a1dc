(** Specification of a buffered serial port, as a condition on the chronological
    record of what happened at it.  Independent of the model's buffers. *)
From Coq Require Import Ascii List Bool Arith.
From Verif Require Import QueueSpec LineSpec.
Import ListNotations.

(** What can happen to a byte. *)
Inductive event : Type :=
| EvStored (c : ascii)    (* received from the wire, accepted *)
| EvDropped (c : ascii)   (* received from the wire, discarded *)
| EvTaken (c : ascii)     (* handed to the program by a read function *)
| EvPut (c : ascii)       (* accepted from the program by a write function *)
| EvSent (c : ascii)      (* handed to the wire *)
| EvFlushed               (* flushReceiveBuffers() *)
| EvMisuse.               (* read() on an empty or write(byte) on a full buffer *)

(** The receive direction replayed on a list: bytes are taken in the order they
    were stored, each once.  [None]: some taken byte was not the oldest one. *)
Fixpoint rx_replay (log : list event) (q : list ascii) : option (list ascii) :=
  match log with
  | [] => Some q
  | EvStored c :: log' => rx_replay log' (q ++ [c])
  | EvTaken c :: log' =>
      match q with
      | x :: q' => if Ascii.eqb x c then rx_replay log' q' else None
      | [] => None
      end
  | EvFlushed :: log' => rx_replay log' []
  | _ :: log' => rx_replay log' q
  end.

(** The transmit direction likewise. *)
Fixpoint tx_replay (log : list event) (q : list ascii) : option (list ascii) :=
  match log with
  | [] => Some q
  | EvPut c :: log' => tx_replay log' (q ++ [c])
  | EvSent c :: log' =>
      match q with
      | x :: q' => if Ascii.eqb x c then tx_replay log' q' else None
      | [] => None
      end
  | _ :: log' => tx_replay log' q
  end.

Definition is_misuse (e : event) : bool := match e with EvMisuse => true | _ => false end.
Definition clean (log : list event) : Prop := existsb is_misuse log = false.

Fixpoint taken (log : list event) : list ascii :=
  match log with [] => [] | EvTaken c :: l => c :: taken l | _ :: l => taken l end.
Fixpoint put (log : list event) : list ascii :=
  match log with [] => [] | EvPut c :: l => c :: put l | _ :: l => put l end.
Fixpoint sent (log : list event) : list ascii :=
  match log with [] => [] | EvSent c :: l => c :: sent l | _ :: l => sent l end.
Fixpoint stored (log : list event) : list ascii :=
  match log with [] => [] | EvStored c :: l => c :: stored l | _ :: l => stored l end.

(** Calls of the serial interface.  [SIdle]: the program does something else
    while interrupts may happen. *)
Inductive scall : Type :=
| SIdle | SBytesAvailable | SSpaceAvailable
| SReadMany (n : nat) | SReadOne | SReadLine (n : nat) | SCanReadLine | SFlushRx
| SWriteMany (data : list ascii) (n : nat) | SWriteStr (str : list ascii) | SWriteOne (c : ascii)
| SReadBufferSize | SWriteBufferSize.

(** C string: the characters before the terminator. *)
Fixpoint str_body (s : list ascii) : list ascii :=
  match s with
  | [] => []
  | c :: s' => if Ascii.eqb c "000"%char then [] else c :: str_body s'
  end.

(** The caller's contract: announced data is supplied, strings are terminated. *)
Definition call_ok (c : scall) : Prop :=
  match c with
  | SWriteMany data n => n <= length data
  | SWriteStr str => In "000"%char str
  | _ => True
  end.

(** How the result of a call relates to the bytes it moved. *)
Definition explains (c : scall) (out : qobs ascii) (ev : list event) : Prop :=
  match c with
  | SReadMany n => out = OData (taken ev) (length (taken ev)) /\ length (taken ev) <= n /\ put ev = []
  | SReadOne => (exists x, out = OElem x /\ taken ev = [x]) /\ put ev = []
  | SReadLine n =>
      put ev = [] /\
      match n with
      | 0 => out = OCount 0 /\ taken ev = []
      | S m => out = OData (firstn m (taken ev) ++ ["000"%char]) (length (firstn m (taken ev))) /\
               ((exists body, taken ev = body ++ [newline] /\ ~ In newline body) \/ ~ In newline (taken ev))
      end
  | SWriteMany data n => out = OCount (length (put ev)) /\ length (put ev) <= n /\
                         put ev = firstn (length (put ev)) data /\ taken ev = []
  | SWriteStr str => out = OCount (length (put ev)) /\
                     put ev = firstn (length (put ev)) (str_body str) /\ taken ev = []
  | SWriteOne x => out = ONone /\ put ev = [x] /\ taken ev = []
  | _ => taken ev = [] /\ put ev = []
  end.
