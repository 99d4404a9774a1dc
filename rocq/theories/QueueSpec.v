(** Specification: a bounded first-in first-out queue.  Independent of the
    model of the circular buffer; a state is just the list of queued elements,
    oldest first. *)
From Coq Require Import List Bool Arith.
Import ListNotations.

Section Queue.
Context {A : Type}.

(** The calls a user of CircularBuffer can make. *)
Inductive qop : Type :=
| PushMany (data : list A) (n : nat)  (* push(data, n) *)
| PushOne (x : A)                     (* push(x) *)
| PullMany (n : nat)                  (* pull(data, n) *)
| PullOne                             (* pull() *)
| Peek                                (* read() *)
| Flush
| IsEmpty | IsFull | BytesAvailable | SpaceAvailable | SizeOf.

(** What a call lets its user observe. *)
Inductive qobs : Type :=
| ONone
| OElem (x : A)
| OCount (n : nat)
| OData (l : list A) (n : nat)        (* elements stored, count returned *)
| OBool (b : bool).

(** One call on a queue of capacity [cap] holding [q].  [None]: the call is not
    allowed (element push on a full queue, element pull/peek on an empty one,
    fewer elements supplied than announced). *)
Definition q_step (cap : nat) (q : list A) (o : qop) : option (list A * qobs) :=
  let room := cap - length q in
  match o with
  | PushMany data n =>
      if length data <? n then None
      else Some (q ++ firstn (Nat.min n room) data, OCount (Nat.min n room))
  | PushOne x => if room =? 0 then None else Some (q ++ [x], ONone)
  | PullMany n => Some (skipn n q, OData (firstn n q) (Nat.min n (length q)))
  | PullOne => match q with [] => None | x :: q' => Some (q', OElem x) end
  | Peek => match q with [] => None | x :: _ => Some (q, OElem x) end
  | Flush => Some ([], ONone)
  | IsEmpty => Some (q, OBool (length q =? 0))
  | IsFull => Some (q, OBool (room =? 0))
  | BytesAvailable => Some (q, OCount (length q))
  | SpaceAvailable => Some (q, OCount room)
  | SizeOf => Some (q, OCount cap)
  end.

(** A list of calls: the final queue and everything observed; [None] if some
    call was not allowed. *)
Fixpoint q_run (cap : nat) (q : list A) (os : list qop) : option (list A * list qobs) :=
  match os with
  | [] => Some (q, [])
  | o :: os' =>
      match q_step cap q o with
      | None => None
      | Some (q1, out) =>
          match q_run cap q1 os' with
          | None => None
          | Some (q2, outs) => Some (q2, out :: outs)
          end
      end
  end.

(** The only contract a caller always has: bulk pushes supply the announced data. *)
Definition supplied (o : qop) : Prop :=
  match o with PushMany data n => n <= length data | _ => True end.

End Queue.
Arguments qop : clear implicits.
Arguments qobs : clear implicits.
