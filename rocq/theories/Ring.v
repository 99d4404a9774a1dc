(** Model of cicada/circularbuffer.h (class template CircularBuffer). *)
From Coq Require Import List Bool Arith.
From Verif Require Import Base QueueSpec.
Import ListNotations.

Section Ring.
Context {A : Type}.

(** circularbuffer.h:190-194, the data members.  [mem] is the user supplied
    array behind [_buffer]; the constructor's contract is that it has
    [_bufferSize] entries. *)
Record ring : Type := mkRing {
  whead : nat;   (* _writeHead *)
  rhead : nat;   (* _readHead *)
  avail : nat;   (* _availableData *)
  rsize : nat;   (* _bufferSize *)
  mem   : list A (* *_buffer *)
}.

(** circularbuffer.h:47-49, constructor. *)
Definition ring_new (buffer : list A) : ring :=
  mkRing 0 0 0 (length buffer) buffer.

(** circularbuffer.h:196-201, incrementOrResetHead. *)
Definition incr_head (size head : nat) : nat :=
  if size <=? S head then 0 else S head.

(** circularbuffer.h:176-179, spaceAvailable.  Truncated subtraction on nat is
    exact because [avail <= rsize] is invariant (RingProofs.ring_wf). *)
Definition ring_space (r : ring) : nat := rsize r - avail r.

(** circularbuffer.h:152-163 *)
Definition ring_is_empty (r : ring) : bool := avail r =? 0.
Definition ring_is_full (r : ring) : bool := avail r =? rsize r.

(** circularbuffer.h:66-69, body of the bulk push loop: store one element and
    advance the write head; [_availableData] is updated after the loop. *)
Definition ring_store (r : ring) (x : A) : res ring :=
  let* m := wr (mem r) (whead r) x in
  Ok (mkRing (incr_head (rsize r) (whead r)) (rhead r) (avail r) (rsize r) m).

(** circularbuffer.h:66-69, the loop, [n] iterations from the front of [data]. *)
Fixpoint ring_store_loop (n : nat) (data : list A) (r : ring) : res ring :=
  match n with
  | 0 => Ok r
  | S n' =>
      match data with
      | [] => UB OutOfBounds
      | x :: data' => let* r' := ring_store r x in ring_store_loop n' data' r'
      end
  end.

(** circularbuffer.h:59-73, push(const T*, Size). *)
Definition ring_push_many (r : ring) (data : list A) (n : nat) : res (ring * nat) :=
  let k := if ring_space r <? n then ring_space r else n in
  let* r' := ring_store_loop k data r in
  Ok (mkRing (whead r') (rhead r') (avail r' + k) (rsize r') (mem r'), k).

(** circularbuffer.h:82-88, push(T). *)
Definition ring_push (r : ring) (x : A) : res ring :=
  let* r' := ring_store r x in
  Ok (mkRing (whead r') (rhead r')
             (if avail r' <? rsize r' then S (avail r') else avail r')
             (rsize r') (mem r')).

(** circularbuffer.h:103-106, body of the bulk pull loop. *)
Definition ring_fetch (r : ring) : res (A * ring) :=
  let* x := rd (mem r) (rhead r) in
  Ok (x, mkRing (whead r) (incr_head (rsize r) (rhead r)) (avail r) (rsize r) (mem r)).

(** circularbuffer.h:103-106, the loop, [n] iterations. *)
Fixpoint ring_fetch_loop (n : nat) (r : ring) : res (list A * ring) :=
  match n with
  | 0 => Ok ([], r)
  | S n' =>
      let* (x, r1) := ring_fetch r in
      let* (l, r2) := ring_fetch_loop n' r1 in
      Ok (x :: l, r2)
  end.

(** circularbuffer.h:96-110, pull(T*, Size): the elements stored through [data]
    and the count returned.  (The caller's array is assumed to have room for
    [n] elements.) *)
Definition ring_pull_many (r : ring) (n : nat) : res (list A * nat * ring) :=
  let k := if avail r <? n then avail r else n in
  let* (l, r') := ring_fetch_loop k r in
  Ok (l, k, mkRing (whead r') (rhead r') (avail r' - k) (rsize r') (mem r')).

(** circularbuffer.h:118-126, pull(). *)
Definition ring_pull (r : ring) : res (A * ring) :=
  let* (x, r') := ring_fetch r in
  Ok (x, mkRing (whead r') (rhead r')
                (if 0 <? avail r' then avail r' - 1 else avail r')
                (rsize r') (mem r')).

(** circularbuffer.h:134-137, read(). *)
Definition ring_read (r : ring) : res A := rd (mem r) (rhead r).

(** circularbuffer.h:142-147, flush(). *)
Definition ring_flush (r : ring) : ring := mkRing 0 0 0 (rsize r) (mem r).

(** One API call: dispatch on the call, collecting what the caller observes. *)
Definition ring_step (r : ring) (o : qop A) : res (ring * qobs A) :=
  match o with
  | PushMany data n => let* (r', k) := ring_push_many r data n in Ok (r', OCount k)
  | PushOne x => let* r' := ring_push r x in Ok (r', ONone)
  | PullMany n => let* (l, k, r') := ring_pull_many r n in Ok (r', OData l k)
  | PullOne => let* (x, r') := ring_pull r in Ok (r', OElem x)
  | Peek => let* x := ring_read r in Ok (r, OElem x)
  | Flush => Ok (ring_flush r, ONone)
  | IsEmpty => Ok (r, OBool (ring_is_empty r))
  | IsFull => Ok (r, OBool (ring_is_full r))
  | BytesAvailable => Ok (r, OCount (avail r))
  | SpaceAvailable => Ok (r, OCount (ring_space r))
  | SizeOf => Ok (r, OCount (rsize r))
  end.

Fixpoint ring_run (r : ring) (os : list (qop A)) : res (ring * list (qobs A)) :=
  match os with
  | [] => Ok (r, [])
  | o :: os' =>
      let* (r1, out) := ring_step r o in
      let* (r2, outs) := ring_run r1 os' in
      Ok (r2, out :: outs)
  end.

End Ring.
Arguments ring : clear implicits.
