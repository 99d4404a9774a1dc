(** Properties C01-C05: cicada/circularbuffer.h.  Statements use only the call
    alphabet and the queue of QueueSpec.v, and [ring_run] on a fresh buffer. *)
From Coq Require Import List Bool Arith.
From Verif Require Import Base QueueSpec Ring RingProofs.
Import ListNotations.

(** C01: whatever a bounded FIFO queue of the buffer's capacity would let a
    user observe, the circular buffer lets a user observe exactly that. *)
Theorem C01_ring_is_bounded_fifo : forall (A : Type) (buf : list A) (ops : list (qop A)) q outs,
  q_run (length buf) [] ops = Some (q, outs) ->
  exists r, ring_run (ring_new buf) ops = Ok (r, outs).
Proof. exact @fifo_lemma. Qed.
Print Assumptions C01_ring_is_bounded_fifo.

(** Non-vacuity: a history that wraps around and mixes bulk and element calls. *)
Example C01_example :
  q_run (length [0; 0; 0]) []
    [PushMany [1; 2; 3; 4] 4; PullOne; PullOne; PushMany [5; 6] 2; IsFull; Peek; PullMany 9; IsEmpty;
     PushOne 7; SpaceAvailable; Flush; BytesAvailable; SizeOf]
  = Some ([], [OCount 3; OElem 1; OElem 2; OCount 2; OBool true; OElem 3; OData [3; 5; 6] 3; OBool true;
     ONone; OCount 2; ONone; OCount 0; OCount 3]).
Proof. reflexivity. Qed.

(** C02: in every state any history can lead to (overruns included), a bulk
    push stores min(n, space) elements, returns that count, and leaves the
    buffer exactly as that many element pushes would. *)
Theorem C02_bulk_push : forall (A : Type) (buf : list A) (h : list (qop A)) r outs data n,
  ring_run (ring_new buf) h = Ok (r, outs) -> n <= length data ->
  exists k s r', ring_run r [SpaceAvailable] = Ok (r, [OCount s]) /\ k = Nat.min n s /\
    ring_run r [PushMany data n] = Ok (r', [OCount k]) /\
    ring_run r (map PushOne (firstn k data)) = Ok (r', repeat ONone k).
Proof. exact @bulk_push_lemma. Qed.
Print Assumptions C02_bulk_push.

Theorem C02_bulk_pull : forall (A : Type) (buf : list A) (h : list (qop A)) r outs n,
  ring_run (ring_new buf) h = Ok (r, outs) ->
  exists k a l r', ring_run r [BytesAvailable] = Ok (r, [OCount a]) /\ k = Nat.min n a /\
    ring_run r [PullMany n] = Ok (r', [OData l k]) /\
    ring_run r (repeat PullOne k) = Ok (r', map OElem l).
Proof. exact @bulk_pull_lemma. Qed.
Print Assumptions C02_bulk_pull.

Example C02_example : exists r,
  ring_run (ring_new [0; 0; 0]) [PushMany [1; 2; 3] 3; PushOne 9; PullOne] =
  Ok (r, [OCount 3; ONone; OElem 9]).
Proof. eexists. vm_compute. reflexivity. Qed.

(** C03: no operation sequence whatsoever leaves the array, and the counters
    always add up. *)
Theorem C03_ring_safe_and_accounted : forall (A : Type) (buf : list A) (ops : list (qop A)),
  1 <= length buf -> Forall supplied ops ->
  exists r outs b s,
    ring_run (ring_new buf) (ops ++ [BytesAvailable; SpaceAvailable; SizeOf; IsEmpty; IsFull]) =
    Ok (r, outs ++ [OCount b; OCount s; OCount (length buf); OBool (b =? 0); OBool (s =? 0)]) /\
    b + s = length buf.
Proof. exact @safety_lemma. Qed.
Print Assumptions C03_ring_safe_and_accounted.

Example C03_example : 1 <= length [0; 0] /\
  Forall supplied [PullOne; PushOne 1; PushOne 2; PushOne 3; PushMany [4; 5] 2; PullMany 7].
Proof.
  split; [repeat constructor|].
  apply Forall_forall. intros o Ho. cbn [In] in Ho.
  repeat (destruct Ho as [<-|Ho]; [cbn; auto|]). destruct Ho.
Qed.

(** Without entries in the array every element operation is an access outside it. *)
Theorem C03_zero_size_refuted : forall (A : Type) (x : A),
  ring_run (ring_new []) [PushOne x] = UB OutOfBounds /\
  ring_run (@ring_new A []) [PullOne] = UB OutOfBounds.
Proof. intros A x. split; reflexivity. Qed.
Print Assumptions C03_zero_size_refuted.

(** C04 is false: an element pushed into a full buffer is delivered first, not
    last.  (Expected: 2, 3, 4.) *)
Theorem C04_overrun_keeps_order_refuted : exists (buf : list nat) (h : list (qop nat)) q outs x r,
  q_run (length buf) [] h = Some (q, outs) /\ length q = length buf /\
  ring_run (ring_new buf) (h ++ PushOne x :: repeat PullOne (length buf)) =
    Ok (r, outs ++ ONone :: map OElem [4; 2; 3]) /\
  tl q ++ [x] = [2; 3; 4].
Proof.
  exists [0; 0; 0], [PushMany [1; 2; 3] 3], [1; 2; 3], [OCount 3], 4. eexists.
  compute_all.
Qed.
Print Assumptions C04_overrun_keeps_order_refuted.

(** What holds instead: the new element takes the place of the oldest one, at
    the front of the queue, for every legal history that filled the buffer. *)
Theorem C04_overrun_exact : forall (A : Type) (buf : list A) (h : list (qop A)) y q outs x,
  q_run (length buf) [] h = Some (y :: q, outs) -> length (y :: q) = length buf ->
  exists r, ring_run (ring_new buf) (h ++ PushOne x :: repeat PullOne (length buf)) =
            Ok (r, outs ++ ONone :: map OElem (x :: q)).
Proof. exact @overrun_lemma. Qed.
Print Assumptions C04_overrun_exact.

(** ... and flush() restores queue behaviour after any history at all. *)
Theorem C04_flush_recovers : forall (A : Type) (buf : list A) (h ops : list (qop A)) q outs1 outs2 r1,
  ring_run (ring_new buf) h = Ok (r1, outs1) ->
  q_run (length buf) [] ops = Some (q, outs2) ->
  exists r2, ring_run (ring_new buf) (h ++ Flush :: ops) = Ok (r2, outs1 ++ ONone :: outs2).
Proof. exact @flush_recovers_lemma. Qed.
Print Assumptions C04_flush_recovers.

Example C04_example : q_run (length [0; 0; 0]) [] [PushMany [1; 2; 3; 4] 4; PullOne; PushOne 8]
  = Some ([2; 3; 8], [OCount 3; OElem 1; ONone]) /\ length [2; 3; 8] = length [0; 0; 0].
Proof. split; reflexivity. Qed.

(** C05 is false: after one pull from an empty buffer of at least two entries
    the next pushed element is not the next one pulled. *)
Theorem C05_underrun_refuted : forall (A : Type) (a b : A) rest x,
  exists r, ring_run (ring_new (a :: b :: rest)) [PullOne; PushOne x; PullOne] =
            Ok (r, [OElem a; ONone; OElem b]).
Proof. exact @underrun_lemma. Qed.
Print Assumptions C05_underrun_refuted.
