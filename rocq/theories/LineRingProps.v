(** Properties C06-C08: cicada/linecircularbuffer.h. *)
From Coq Require Import Ascii ZArith List Bool Arith.
From Verif Require Import Base QueueSpec LineSpec Ring LineRing LineRingProofs.
Import ListNotations.

(** C06, C07: a line buffer of fewer than 65536 characters behaves as the line
    queue of LineSpec.v: in particular numBufferedLines() is the number of line
    ends queued, and readLine(n) removes exactly the first line and delivers its
    first n characters. *)
Theorem C06_line_buffer_is_line_queue : forall buf ops q outs, (Z.of_nat (length buf) < 65536)%Z ->
  lq_run (length buf) [] ops = Some (q, outs) ->
  exists l, lr_run (lring_new buf) ops = Ok (l, outs).
Proof. exact line_fifo_lemma. Qed.
Print Assumptions C06_line_buffer_is_line_queue.

Example C06_example :
  lq_run 6 [] [Plain (PushMany ["a"; newline; "b"; "c"; newline; "d"; "e"]%char 7); NumLines; ReadLine 1; NumLines;
               ReadLine 9; NumLines; ReadLine 9; Plain (PushOne newline); NumLines; Plain Flush; NumLines]
  = Some ([], [OCount 6; OCount 2; OData ["a"%char] 1; OCount 1; OData ["b"; "c"; newline]%char 3; OCount 0;
               OData ["d"%char] 1; ONone; OCount 1; ONone; OCount 0]).
Proof. vm_compute. reflexivity. Qed.

(** C07: one call on its own, after every legal history and for every n (any
    capacity below 65536): exactly the first line is removed, its first n
    characters delivered, and everything after it is left for later calls. *)
Theorem C07_readline_removes_one_line : forall buf ops q outs n line rest,
  (Z.of_nat (length buf) < 65536)%Z ->
  lq_run (length buf) [] ops = Some (q, outs) -> split_line q = (line, rest) ->
  exists l, lr_run (lring_new buf) (ops ++ [ReadLine n; Plain (PullMany (length buf))]) =
    Ok (l, outs ++ [OData (firstn n line) (Nat.min n (length line)); OData rest (length rest)]).
Proof. exact readline_lemma. Qed.
Print Assumptions C07_readline_removes_one_line.

(** [split_line] is what it says: the pieces make up the queue, and the line
    has no line end except as its last character. *)
Theorem C07_split_line_spec : forall q line rest, split_line q = (line, rest) ->
  line ++ rest = q /\
  ((exists body, line = body ++ [newline] /\ ~ In newline body) \/ (rest = [] /\ ~ In newline line)).
Proof. exact split_line_spec. Qed.
Print Assumptions C07_split_line_spec.

(** For every capacity the counter is exact modulo 65536 ... *)
Theorem C08_counter_exact_mod_2_16 : forall buf ops q outs,
  lq_run (length buf) [] ops = Some (q, outs) ->
  exists l outs', lr_run (lring_new buf) (ops ++ [NumLines]) =
    Ok (l, outs' ++ [OCount (Z.to_nat (Z.of_nat (line_count q) mod 65536))]).
Proof. exact counter_mod_lemma. Qed.
Print Assumptions C08_counter_exact_mod_2_16.

(** ... so C08 is false: with 65536 lines queued the buffer claims to hold none. *)
Theorem C08_counter_wrap_refuted : forall buf n, Z.of_nat n = 65536%Z -> length buf = n ->
  exists l, lr_run (lring_new buf) [Plain (PushMany (repeat newline n) n); Plain IsFull; NumLines] =
    Ok (l, [OCount n; OBool true; OCount 0]).
Proof. exact counter_wrap_lemma. Qed.
Print Assumptions C08_counter_wrap_refuted.

(** Also false after an overrun: the overwritten line end stays counted, and
    the buffer claims a line it does not hold. *)
Theorem C08_overrun_refuted : exists l,
  lr_run (lring_new ["0"; "0"]%char)
    [Plain (PushOne newline); Plain (PushOne "a"%char); Plain (PushOne "b"%char); Plain (PullMany 2); NumLines] =
  Ok (l, [ONone; ONone; ONone; OData ["b"; "a"]%char 2; OCount 1]).
Proof. compute_all. Qed.
Print Assumptions C08_overrun_refuted.

(** And after an underrun: an empty buffer claims 65535 lines. *)
Theorem C08_underrun_refuted : exists l,
  lr_run (lring_new ["0"%char])
    [Plain (PushOne newline); Plain PullOne; Plain PullOne; Plain IsEmpty; NumLines] =
  Ok (l, [ONone; OElem newline; OElem newline; OBool true; OCount (Z.to_nat 65535)]).
Proof. eexists. cbv -[Z.to_nat]. reflexivity. Qed.
Print Assumptions C08_underrun_refuted.
