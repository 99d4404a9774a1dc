(** Properties C09-C16: cicada/bufferedserial.cpp, for every schedule of
    interrupts.  [history rbuf wbuf cs s outs]: starting from a fresh port, the
    calls [cs] (each with its interrupts) led to [s], with results and events
    [outs]. *)
From Coq Require Import Ascii String ZArith List Bool Arith.
From Verif Require Import Base QueueSpec LineSpec SerialSpec Serial SerialProofs.
Import ListNotations.
Open Scope list_scope.

(** ** C09, C10: the byte streams *)

(** Whatever the interrupts do and whatever is called, misuse included, no
    access leaves the buffers and every call terminates. *)
Theorem C09_serial_never_faults : forall rbuf wbuf cs, 1 <= length rbuf -> 1 <= length wbuf ->
  Forall (fun p => call_ok (fst p)) cs ->
  exists s outs, s_run (serial_new rbuf wbuf) cs = Ok (s, outs).
Proof. exact serial_safe_lemma. Qed.
Print Assumptions C09_serial_never_faults.

(** The bytes handed to the program are the bytes received, in order, each
    once, the flushed ones excepted; the results of the calls are those bytes;
    and what has not been handed out yet comes with the next bulk read. *)
Theorem C09_rx_stream : forall rbuf wbuf cs s outs n, history rbuf wbuf cs s outs -> length rbuf <= n ->
  exists rest s' ev,
    rx_replay (concat (map snd outs)) [] = Some rest /\
    Forall2 (fun p o => explains (fst p) (fst o) (snd o)) cs outs /\
    s_run s [(SReadMany n, [])] = Ok (s', [(OData rest (length rest), ev)]).
Proof. exact serial_rx_lemma. Qed.
Print Assumptions C09_rx_stream.

(** Without flushes: received = delivered ++ still buffered. *)
Theorem C09_rx_received_is_delivered : forall rbuf wbuf cs s outs, history rbuf wbuf cs s outs ->
  ~ In EvFlushed (concat (map snd outs)) ->
  exists rest, length rest <= length rbuf /\
    stored (concat (map snd outs)) = taken (concat (map snd outs)) ++ rest.
Proof. exact rx_streams_lemma. Qed.
Print Assumptions C09_rx_received_is_delivered.

(** The bytes handed to the wire are the bytes accepted from the program, in
    order, each once; the rest follows when the wire accepts it. *)
Theorem C10_tx_stream : forall rbuf wbuf cs s outs n, history rbuf wbuf cs s outs -> length wbuf <= n ->
  exists rest s' ev,
    tx_replay (concat (map snd outs)) [] = Some rest /\
    Forall2 (fun p o => explains (fst p) (fst o) (snd o)) cs outs /\
    s_run s [(SIdle, [repeat (Transfer None true) n])] = Ok (s', [(ONone, ev)]) /\ sent ev = rest.
Proof. exact serial_tx_lemma. Qed.
Print Assumptions C10_tx_stream.

Theorem C10_tx_accepted_is_sent : forall rbuf wbuf cs s outs, history rbuf wbuf cs s outs ->
  exists rest, length rest <= length wbuf /\
    put (concat (map snd outs)) = sent (concat (map snd outs)) ++ rest.
Proof. exact tx_streams_lemma. Qed.
Print Assumptions C10_tx_accepted_is_sent.

(** A history with interrupts in the middle of calls. *)
Example serial_history_example : exists s outs,
  history (bs "0000") (bs "000")
    [(SIdle, [[Transfer (Some "a"%char) false; Transfer (Some LF) false]]);
     (SWriteStr (bs "xyz" ++ [NUL]), [[]; [Transfer (Some "b"%char) true]; [Transfer None true]]);
     (SReadLine 3, [[]; [Transfer (Some "c"%char) true]]);
     (SReadMany 9, [[Transfer None true]; [Transfer (Some "d"%char) true]]);
     (SCanReadLine, [])] s outs /\
  map fst outs = [ONone; OCount 3; OData ["a"%char; LF; NUL] 2; OData ["b"%char; "c"%char] 2; OBool false].
Proof. unfold history. repeat match goal with |- exists _, _ => eexists end.
  split; [split; [cbn; auto with arith|split; [cbn; auto with arith|split; [repeat constructor; cbn; tauto|split; vm_compute; reflexivity]]]|].
  vm_compute. reflexivity.
Qed.

(** The single-byte write has no guard: on a full buffer it breaks the stream
    (the last byte overtakes, "a" never leaves). *)
Theorem C10_write_byte_refuted : exists s outs,
  s_run (serial_new (bs "0") (bs "00"))
    [(SWriteOne "a"%char, []); (SWriteOne "b"%char, []); (SWriteOne "c"%char, []);
     (SIdle, [repeat (Transfer None true) 2])] = Ok (s, outs) /\
  sent (concat (map snd outs)) = ["c"; "b"]%char.
Proof. compute_all. Qed.
Print Assumptions C10_write_byte_refuted.

(** ** C11, C12: single calls *)

(** read(data, n) returns the first min(n, available) bytes that were buffered
    when it looked, for every schedule of interrupts during the call. *)
Theorem C11_read_many : forall rbuf wbuf cs s outs q n sch, history rbuf wbuf cs s outs ->
  rx_replay (concat (map snd outs)) [] = Some q ->
  exists y, s_exec (SReadMany n) (mkSys s ([] :: sch) []) = Ok (OData (firstn n q) (Nat.min n (length q)), y).
Proof. exact read_many_lemma. Qed.
Print Assumptions C11_read_many.

(** write(data, n) accepts exactly the first min(n, free space) bytes. *)
Theorem C12_write_many : forall rbuf wbuf cs s outs t data n sch, history rbuf wbuf cs s outs ->
  tx_replay (concat (map snd outs)) [] = Some t -> n <= length data ->
  exists y, s_exec (SWriteMany data n) (mkSys s ([] :: sch) []) = Ok (OCount (Nat.min n (length wbuf - length t)), y) /\
            put (slog y) = firstn (Nat.min n (length wbuf - length t)) data.
Proof. exact write_many_lemma. Qed.
Print Assumptions C12_write_many.

Theorem C12_write_str : forall rbuf wbuf cs s outs t str sch, history rbuf wbuf cs s outs ->
  tx_replay (concat (map snd outs)) [] = Some t -> In "000"%char str ->
  exists y, s_exec (SWriteStr str) (mkSys s ([] :: sch) []) =
              Ok (OCount (Nat.min (length (str_body str)) (length wbuf - length t)), y) /\
            put (slog y) = firstn (length wbuf - length t) (str_body str).
Proof. exact write_str_lemma. Qed.
Print Assumptions C12_write_str.

(** The hypotheses of C11 and C12 with non-empty queues on both sides. *)
Example serial_nonempty_example : exists s outs,
  history (bs "0000") (bs "000")
    [(SIdle, [[Transfer (Some "a"%char) false; Transfer (Some "b"%char) false]]);
     (SWriteMany (bs "xy") 2, [])] s outs /\
  rx_replay (concat (map snd outs)) [] = Some (bs "ab") /\
  tx_replay (concat (map snd outs)) [] = Some (bs "xy").
Proof. unfold history. repeat match goal with |- exists _, _ => eexists end.
  split; [split; [cbn; auto with arith|split; [cbn; auto with arith|split; [repeat constructor; cbn; auto with arith|split; vm_compute; reflexivity]]]|].
  split; vm_compute; reflexivity.
Qed.

(** ** C13, C14: readLine *)

(** The header promises the line without its '\n'; the '\n' is delivered and
    counted. *)
Theorem C13_readline_strips_newline_refuted : exists s outs,
  s_run (serial_new (bs "0000") (bs "0"))
    [(SIdle, [[Transfer (Some "a"%char) false; Transfer (Some "b"%char) false; Transfer (Some LF) false]]);
     (SReadLine 10, [])] = Ok (s, outs) /\
  map fst outs = [ONone; OData ["a"%char; "b"%char; LF; NUL] 3].
Proof. compute_all. Qed.
Print Assumptions C13_readline_strips_newline_refuted.

(** Without interrupts during the call exactly the first line is removed; its
    first n-1 characters are stored, then a terminator. *)
Theorem C14_readline_one_line : forall rbuf wbuf cs s outs q m line rest, history rbuf wbuf cs s outs ->
  rx_replay (concat (map snd outs)) [] = Some q -> split_line q = (line, rest) ->
  exists y, s_exec (SReadLine (S m)) (mkSys s [] []) = Ok (OData (firstn m line ++ ["000"%char]) (Nat.min m (length line)), y) /\
            rx_replay (slog y) q = Some rest.
Proof. exact readline_quiet_lemma. Qed.
Print Assumptions C14_readline_one_line.

(** With any interrupts during the call: what is removed is one line, or
    everything there was, and never more than n bytes are stored. *)
Theorem C14_readline_bounded : forall rbuf wbuf cs s outs m sch, history rbuf wbuf cs s outs ->
  exists y line q', s_exec (SReadLine (S m)) (mkSys s sch []) = Ok (OData (firstn m line ++ ["000"%char]) (Nat.min m (length line)), y) /\
    taken (slog y) = line /\ rx_replay (concat (map snd outs) ++ slog y) [] = Some q' /\
    ((exists body, line = body ++ [newline] /\ ~ In newline body) \/ (~ In newline line /\ q' = [])).
Proof. exact readline_any_lemma. Qed.
Print Assumptions C14_readline_bounded.

(** ** C15, C16 *)

Theorem C15_can_read_line : forall rbuf wbuf cs s outs q sch, history rbuf wbuf cs s outs ->
  (Z.of_nat (length rbuf) < 65536)%Z -> rx_replay (concat (map snd outs)) [] = Some q ->
  exists y b, s_exec SCanReadLine (mkSys s ([] :: sch) []) = Ok (OBool b, y) /\ (b = true <-> In newline q).
Proof. exact can_read_line_lemma. Qed.
Print Assumptions C15_can_read_line.

(** A byte arriving at a full buffer is dropped, and only then; the buffered
    bytes are never touched. *)
Theorem C16_overflow_drops_newest : forall rbuf wbuf cs s outs q d, history rbuf wbuf cs s outs ->
  rx_replay (concat (map snd outs)) [] = Some q ->
  exists y ev, s_exec SIdle (mkSys s [[Transfer (Some d) false]] []) = Ok (ONone, y) /\
    slog y = [ev] /\
    (length q = length rbuf -> ev = EvDropped d) /\ (length q < length rbuf -> ev = EvStored d) /\
    rx_replay (slog y) q = Some (if length q =? length rbuf then q else q ++ [d]).
Proof. exact overflow_lemma. Qed.
Print Assumptions C16_overflow_drops_newest.
