(** Model of cicada/bufferedserial.cpp (class BufferedSerial).

    Concurrency: transferToAndFromBuffer runs in interrupt context.  Each
    section between eDisableInterrupts() and eEnableInterrupts() is atomic;
    before every such section an arbitrary number of interrupts may happen.
    [sched] lists, section by section, the interrupts that happen before it.
    Reads of the caller's own arrays and local variables are not observable by
    the interrupt, so these points are all the relevant ones.
    Simplification: startTransmit() is a platform hook; see Stm32.v. *)
From Coq Require Import Ascii ZArith List Bool Arith.
From Verif Require Import Base QueueSpec LineSpec SerialSpec Ring LineRing.
Import ListNotations.

(** bufferedserial.h: the two LineCircularBuffer members. *)
Record serial : Type := mkSerial { srx : lring; stx : lring }.

(** bufferedserial.cpp:30-37, constructors. *)
Definition serial_new (rbuf wbuf : list ascii) : serial := mkSerial (lring_new rbuf) (lring_new wbuf).

(** One interrupt: what rawRead delivers, whether rawWrite accepts a byte. *)
Inductive isr : Type := Transfer (raw : option ascii) (accept : bool).

(** bufferedserial.cpp:171-183, transferToAndFromBuffer; the events record what
    happened to each byte. *)
Definition transfer (s : serial) (i : isr) : res (serial * list event) :=
  let (raw, accept) := i in
  let* (rx, ev1) :=
    match raw with
    | Some d =>
        if negb (ring_is_full (lr (srx s)))
        then let* rx := lr_push (srx s) d in Ok (rx, [EvStored d])
        else Ok (srx s, [EvDropped d])
    | None => Ok (srx s, [])
    end in
  if 0 <? avail (lr (stx s)) then
    let* c := ring_read (lr (stx s)) in
    if accept then
      let* (c', tx) := lr_pull (stx s) in
      Ok (mkSerial rx tx, ev1 ++ [EvSent c])
    else Ok (mkSerial rx (stx s), ev1)
  else Ok (mkSerial rx (stx s), ev1).

(** The port, the interrupts still to come, and the record of what happened. *)
Record sys : Type := mkSys { ser : serial; sched : list (list isr); slog : list event }.

Fixpoint run_isrs (s : serial) (is : list isr) : res (serial * list event) :=
  match is with
  | [] => Ok (s, [])
  | i :: is' =>
      let* (s1, e1) := transfer s i in
      let* (s2, e2) := run_isrs s1 is' in
      Ok (s2, e1 ++ e2)
  end.

(** Interrupts happening before an atomic section. *)
Definition isr_point (y : sys) : res sys :=
  match sched y with
  | [] => Ok y
  | is :: rest =>
      let* (s, ev) := run_isrs (ser y) is in
      Ok (mkSys s rest (slog y ++ ev))
  end.

(** bufferedserial.cpp:39-46 *)
Definition s_bytes_available (y : sys) : res (nat * sys) :=
  let* y := isr_point y in Ok (avail (lr (srx (ser y))), y).

(** bufferedserial.cpp:48-55 *)
Definition s_space_available (y : sys) : res (nat * sys) :=
  let* y := isr_point y in Ok (ring_space (lr (stx (ser y))), y).

(** bufferedserial.cpp:72-79, read() *)
Definition s_read (y : sys) : res (ascii * sys) :=
  let* y := isr_point y in
  let* (c, rx) := lr_pull (srx (ser y)) in
  let ev := if avail (lr (srx (ser y))) =? 0 then EvMisuse else EvTaken c in
  Ok (c, mkSys (mkSerial rx (stx (ser y))) (sched y) (slog y ++ [ev])).

(** bufferedserial.cpp:65-67, loop of read(data, size) *)
Fixpoint s_read_loop (n : nat) (y : sys) : res (list ascii * sys) :=
  match n with
  | 0 => Ok ([], y)
  | S n' =>
      let* (c, y1) := s_read y in
      let* (cs, y2) := s_read_loop n' y1 in
      Ok (c :: cs, y2)
  end.

(** bufferedserial.cpp:57-70, read(data, size) *)
Definition s_read_many (n : nat) (y : sys) : res (list ascii * nat * sys) :=
  let* (a, y1) := s_bytes_available y in
  let k := if a <? n then a else n in
  let* (cs, y2) := s_read_loop k y1 in
  Ok (cs, k, y2).

(** bufferedserial.cpp:119-124, copyToBuffer *)
Definition s_copy (c : ascii) (y : sys) : res sys :=
  let* y := isr_point y in
  let* tx := lr_push (stx (ser y)) c in
  let ev := if ring_is_full (lr (stx (ser y))) then EvMisuse else EvPut c in
  Ok (mkSys (mkSerial (srx (ser y)) tx) (sched y) (slog y ++ [ev])).

(** bufferedserial.cpp:89-91, loop of write(data, size) *)
Fixpoint s_write_loop (n : nat) (data : list ascii) (y : sys) : res sys :=
  match n with
  | 0 => Ok y
  | S n' =>
      match data with
      | [] => UB OutOfBounds
      | c :: data' => let* y1 := s_copy c y in s_write_loop n' data' y1
      end
  end.

(** bufferedserial.cpp:81-96, write(data, size) *)
Definition s_write_many (data : list ascii) (n : nat) (y : sys) : res (nat * sys) :=
  let* (space, y1) := s_space_available y in
  let k := if space <? n then space else n in
  let* y2 := s_write_loop k data y1 in
  Ok (k, y2).

(** bufferedserial.cpp:104-106, loop of write(str): [str] is the array from the
    current position on, reading behind its end is out of bounds. *)
Fixpoint s_write_str_loop (str : list ascii) (room : nat) (y : sys) : res (nat * sys) :=
  match str with
  | [] => UB OutOfBounds
  | c :: str' =>
      if aeqb c NUL then Ok (0, y)
      else
        match room with
        | 0 => Ok (0, y)
        | S room' =>
            let* y1 := s_copy c y in
            let* (k, y2) := s_write_str_loop str' room' y1 in
            Ok (S k, y2)
        end
  end.

(** bufferedserial.cpp:98-111, write(str) *)
Definition s_write_str (str : list ascii) (y : sys) : res (nat * sys) :=
  let* (space, y1) := s_space_available y in
  s_write_str_loop str space y1.

(** bufferedserial.cpp:113-117, write(byte) *)
Definition s_write (c : ascii) (y : sys) : res sys := s_copy c y.

(** bufferedserial.cpp:126-133, canReadLine *)
Definition s_can_read_line (y : sys) : res (bool * sys) :=
  let* y := isr_point y in Ok ((0 <? lines (srx (ser y)))%Z, y).

(** bufferedserial.cpp:143-148, loop of readLine: [c] last character, [room] =
    size - 1 - readCount. *)
Fixpoint s_readline_loop (fuel : nat) (c : ascii) (room : nat) (y : sys) : res (list ascii * sys) :=
  let* (a, y1) := s_bytes_available y in
  if (0 <? a) && negb (aeqb c LF) then
    match fuel with
    | 0 => UB Diverges
    | S fuel' =>
        let* (c', y2) := s_read y1 in
        match room with
        | 0 => s_readline_loop fuel' c' 0 y2
        | S room' =>
            let* (cs, y3) := s_readline_loop fuel' c' room' y2 in
            Ok (c' :: cs, y3)
        end
    end
  else Ok ([], y1).

(** Enough iterations for everything buffered or still to arrive. *)
Definition readline_fuel (y : sys) : nat :=
  avail (lr (srx (ser y))) + length (concat (sched y)).

(** bufferedserial.cpp:135-152, readLine(data, size): the characters stored
    (with the terminator) and the count returned. *)
Definition s_readline (n : nat) (y : sys) : res (qobs ascii * sys) :=
  match n with
  | 0 => Ok (OCount 0, y)
  | S m =>
      let* (cs, y1) := s_readline_loop (readline_fuel y) NUL m y in
      Ok (OData (cs ++ [NUL]) (length cs), y1)
  end.

(** bufferedserial.cpp:154-159, flushReceiveBuffers *)
Definition s_flush (y : sys) : res sys :=
  let* y := isr_point y in
  Ok (mkSys (mkSerial (lr_flush (srx (ser y))) (stx (ser y))) (sched y) (slog y ++ [EvFlushed])).

(** One call. *)
Definition s_exec (c : scall) (y : sys) : res (qobs ascii * sys) :=
  match c with
  | SIdle => let* y := isr_point y in Ok (ONone, y)
  | SBytesAvailable => let* (n, y) := s_bytes_available y in Ok (OCount n, y)
  | SSpaceAvailable => let* (n, y) := s_space_available y in Ok (OCount n, y)
  | SReadMany n => let* (cs, k, y) := s_read_many n y in Ok (OData cs k, y)
  | SReadOne => let* (x, y) := s_read y in Ok (OElem x, y)
  | SReadLine n => s_readline n y
  | SCanReadLine => let* (b, y) := s_can_read_line y in Ok (OBool b, y)
  | SFlushRx => let* y := s_flush y in Ok (ONone, y)
  | SWriteMany data n => let* (k, y) := s_write_many data n y in Ok (OCount k, y)
  | SWriteStr str => let* (k, y) := s_write_str str y in Ok (OCount k, y)
  | SWriteOne x => let* y := s_write x y in Ok (ONone, y)
  | SReadBufferSize => Ok (OCount (rsize (lr (srx (ser y)))), y)
  | SWriteBufferSize => Ok (OCount (rsize (lr (stx (ser y)))), y)
  end.

(** A history: calls, the interrupts happening before and during each of them;
    the result pairs each call's outcome with the events during it. *)
Fixpoint s_run (s : serial) (cs : list (scall * list (list isr))) : res (serial * list (qobs ascii * list event)) :=
  match cs with
  | [] => Ok (s, [])
  | (c, sch) :: cs' =>
      let* (out, y) := s_exec c (mkSys s sch []) in
      (* interrupts left over happen before the next call *)
      let* (s1, ev) := run_isrs (ser y) (concat (sched y)) in
      let* (s2, outs) := s_run s1 cs' in
      Ok (s2, (out, slog y ++ ev) :: outs)
  end.

(** A history of a fresh port with non-empty buffers: the calls respect their
    contracts, and no single-byte read() hit an empty buffer or write(byte) a
    full one.  [outs] pairs each call's result with what happened during it. *)
Definition history rbuf wbuf cs s outs : Prop :=
  1 <= length rbuf /\ 1 <= length wbuf /\ Forall (fun p => call_ok (fst p)) cs /\
  s_run (serial_new rbuf wbuf) cs = Ok (s, outs) /\ clean (concat (map snd outs)).
