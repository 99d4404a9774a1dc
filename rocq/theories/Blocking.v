(** Model of cicada/commdevices/blockingcommdev.cpp (class BlockingCommDevice).

    The wrapped device, the clock and the yield function are arbitrary: [X] is
    the state of everything outside, and [comm X] says how each call the wrapper
    makes acts on it. *)
From Coq Require Import Ascii ZArith List Bool.
From Verif Require Import Base.
Import ListNotations.
Open Scope Z_scope.

Record comm (X : Type) : Type := mkComm {
  c_now : X -> Z;                    (* absolute time; the tick function returns it modulo 2^32 *)
  c_read : X -> Z -> bytes * X;      (* ICommDevice::read(data, size): the bytes stored *)
  c_space : X -> Z * X;              (* spaceAvailable() *)
  c_write : X -> bytes -> Z * X;     (* write(data, size): number accepted *)
  c_processed : X -> bool * X;       (* writeBufferProcessed() *)
  c_yield : X -> X                   (* the yield function *)
}.
Arguments c_now {X}. Arguments c_read {X}. Arguments c_space {X}. Arguments c_write {X}.
Arguments c_processed {X}. Arguments c_yield {X}.

Definition tick {X} (c : comm X) (x : X) : Z := u32 (c_now c x).

(** blockingcommdev.cpp:48, :66, :75 *)
Definition timed_out {X} (c : comm X) (start timeout : Z) (x : X) : bool :=
  u32 timeout <? u32 (tick c x - start).

Definition int_in (z : Z) : bool := (-2147483648 <=? z) && (z <=? 2147483647).

(** blockingcommdev.cpp:47-56, loop of read.  [cap]: size of the caller's
    array, [len]: bytes still wanted, [got]: bytes stored so far.  The device
    is told [len] as a Size (uint64_t). *)
Fixpoint b_read_loop {X} (fuel : nat) (c : comm X) (cap start timeout : Z) (len : Z) (got : bytes) (x : X) : res (bytes * X) :=
  if len =? 0 then Ok (got, x)
  else if timed_out c start timeout x then Ok (got, x)
  else
    match fuel with
    | O => UB Diverges
    | S fuel' =>
        let (cs, x1) := c_read c x (u64 len) in
        if cap <? Z.of_nat (length got + length cs) then UB OutOfBounds
        else
          let n := i32 (Z.of_nat (length cs)) in
          if int_in (len - n) then
            b_read_loop fuel' c cap start timeout (len - n) (got ++ cs) (c_yield c x1)
          else UB IntOverflow
    end.

(** blockingcommdev.cpp:42-59, read(buffer, len, timeout): the bytes stored;
    the number returned is their number. *)
Definition b_read {X} (fuel : nat) (c : comm X) (cap len timeout : Z) (x : X) : res (bytes * X) :=
  b_read_loop fuel c cap (tick c x) timeout len [] x.

(** blockingcommdev.cpp:65-70, wait for space; [None] = timed out *)
Fixpoint b_wait_space {X} (fuel : nat) (c : comm X) (start timeout : Z) (len : Z) (x : X) : res (bool * X) :=
  let (sp, x1) := c_space c x in
  if sp <? u64 len then
    if timed_out c start timeout x1 then Ok (false, x1)
    else match fuel with
         | O => UB Diverges
         | S fuel' => b_wait_space fuel' c start timeout len (c_yield c x1)
         end
  else Ok (true, x1).

(** blockingcommdev.cpp:74-79, wait until processed *)
Fixpoint b_wait_processed {X} (fuel : nat) (c : comm X) (start timeout : Z) (x : X) : res (bool * X) :=
  let (p, x1) := c_processed c x in
  if p then Ok (true, x1)
  else if timed_out c start timeout x1 then Ok (false, x1)
  else match fuel with
       | O => UB Diverges
       | S fuel' => b_wait_processed fuel' c start timeout (c_yield c x1)
       end.

(** What a write did. *)
Record write_result : Type := mkWR {
  w_ret : Z;                  (* value returned *)
  w_calls : list (bytes * Z)  (* the writes made on the device and what they returned *)
}.

(** blockingcommdev.cpp:61-82, write(buffer, len, timeout); [data] is the
    caller's array, [len] its announced length. *)
Definition b_write {X} (fuel : nat) (c : comm X) (data : bytes) (len timeout : Z) (x : X) : res (write_result * X) :=
  let start := tick c x in
  let* (room, x1) := b_wait_space fuel c start timeout len x in
  if negb room then Ok (mkWR 0 [], x1)
  else if Z.of_nat (length data) <? u64 len then UB OutOfBounds
  else
    let d := firstn (Z.to_nat (u64 len)) data in
    let (r, x2) := c_write c x1 d in
    let* (done, x3) := b_wait_processed fuel c start timeout x2 in
    Ok (mkWR (if done then i32 r else 0) [(d, r)], x3).
