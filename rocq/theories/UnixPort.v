(** Model of UnixSerial together with its buffers: rawRead, rawWrite and run() of
    cicada/platform/linux/unixserial.cpp and cicada/bufferedserial.h.

    On Unix systems there is no interrupt: run() is called by the scheduler, so the
    buffers only change inside of calls (irq_linux.cpp is empty).  The kernel is
    modelled by the outcomes of ::read and ::write, given with each run(); a
    descriptor that is not open gives an error. *)
From Coq Require Import Ascii ZArith List Bool Arith.
From Verif Require Import Base QueueSpec LineSpec SerialSpec Ring LineRing Serial UnixSerial.
Import ListNotations.
Local Open Scope nat_scope.

(** Whether the kernel knows the descriptor. *)
Definition unix_valid (u : unix) : bool := existsb (Z.eqb (u_fd u)) (u_fds u).

(** unixserial.cpp:225-228, rawRead(); [k]: the byte ::read delivers, or its failure *)
Definition unix_raw_read (k : option ascii) (u : unix) : option ascii := if unix_valid u then k else None.

(** unixserial.cpp:230-233, rawWrite(); [k]: whether ::write takes the byte *)
Definition unix_raw_write (k : bool) (u : unix) : bool := unix_valid u && k.

(** bufferedserial.h:136-139, run() of BufferedSerialTask *)
Definition unix_run (rk : option ascii) (wk : bool) (u : unix) (s : serial) : res (serial * list event) :=
  transfer s (Transfer (unix_raw_read rk u) (unix_raw_write wk u)).

(** A history of the port: calls of open(), close() and setSerialConfig(), calls of
    the buffer functions, run(). *)
Inductive pcall : Type := PPort (c : ucall) | PBuf (c : scall) | PRun (rk : option ascii) (wk : bool).
Record pent : Type := mkPent { p_call : pcall; p_res : bool; p_out : qobs ascii; p_ev : list event }.

Inductive port_hist (apple : bool) : unix -> serial -> list pent -> unix -> serial -> Prop :=
| ph_nil u s : port_hist apple u s [] u s
| ph_port u s c b u1 h u2 s2 :
    (forall o fd, c = UOpen o -> os_open o = Some fd -> (0 <= fd)%Z /\ ~ In fd (u_fds u)) ->
    unix_call apple c u = (b, u1) -> port_hist apple u1 s h u2 s2 ->
    port_hist apple u s (mkPent (PPort c) b ONone [] :: h) u2 s2
| ph_buf u s c out y h u2 s2 :
    call_ok c -> s_exec c (mkSys s [] []) = Ok (out, y) -> port_hist apple u (ser y) h u2 s2 ->
    port_hist apple u s (mkPent (PBuf c) true out (slog y) :: h) u2 s2
| ph_run u s rk wk s1 ev h u2 s2 :
    unix_run rk wk u s = Ok (s1, ev) -> port_hist apple u s1 h u2 s2 ->
    port_hist apple u s (mkPent (PRun rk wk) true ONone ev :: h) u2 s2.

(** What happened, in order; the bytes that came from or went to the terminal. *)
Definition p_log (h : list pent) : list event := concat (map p_ev h).
Definition is_wire (e : event) : bool := match e with EvStored _ | EvDropped _ | EvSent _ => true | _ => false end.
Definition wire (ev : list event) : list event := filter is_wire ev.

(** unixserial.cpp:220-223, writeBufferProcessed() *)
Definition unix_processed (s : serial) : bool := ring_is_empty (lr (stx s)).
