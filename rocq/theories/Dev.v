(** Model of commdevices/ipcommdevice.{h,cpp} and commdevices/atcommdevice.{h,cpp}:
    the state and functions shared by all modem drivers.

    [SS] and [RS] are the driver's SendState and ReplyState enumerations, [X]
    the members its own class adds.  logStates (atcommdevice.cpp:48-62) only
    prints in debug builds and is not modelled. *)
From Coq Require Import String Ascii ZArith Bool List.
From Verif Require Import Base QueueSpec SerialSpec Ring LineRing Serial TaskMacros CStr.
Import ListNotations.
Local Open Scope nat_scope.

(** ipcommdevice.h:68-76 *)
Inductive cstate : Type :=
| csNotConnected | csIntermediate | csConnected | csTransmitting | csReceiving | csGeneralError | csDnsError.

(** The enumeration's numbers, for the comparisons in the drivers. *)
Definition cs_rank (c : cstate) : nat :=
  match c with
  | csNotConnected => 0 | csIntermediate => 1 | csConnected => 2 | csTransmitting => 3
  | csReceiving => 4 | csGeneralError => 5 | csDnsError => 6
  end.

(** ipcommdevice.h:32-38, the bits of _stateBooleans. *)
Record flags : Type := mkFlags {
  fConnect : bool;  (* CONNECT_PENDING *)
  fReset : bool;    (* RESET_PENDING *)
  fData : bool;     (* DATA_PENDING *)
  fDisc : bool;     (* DISCONNECT_PENDING *)
  fIp : bool;       (* IP_CONNECTED *)
  fLine : bool;     (* LINE_READ *)
  fLock : bool      (* SERIAL_LOCKED *)
}.

(** [_stateBooleans = LINE_READ] *)
Definition flags_line_read : flags := mkFlags false false false false false true false.

(** iipcommdevice.h:37 *)
Definition UDP : Z := 0.
Definition TCP : Z := 1.
Definition SSL : Z := 2.

(** atcommdevice.h:31, atcommdevice.cpp:30, cstdint *)
Definition LINE_MAX_LENGTH : nat := 60.
Definition MIN_SPACE_AVAILABLE : nat := 22.
Definition INT16_MAX : Z := 32767.

(** atcommdevice.cpp:34-36 *)
Definition okStr : bytes := bs "OK".
Definition lineEndStr : bytes := [CR; LF].
Definition quoteEndStr : bytes := [DQ; CR; LF].

Section Dev.
Context {SS RS X : Type}.

(** Data members of IPCommDevice (ipcommdevice.h:78-85), ATCommDevice
    (atcommdevice.h:99-110), the Task base class, and the derived class. *)
Record dev : Type := mkDev {
  io : sys  (* _serial: the port, interrupts to come during the current call, and what happened to bytes *);
  isopen : bool  (* _serial.isOpen() *);
  rbuf : ring ascii  (* _readBuffer *);
  wbuf : ring ascii  (* _writeBuffer *);
  typ : Z  (* _type: UDP 0, TCP 1, SSL 2; not initialised by the constructor, so any value before setHostPort *);
  host : cptr  (* _host *);
  port : Z  (* _port, uint16_t *);
  fl : flags  (* _stateBooleans *);
  cst : cstate  (* _connectState *);
  wait : option bytes  (* _waitForReply; None is NULL *);
  lbuf : bytes  (* _lineBuffer *);
  lbfill : nat  (* _lbFill *);
  sst : SS  (* _sendState *);
  rst : RS  (* _replyState *);
  toWrite : Z  (* _bytesToWrite *);
  toReceive : Z  (* _bytesToReceive *);
  toRead : Z  (* _bytesToRead *);
  rssi : Z  (* _rssi, int16_t *);
  tsk : tobj  (* the Task base class *);
  ext : X  (* members of the derived class *)
}.

(** Assignments to single members. *)
Definition set_io (v : sys) (d : dev) : dev :=
  mkDev v (isopen d) (rbuf d) (wbuf d) (typ d) (host d) (port d) (fl d) (cst d) (wait d) (lbuf d) (lbfill d) (sst d) (rst d) (toWrite d) (toReceive d) (toRead d) (rssi d) (tsk d) (ext d).
Definition set_isopen (v : bool) (d : dev) : dev :=
  mkDev (io d) v (rbuf d) (wbuf d) (typ d) (host d) (port d) (fl d) (cst d) (wait d) (lbuf d) (lbfill d) (sst d) (rst d) (toWrite d) (toReceive d) (toRead d) (rssi d) (tsk d) (ext d).
Definition set_rbuf (v : ring ascii) (d : dev) : dev :=
  mkDev (io d) (isopen d) v (wbuf d) (typ d) (host d) (port d) (fl d) (cst d) (wait d) (lbuf d) (lbfill d) (sst d) (rst d) (toWrite d) (toReceive d) (toRead d) (rssi d) (tsk d) (ext d).
Definition set_wbuf (v : ring ascii) (d : dev) : dev :=
  mkDev (io d) (isopen d) (rbuf d) v (typ d) (host d) (port d) (fl d) (cst d) (wait d) (lbuf d) (lbfill d) (sst d) (rst d) (toWrite d) (toReceive d) (toRead d) (rssi d) (tsk d) (ext d).
Definition set_typ (v : Z) (d : dev) : dev :=
  mkDev (io d) (isopen d) (rbuf d) (wbuf d) v (host d) (port d) (fl d) (cst d) (wait d) (lbuf d) (lbfill d) (sst d) (rst d) (toWrite d) (toReceive d) (toRead d) (rssi d) (tsk d) (ext d).
Definition set_host (v : cptr) (d : dev) : dev :=
  mkDev (io d) (isopen d) (rbuf d) (wbuf d) (typ d) v (port d) (fl d) (cst d) (wait d) (lbuf d) (lbfill d) (sst d) (rst d) (toWrite d) (toReceive d) (toRead d) (rssi d) (tsk d) (ext d).
Definition set_port (v : Z) (d : dev) : dev :=
  mkDev (io d) (isopen d) (rbuf d) (wbuf d) (typ d) (host d) v (fl d) (cst d) (wait d) (lbuf d) (lbfill d) (sst d) (rst d) (toWrite d) (toReceive d) (toRead d) (rssi d) (tsk d) (ext d).
Definition set_fl (v : flags) (d : dev) : dev :=
  mkDev (io d) (isopen d) (rbuf d) (wbuf d) (typ d) (host d) (port d) v (cst d) (wait d) (lbuf d) (lbfill d) (sst d) (rst d) (toWrite d) (toReceive d) (toRead d) (rssi d) (tsk d) (ext d).
Definition set_cst (v : cstate) (d : dev) : dev :=
  mkDev (io d) (isopen d) (rbuf d) (wbuf d) (typ d) (host d) (port d) (fl d) v (wait d) (lbuf d) (lbfill d) (sst d) (rst d) (toWrite d) (toReceive d) (toRead d) (rssi d) (tsk d) (ext d).
Definition set_wait (v : option bytes) (d : dev) : dev :=
  mkDev (io d) (isopen d) (rbuf d) (wbuf d) (typ d) (host d) (port d) (fl d) (cst d) v (lbuf d) (lbfill d) (sst d) (rst d) (toWrite d) (toReceive d) (toRead d) (rssi d) (tsk d) (ext d).
Definition set_lbuf (v : bytes) (d : dev) : dev :=
  mkDev (io d) (isopen d) (rbuf d) (wbuf d) (typ d) (host d) (port d) (fl d) (cst d) (wait d) v (lbfill d) (sst d) (rst d) (toWrite d) (toReceive d) (toRead d) (rssi d) (tsk d) (ext d).
Definition set_lbfill (v : nat) (d : dev) : dev :=
  mkDev (io d) (isopen d) (rbuf d) (wbuf d) (typ d) (host d) (port d) (fl d) (cst d) (wait d) (lbuf d) v (sst d) (rst d) (toWrite d) (toReceive d) (toRead d) (rssi d) (tsk d) (ext d).
Definition set_sst (v : SS) (d : dev) : dev :=
  mkDev (io d) (isopen d) (rbuf d) (wbuf d) (typ d) (host d) (port d) (fl d) (cst d) (wait d) (lbuf d) (lbfill d) v (rst d) (toWrite d) (toReceive d) (toRead d) (rssi d) (tsk d) (ext d).
Definition set_rst (v : RS) (d : dev) : dev :=
  mkDev (io d) (isopen d) (rbuf d) (wbuf d) (typ d) (host d) (port d) (fl d) (cst d) (wait d) (lbuf d) (lbfill d) (sst d) v (toWrite d) (toReceive d) (toRead d) (rssi d) (tsk d) (ext d).
Definition set_toWrite (v : Z) (d : dev) : dev :=
  mkDev (io d) (isopen d) (rbuf d) (wbuf d) (typ d) (host d) (port d) (fl d) (cst d) (wait d) (lbuf d) (lbfill d) (sst d) (rst d) v (toReceive d) (toRead d) (rssi d) (tsk d) (ext d).
Definition set_toReceive (v : Z) (d : dev) : dev :=
  mkDev (io d) (isopen d) (rbuf d) (wbuf d) (typ d) (host d) (port d) (fl d) (cst d) (wait d) (lbuf d) (lbfill d) (sst d) (rst d) (toWrite d) v (toRead d) (rssi d) (tsk d) (ext d).
Definition set_toRead (v : Z) (d : dev) : dev :=
  mkDev (io d) (isopen d) (rbuf d) (wbuf d) (typ d) (host d) (port d) (fl d) (cst d) (wait d) (lbuf d) (lbfill d) (sst d) (rst d) (toWrite d) (toReceive d) v (rssi d) (tsk d) (ext d).
Definition set_rssi (v : Z) (d : dev) : dev :=
  mkDev (io d) (isopen d) (rbuf d) (wbuf d) (typ d) (host d) (port d) (fl d) (cst d) (wait d) (lbuf d) (lbfill d) (sst d) (rst d) (toWrite d) (toReceive d) (toRead d) v (tsk d) (ext d).
Definition set_tsk (v : tobj) (d : dev) : dev :=
  mkDev (io d) (isopen d) (rbuf d) (wbuf d) (typ d) (host d) (port d) (fl d) (cst d) (wait d) (lbuf d) (lbfill d) (sst d) (rst d) (toWrite d) (toReceive d) (toRead d) (rssi d) v (ext d).
Definition set_ext (v : X) (d : dev) : dev :=
  mkDev (io d) (isopen d) (rbuf d) (wbuf d) (typ d) (host d) (port d) (fl d) (cst d) (wait d) (lbuf d) (lbfill d) (sst d) (rst d) (toWrite d) (toReceive d) (toRead d) (rssi d) (tsk d) v.

(** Setting and clearing single flags. *)
Definition on_connect (b : bool) (d : dev) : dev := let f := fl d in
  set_fl (mkFlags b (fReset f) (fData f) (fDisc f) (fIp f) (fLine f) (fLock f)) d.
Definition on_reset (b : bool) (d : dev) : dev := let f := fl d in
  set_fl (mkFlags (fConnect f) b (fData f) (fDisc f) (fIp f) (fLine f) (fLock f)) d.
Definition on_data (b : bool) (d : dev) : dev := let f := fl d in
  set_fl (mkFlags (fConnect f) (fReset f) b (fDisc f) (fIp f) (fLine f) (fLock f)) d.
Definition on_disc (b : bool) (d : dev) : dev := let f := fl d in
  set_fl (mkFlags (fConnect f) (fReset f) (fData f) b (fIp f) (fLine f) (fLock f)) d.
Definition on_ip (b : bool) (d : dev) : dev := let f := fl d in
  set_fl (mkFlags (fConnect f) (fReset f) (fData f) (fDisc f) b (fLine f) (fLock f)) d.
Definition on_line (b : bool) (d : dev) : dev := let f := fl d in
  set_fl (mkFlags (fConnect f) (fReset f) (fData f) (fDisc f) (fIp f) b (fLock f)) d.
Definition on_lock (b : bool) (d : dev) : dev := let f := fl d in
  set_fl (mkFlags (fConnect f) (fReset f) (fData f) (fDisc f) (fIp f) (fLine f) b) d.

(** task.h:213-216 on the device *)
Definition dev_set_delay (v : Z) (d : dev) : dev := set_tsk (set_delay v (tsk d)) d.

(** ** Serial port calls of a driver *)

Definition d_avail (d : dev) : res (nat * dev) :=
  let* (n, y) := s_bytes_available (io d) in Ok (n, set_io y d).
Definition d_space (d : dev) : res (nat * dev) :=
  let* (n, y) := s_space_available (io d) in Ok (n, set_io y d).
Definition d_getc (d : dev) : res (ascii * dev) :=
  let* (c, y) := s_read (io d) in Ok (c, set_io y d).
Definition d_putc (c : ascii) (d : dev) : res dev :=
  let* y := s_write c (io d) in Ok (set_io y d).
Definition d_flush_rx (d : dev) : res dev :=
  let* y := s_flush (io d) in Ok (set_io y d).
(** write(const uint8_t* str) with a terminated string *)
Definition w_str (s : bytes) (d : dev) : res dev :=
  let* (_, y) := s_write_str (s ++ [NUL]) (io d) in Ok (set_io y d).
(** write(str, sizeof(str) - 1) *)
Definition w_many (s : bytes) (d : dev) : res dev :=
  let* (_, y) := s_write_many s (length s) (io d) in Ok (set_io y d).
(** write(str) / write(str, strlen(str)) with a pointer member *)
Definition w_ptr (p : cptr) (d : dev) : res dev :=
  match p with PUninit => UB Uninitialised | PNull => UB NullDeref | PStr s => w_str s d end.
Definition w_ptr_len (p : cptr) (d : dev) : res dev :=
  match p with
  | PUninit => UB Uninitialised | PNull => UB NullDeref
  | PStr s => let* (_, y) := s_write_many (s ++ [NUL]) (clen s) (io d) in Ok (set_io y d)
  end.
(** write(array) with a char array that should hold a terminated string *)
Definition w_arr (a : bytes) (d : dev) : res dev :=
  let* (_, y) := s_write_str a (io d) in Ok (set_io y d).

(** strncmp(_lineBuffer, lit, n) == 0 *)
Definition lmatch (n : nat) (lit : bytes) (d : dev) : res bool := strncmp n (lbuf d) (lit ++ [NUL]).
(** strncmp(_lineBuffer, lit, strlen(lit)) == 0 *)
Definition lstarts (lit : bytes) (d : dev) : res bool := lmatch (length lit) lit d.

(** ** IPCommDevice *)

(** ipcommdevice.cpp:50-55 *)
Definition ip_set_host_port (h : cptr) (p : Z) (t : Z) (d : dev) : dev :=
  set_typ t (set_port (u16 p) (set_host h d)).

(** ipcommdevice.cpp:57-65.  (_host is initialised to NULL by the constructor.) *)
Definition ip_connect (d : dev) : bool * dev :=
  match host d with
  | PStr _ => if (port d =? 0)%Z then (false, d) else (true, on_connect true d)
  | _ => (false, d)
  end.

(** ipcommdevice.cpp:81-84, 75-79 *)
Definition ip_is_idle (d : dev) : bool := match cst d with csNotConnected => true | _ => false end.
Definition ip_is_connected (d : dev) : bool :=
  match cst d with csConnected | csTransmitting | csReceiving => true | _ => false end.

(** ipcommdevice.cpp:67-73 *)
Definition ip_disconnect (d : dev) : dev := if ip_is_idle d then d else on_disc true d.

(** ipcommdevice.cpp:86-97 *)
Definition ip_bytes_available (d : dev) : nat := avail (rbuf d).
Definition ip_space_available (d : dev) : nat :=
  match cst d with csConnected => ring_space (wbuf d) | _ => 0 end.

(** ipcommdevice.cpp:99-102 *)
Definition ip_read (n : nat) (d : dev) : res (bytes * nat * dev) :=
  let* (l, k, r) := ring_pull_many (rbuf d) n in Ok (l, k, set_rbuf r d).

(** ipcommdevice.cpp:104-110 *)
Definition ip_write (data : bytes) (n : nat) (d : dev) : res (nat * dev) :=
  match cst d with
  | csConnected => let* (r, k) := ring_push_many (wbuf d) data n in Ok (k, set_wbuf r d)
  | _ => Ok (0, d)
  end.

(** ipcommdevice.cpp:112-115 *)
Definition ip_write_buffer_processed (d : dev) : bool :=
  (avail (wbuf d) =? 0)%nat && match cst d with csTransmitting => false | _ => true end.

(** ** ATCommDevice *)

(** atcommdevice.cpp:66-69, the loop of flushReadBuffer; the fuel bounds the
    bytes buffered or still to arrive. *)
Fixpoint at_flush_loop (fuel : nat) (d : dev) : res dev :=
  if (toRead d =? 0)%Z then Ok d
  else
    let* (a, d) := d_avail d in
    if (a =? 0)%nat then Ok d
    else
      match fuel with
      | O => UB Diverges
      | S fuel' =>
          let* (_, d) := d_getc d in
          at_flush_loop fuel' (set_toRead (toRead d - 1)%Z d)
      end.

(** atcommdevice.cpp:64-75 *)
Definition at_flush_read_buffer (d : dev) : res dev :=
  let* d := at_flush_loop (readline_fuel (io d)) d in
  let d := set_toReceive 0%Z d in
  Ok (if (toRead d =? 0)%Z then on_line true d else d).

(** atcommdevice.cpp:77-99 *)
Definition at_handle_disconnect (next : SS) (d : dev) : bool * dev :=
  if fDisc (fl d) then (true, set_sst next (on_disc false d)) else (false, d).
Definition at_handle_connect (next : SS) (d : dev) : bool * dev :=
  if fConnect (fl d) then (true, set_sst next (on_connect false d)) else (false, d).

(** atcommdevice.cpp:149-153 *)
Definition at_send_command (cmd : bytes) (d : dev) : res dev :=
  let* d := w_str cmd d in w_str lineEndStr d.

(** atcommdevice.cpp:101-125 *)
Definition at_prepare_sending (send_channel : bool) (d : dev) : res (bool * dev) :=
  let* (sp, d) := d_space d in
  if (sp <? MIN_SPACE_AVAILABLE)%nat then Ok (false, d)
  else
    let n := Z.of_nat (avail (wbuf d)) in
    let* (sp, d) := d_space d in
    let* (n, d) :=
      if (u64 (Z.of_nat sp - Z.of_nat MIN_SPACE_AVAILABLE) <? n)%Z then
        let* (sp, d) := d_space d in Ok (u64 (Z.of_nat sp - Z.of_nat MIN_SPACE_AVAILABLE), d)
      else Ok (n, d) in
    let d := set_toWrite n d in
    let* d := w_str (bs "AT+CIPSEND=") d in
    let* d := if send_channel then w_str (bs "0,") d else Ok d in
    let* d := w_str (snprintf6 n) d in
    Ok (true, set_wait (Some (bs ">")) d).

(** atcommdevice.cpp:129-131, the loop body of sendData: [n] iterations. *)
Fixpoint at_send_loop (n : nat) (d : dev) : res dev :=
  match n with
  | O => Ok d
  | S n' =>
      let* (c, r) := ring_pull (wbuf d) in
      let* d := d_putc c (set_wbuf r d) in
      at_send_loop n' d
  end.

(** atcommdevice.cpp:127-132: the post-decrement leaves the largest Size. *)
Definition at_send_data (d : dev) : res dev :=
  let* d := at_send_loop (Z.to_nat (toWrite d)) d in
  Ok (set_toWrite (u64 (-1)) d).

(** atcommdevice.cpp:137-140, the loop of receive *)
Fixpoint at_receive_loop (n : nat) (d : dev) : res dev :=
  match n with
  | O => Ok d
  | S n' =>
      let* (c, d) := d_getc d in
      let* r := ring_push (rbuf d) c in
      at_receive_loop n' (set_toRead (toRead d - 1)%Z (set_rbuf r d))
  end.

(** atcommdevice.cpp:134-147 *)
Definition at_receive (d : dev) : res (bool * dev) :=
  let* (a, d) := d_avail d in
  if (toRead d <=? Z.of_nat a)%Z then
    let* d := at_receive_loop (Z.to_nat (toRead d)) d in
    Ok (true, on_line true d)
  else Ok (false, d).

(** atcommdevice.cpp:155-171 *)
Definition at_serial_write (s : cptr) (d : dev) : res (nat * dev) :=
  if fLock (fl d) then
    match s with
    | PUninit => UB Uninitialised | PNull => UB NullDeref
    | PStr s => let* (k, y) := s_write_str (s ++ [NUL]) (io d) in Ok (k, set_io y d)
    end
  else Ok (0, d).
Definition at_serial_read (n : nat) (d : dev) : res (bytes * nat * dev) :=
  if fLock (fl d) then let* (l, k, y) := s_read_many n (io d) in Ok (l, k, set_io y d)
  else Ok ([], 0, d).

(** atcommdevice.cpp:173-181 *)
Definition at_request_rssi (d : dev) : dev := set_rssi INT16_MAX d.
Definition at_get_rssi (d : dev) : Z := rssi d.

(** resetStates, the part identical in simcommdevice.cpp:49-61,
    espressif.cpp:50-62 and cc1352p7.cpp:52-64: [s0], [r0] are the states
    numbered 0, [rssi0] the initial signal strength. *)
Definition at_reset_states (s0 : SS) (r0 : RS) (rssi0 : Z) (d : dev) : res dev :=
  let* d := d_flush_rx d in
  let d := set_wbuf (ring_flush (wbuf d)) (set_rbuf (ring_flush (rbuf d)) d) in
  let d := set_rst r0 (set_sst s0 (set_lbfill 0 d)) in
  let d := set_cst csNotConnected d in
  let d := set_toRead 0%Z (set_toReceive 0%Z (set_toWrite 0%Z d)) in
  Ok (set_rssi rssi0 (set_fl flags_line_read (set_wait None d))).

(** fillLineBuffer of simcommdevice.cpp:66-82 and cc1352p7.cpp:67-83 (the same
    text): the loop, and the function.  The line buffer ends the loop after at
    most 60 bytes, so the fuel never runs out. *)
Definition GT : ascii := ">"%char.
Fixpoint at_fill_loop (fuel : nat) (d : dev) : res (bool * dev) :=
  let* (a, d) := d_avail d in
  if a =? 0 then Ok (false, d)
  else
    match fuel with
    | O => UB Diverges
    | S fuel' =>
        let* (c, d) := d_getc d in
        let* b := wr (lbuf d) (lbfill d) c in
        let d := set_lbfill (S (lbfill d)) (set_lbuf b d) in
        if aeqb c LF || aeqb c GT || (lbfill d =? LINE_MAX_LENGTH) then
          let* b := wr (lbuf d) (lbfill d) NUL in
          Ok (true, set_lbfill 0 (set_lbuf b d))
        else at_fill_loop fuel' d
    end.
Definition at_fill (d : dev) : res (bool * dev) :=
  if fLine (fl d) then at_fill_loop (S LINE_MAX_LENGTH) d else Ok (false, d).

(** The constructors (ipcommdevice.cpp:29-48, atcommdevice.cpp:38-46, task.h:197)
    up to the call of resetStates.  [raw_lbuf], [raw_typ] and the two buffers
    stand for the indeterminate contents of memory without an initialiser; the
    other uninitialised members are overwritten by resetStates. *)
Definition d_raw (s : serial) (opened : bool) (rb wb : list ascii) (raw_lbuf : bytes) (raw_typ : Z)
    (s0 : SS) (r0 : RS) (x : X) : dev :=
  mkDev (mkSys s [] []) opened (ring_new rb) (ring_new wb) raw_typ PNull 0%Z
        flags_line_read csNotConnected None raw_lbuf 0 s0 r0 0%Z 0%Z 0%Z 0%Z (task_new 0%Z) x.

(** ** Histories of calls *)

(** [XO]: the calls a particular driver adds. *)
Inductive dop (XO : Type) : Type :=
| OpIdle                                   (* only interrupts happen *)
| OpRun (open_ok : bool)                   (* run(); [open_ok]: would open() succeed? *)
| OpPortClosed                             (* the serial port gets closed *)
| OpSetHostPort (h : cptr) (p : Z) (t : Z)
| OpConnect | OpDisconnect | OpIsConnected | OpIsIdle
| OpBytesAvailable | OpSpaceAvailable | OpRead (n : nat) | OpWrite (data : bytes) (n : nat)
| OpWriteBufferProcessed | OpResetStates
| OpSerialWrite (s : cptr) | OpSerialRead (n : nat)
| OpRequestRSSI | OpGetRSSI
| OpX (o : XO).

(** What a call lets its user observe. *)
Inductive dobs : Type :=
| DNone | DBool (b : bool) | DCount (n : nat) | DData (l : bytes) (n : nat)
| DNum (z : Z) | DStr (s : option bytes).

(** The functions a driver overrides or adds. *)
Record driver (XO : Type) : Type := mkDriver {
  drv_run : bool -> dev -> res dev;
  drv_reset : dev -> res dev;
  drv_connect : dev -> res (bool * dev);
  drv_x : XO -> dev -> res (dobs * dev)
}.

Definition d_call {XO} (D : driver XO) (o : dop XO) (d : dev) : res (dobs * dev) :=
  match o with
  | OpIdle _ => Ok (DNone, d)
  | OpRun _ oo => let* d := drv_run _ D oo d in Ok (DNone, d)
  | OpPortClosed _ => Ok (DNone, set_isopen false d)
  | OpSetHostPort _ h p t => Ok (DNone, ip_set_host_port h p t d)
  | OpConnect _ => let* (b, d) := drv_connect _ D d in Ok (DBool b, d)
  | OpDisconnect _ => Ok (DNone, ip_disconnect d)
  | OpIsConnected _ => Ok (DBool (ip_is_connected d), d)
  | OpIsIdle _ => Ok (DBool (ip_is_idle d), d)
  | OpBytesAvailable _ => Ok (DCount (ip_bytes_available d), d)
  | OpSpaceAvailable _ => Ok (DCount (ip_space_available d), d)
  | OpRead _ n => let* (l, k, d) := ip_read n d in Ok (DData l k, d)
  | OpWrite _ data n => let* (k, d) := ip_write data n d in Ok (DCount k, d)
  | OpWriteBufferProcessed _ => Ok (DBool (ip_write_buffer_processed d), d)
  | OpResetStates _ => let* d := drv_reset _ D d in Ok (DNone, d)
  | OpSerialWrite _ s => let* (k, d) := at_serial_write s d in Ok (DCount k, d)
  | OpSerialRead _ n => let* (l, k, d) := at_serial_read n d in Ok (DData l k, d)
  | OpRequestRSSI _ => Ok (DNone, at_request_rssi d)
  | OpGetRSSI _ => Ok (DNum (at_get_rssi d), d)
  | OpX _ x => drv_x _ D x d
  end.

(** One call with the interrupts happening before and during it; those left
    over happen before the next call.  The result pairs what the caller
    observes with what happened to the bytes at the serial port. *)
Definition d_step {XO} (D : driver XO) (o : dop XO) (sch : list (list isr)) (d : dev)
  : res (dobs * list event * dev) :=
  let* (out, d) := d_call D o (set_io (mkSys (ser (io d)) sch []) d) in
  let* (s, ev) := run_isrs (ser (io d)) (concat (sched (io d))) in
  Ok (out, slog (io d) ++ ev, set_io (mkSys s [] []) d).

Fixpoint d_run {XO} (D : driver XO) (d : dev) (h : list (dop XO * list (list isr)))
  : res (dev * list (dobs * list event)) :=
  match h with
  | [] => Ok (d, [])
  | (o, sch) :: h' =>
      let* (out, ev, d1) := d_step D o sch d in
      let* (d2, outs) := d_run D d1 h' in
      Ok (d2, (out, ev) :: outs)
  end.

End Dev.
Arguments dev : clear implicits.
Arguments driver : clear implicits.
Arguments OpIdle {XO}.
Arguments OpRun {XO}.
Arguments OpPortClosed {XO}.
Arguments OpSetHostPort {XO}.
Arguments OpConnect {XO}.
Arguments OpDisconnect {XO}.
Arguments OpIsConnected {XO}.
Arguments OpIsIdle {XO}.
Arguments OpBytesAvailable {XO}.
Arguments OpSpaceAvailable {XO}.
Arguments OpRead {XO}.
Arguments OpWrite {XO}.
Arguments OpWriteBufferProcessed {XO}.
Arguments OpResetStates {XO}.
Arguments OpSerialWrite {XO}.
Arguments OpSerialRead {XO}.
Arguments OpRequestRSSI {XO}.
Arguments OpGetRSSI {XO}.
Arguments OpX {XO}.
Arguments mkDriver {SS RS X XO}.
Arguments drv_run {SS RS X XO}.
Arguments drv_reset {SS RS X XO}.
Arguments drv_connect {SS RS X XO}.
Arguments drv_x {SS RS X XO}.
