(** Model of cicada/platform/stm32f1/stm32uart.cpp (class Stm32Uart): the serial
    settings, the table of instances, and the transmit interrupt.

    Not modelled: pins, GPIO and AFIO set-up, the interrupt priority, the data and
    status registers (an interrupt is given by what rawRead() delivers and whether
    rawWrite() accepts a byte, as in Serial.v). *)
From Coq Require Import Ascii ZArith List Bool Arith.
From Verif Require Import Base QueueSpec LineSpec SerialSpec Ring LineRing Serial.
Import ListNotations.

(** ** Serial settings *)

(** stm32uart.cpp:62-63: _handle.Init.BaudRate and _handle.Init.WordLength.
    UART_WORDLENGTH_8B is 0, UART_WORDLENGTH_9B is USART_CR1_M = 0x1000. *)
Record uconf : Type := mkUconf { uc_baud : Z; uc_word : Z }.
Definition uconf_new : uconf := mkUconf 115200 0.
(** stm32uart.cpp:91-110, setSerialConfig *)
Definition stm_config (rate bits : Z) (c : uconf) : bool * uconf :=
  if ((rate <? 50) || (4500000 <? rate))%Z then (false, c)
  else
    let c := mkUconf rate (uc_word c) in
    match bits with
    | 8%Z => (true, mkUconf (uc_baud c) 0)
    | 9%Z => (true, mkUconf (uc_baud c) 4096)
    | _ => (false, c)
    end.

(** ** Table of instances *)

(** stm32uart.cpp:32: [instance]; NULL is [None], objects are named by their
    address.  [live] gives the object now alive at an address by the
    peripheral it was constructed for. *)
Record registry : Type := mkReg { slots : list (option nat); live : nat -> option Z }.
(** stm32uart.cpp:32, [n] is E_MULTITON_MAX_INSTANCES. *)
Definition registry_new (n : nat) : registry := mkReg (repeat None n) (fun _ => None).
(** stm32uart.cpp:65-70, loop of init *)
Fixpoint reg_add (l : list (option nat)) (a : nat) : list (option nat) :=
  match l with
  | [] => []
  | None :: l' => Some a :: l'
  | Some b :: l' => Some b :: reg_add l' a
  end.
(** stm32uart.cpp:34-71, constructors and init *)
Definition reg_construct (a : nat) (u : Z) (r : registry) : registry :=
  mkReg (reg_add (slots r) a) (fun b => if b =? a then Some u else live r b).
(** stm32uart.cpp:73-77, destructor: the table is left as it is. *)
Definition reg_destroy (a : nat) (r : registry) : registry :=
  mkReg (slots r) (fun b => if b =? a then None else live r b).
(** What getInstance() does: it returns an object, returns NULL, or reads a
    member of an object that no longer exists (undefined behaviour). *)
Inductive lookup : Type := Found (a : nat) | NotFound | ReadsDead.
(** stm32uart.cpp:79-89, getInstance *)
Fixpoint reg_get (l : list (option nat)) (lv : nat -> option Z) (u : Z) : lookup :=
  match l with
  | [] => NotFound
  | None :: l' => reg_get l' lv u
  | Some a :: l' =>
      match lv a with
      | None => ReadsDead
      | Some v => if (v =? u)%Z then Found a else reg_get l' lv u
      end
  end.
Definition get_instance (r : registry) (u : Z) : lookup := reg_get (slots r) (live r) u.
(** The program's use of the class. *)
Inductive regop : Type := RNew (a : nat) (u : Z) | RDelete (a : nat).
Definition reg_step (r : registry) (o : regop) : registry :=
  match o with RNew a u => reg_construct a u r | RDelete a => reg_destroy a r end.
(** Two live objects are never at the same address; only live ones are
    destroyed. *)
Inductive reg_hist : registry -> list regop -> registry -> Prop :=
| rh_nil r : reg_hist r [] r
| rh_new r a u h r' : live r a = None -> reg_hist (reg_construct a u r) h r' -> reg_hist r (RNew a u :: h) r'
| rh_delete r a h r' : live r a <> None -> reg_hist (reg_destroy a r) h r' -> reg_hist r (RDelete a :: h) r'.

(** ** Transmit interrupt *)

(** What HAL_UART_Init and HAL_UART_DeInit do to the interrupt enable bits: the
    library is not part of the repository and its versions differ. *)
Record hal : Type := mkHal { init_keeps : bool; deinit_keeps : bool }.

(** The port with its buffers, the bit USART_CR1_TXEIE, whether the peripheral's
    clock is on (writes to its registers have no effect before), and FLAG_ISOPEN,
    which here stands for the enabled interrupt line as well. *)
Record uart : Type := mkUart { usys : sys; utxe : bool; uclk : bool; uopen : bool }.
Definition uart_new (rbuf wbuf : list ascii) : uart := mkUart (mkSys (serial_new rbuf wbuf) [] []) false false false.

(** stm32uart.cpp:243-249, handleInterrupt *)
Definition handle_interrupt (s : serial) (t : bool) (i : isr) : res (serial * bool * list event) :=
  let* (s', ev) := transfer s i in
  Ok (s', (if avail (lr (stx s')) =? 0 then false else t), ev).
Fixpoint handle_all (s : serial) (t : bool) (is : list isr) : res (serial * bool * list event) :=
  match is with
  | [] => Ok (s, t, [])
  | i :: is' =>
      let* (s1, t1, e1) := handle_interrupt s t i in
      let* (s2, t2, e2) := handle_all s1 t1 is' in
      Ok (s2, t2, e1 ++ e2)
  end.
(** Interrupts happening before an atomic section. *)
Definition u_point (u : uart) : res uart :=
  match sched (usys u) with
  | [] => Ok u
  | is :: rest =>
      let* (s, t, ev) := handle_all (ser (usys u)) (utxe u) is in
      Ok (mkUart (mkSys s rest (slog (usys u) ++ ev)) t (uclk u) (uopen u))
  end.
(** The thread's own accesses are those of Serial.v, with these interrupts. *)
Definition on_sys (u : uart) (y : sys) : uart := mkUart y (utxe u) (uclk u) (uopen u).

(** stm32uart.cpp:238-241, startTransmit: SET_BIT reads the register and writes
    it back; interrupts may happen in between. *)
Definition start_transmit (u : uart) : res uart :=
  let* u := u_point u in
  let* u := u_point u in
  Ok (mkUart (usys u) (if uclk u then true else utxe u) (uclk u) (uopen u)).

(** bufferedserial.cpp:39-46 *)
Definition u_bytes_available (u : uart) : res (nat * uart) :=
  let* u := u_point u in Ok (avail (lr (srx (ser (usys u)))), u).
(** bufferedserial.cpp:48-55 *)
Definition u_space_available (u : uart) : res (nat * uart) :=
  let* u := u_point u in Ok (ring_space (lr (stx (ser (usys u)))), u).
(** bufferedserial.cpp:72-79, read() *)
Definition u_read (u : uart) : res (ascii * uart) :=
  let* u := u_point u in
  let y := usys u in
  let* (c, rx) := lr_pull (srx (ser y)) in
  let ev := if avail (lr (srx (ser y))) =? 0 then EvMisuse else EvTaken c in
  Ok (c, on_sys u (mkSys (mkSerial rx (stx (ser y))) (sched y) (slog y ++ [ev]))).
(** bufferedserial.cpp:65-67 *)
Fixpoint u_read_loop (n : nat) (u : uart) : res (list ascii * uart) :=
  match n with
  | 0 => Ok ([], u)
  | S n' =>
      let* (c, u1) := u_read u in
      let* (cs, u2) := u_read_loop n' u1 in
      Ok (c :: cs, u2)
  end.
(** bufferedserial.cpp:57-70, read(data, size) *)
Definition u_read_many (n : nat) (u : uart) : res (list ascii * nat * uart) :=
  let* (a, u1) := u_bytes_available u in
  let k := if a <? n then a else n in
  let* (cs, u2) := u_read_loop k u1 in
  Ok (cs, k, u2).
(** bufferedserial.cpp:119-124, copyToBuffer *)
Definition u_copy (c : ascii) (u : uart) : res uart :=
  let* u := u_point u in
  let y := usys u in
  let* tx := lr_push (stx (ser y)) c in
  let ev := if ring_is_full (lr (stx (ser y))) then EvMisuse else EvPut c in
  Ok (on_sys u (mkSys (mkSerial (srx (ser y)) tx) (sched y) (slog y ++ [ev]))).
(** bufferedserial.cpp:89-91 *)
Fixpoint u_write_loop (n : nat) (data : list ascii) (u : uart) : res uart :=
  match n with
  | 0 => Ok u
  | S n' =>
      match data with
      | [] => UB OutOfBounds
      | c :: data' => let* u1 := u_copy c u in u_write_loop n' data' u1
      end
  end.
(** bufferedserial.cpp:81-96, write(data, size) *)
Definition u_write_many (data : list ascii) (n : nat) (u : uart) : res (nat * uart) :=
  let* (space, u1) := u_space_available u in
  let k := if space <? n then space else n in
  let* u2 := u_write_loop k data u1 in
  let* u3 := start_transmit u2 in
  Ok (k, u3).
(** bufferedserial.cpp:104-106 *)
Fixpoint u_write_str_loop (str : list ascii) (room : nat) (u : uart) : res (nat * uart) :=
  match str with
  | [] => UB OutOfBounds
  | c :: str' =>
      if aeqb c NUL then Ok (0, u)
      else
        match room with
        | 0 => Ok (0, u)
        | S room' =>
            let* u1 := u_copy c u in
            let* (k, u2) := u_write_str_loop str' room' u1 in
            Ok (S k, u2)
        end
  end.
(** bufferedserial.cpp:98-111, write(str) *)
Definition u_write_str (str : list ascii) (u : uart) : res (nat * uart) :=
  let* (space, u1) := u_space_available u in
  let* (k, u2) := u_write_str_loop str space u1 in
  let* u3 := start_transmit u2 in
  Ok (k, u3).
(** bufferedserial.cpp:113-117, write(byte) *)
Definition u_write (c : ascii) (u : uart) : res uart :=
  let* u1 := u_copy c u in start_transmit u1.
(** bufferedserial.cpp:126-133, canReadLine *)
Definition u_can_read_line (u : uart) : res (bool * uart) :=
  let* u := u_point u in Ok ((0 <? lines (srx (ser (usys u))))%Z, u).
(** bufferedserial.cpp:143-148 *)
Fixpoint u_readline_loop (fuel : nat) (c : ascii) (room : nat) (u : uart) : res (list ascii * uart) :=
  let* (a, u1) := u_bytes_available u in
  if (0 <? a) && negb (aeqb c LF) then
    match fuel with
    | 0 => UB Diverges
    | S fuel' =>
        let* (c', u2) := u_read u1 in
        match room with
        | 0 => u_readline_loop fuel' c' 0 u2
        | S room' =>
            let* (cs, u3) := u_readline_loop fuel' c' room' u2 in
            Ok (c' :: cs, u3)
        end
    end
  else Ok ([], u1).
(** bufferedserial.cpp:135-152, readLine(data, size) *)
Definition u_readline (n : nat) (u : uart) : res (qobs ascii * uart) :=
  match n with
  | 0 => Ok (OCount 0, u)
  | S m =>
      let* (cs, u1) := u_readline_loop (readline_fuel (usys u)) NUL m u in
      Ok (OData (cs ++ [NUL]) (length cs), u1)
  end.
(** bufferedserial.cpp:154-159, flushReceiveBuffers *)
Definition u_flush (u : uart) : res uart :=
  let* u := u_point u in
  let y := usys u in
  Ok (on_sys u (mkSys (mkSerial (lr_flush (srx (ser y))) (stx (ser y))) (sched y) (slog y ++ [EvFlushed]))).

(** One call. *)
Definition u_exec (c : scall) (u : uart) : res (qobs ascii * uart) :=
  match c with
  | SIdle => let* u := u_point u in Ok (ONone, u)
  | SBytesAvailable => let* (n, u) := u_bytes_available u in Ok (OCount n, u)
  | SSpaceAvailable => let* (n, u) := u_space_available u in Ok (OCount n, u)
  | SReadMany n => let* (cs, k, u) := u_read_many n u in Ok (OData cs k, u)
  | SReadOne => let* (x, u) := u_read u in Ok (OElem x, u)
  | SReadLine n => u_readline n u
  | SCanReadLine => let* (b, u) := u_can_read_line u in Ok (OBool b, u)
  | SFlushRx => let* u := u_flush u in Ok (ONone, u)
  | SWriteMany data n => let* (k, u) := u_write_many data n u in Ok (OCount k, u)
  | SWriteStr str => let* (k, u) := u_write_str str u in Ok (OCount k, u)
  | SWriteOne x => let* u := u_write x u in Ok (ONone, u)
  | SReadBufferSize => Ok (OCount (rsize (lr (srx (ser (usys u))))), u)
  | SWriteBufferSize => Ok (OCount (rsize (lr (stx (ser (usys u))))), u)
  end.

(** The program's use of the port. *)
Inductive uop : Type :=
| UCall (c : scall) (sch : list (list isr))
| UOpenPort (ok : bool)   (* open(), HAL_UART_Init succeeding or not *)
| UClosePort.
(** stm32uart.cpp:112-195, open: the clock is switched on, the peripheral set up
    and the interrupt enabled. *)
Definition u_open_port (H : hal) (ok : bool) (u : uart) : uart :=
  mkUart (usys u) (if uclk u then init_keeps H && utxe u else false) true (if ok then true else uopen u).
(** stm32uart.cpp:197-205, close *)
Definition u_close_port (H : hal) (u : uart) : uart :=
  mkUart (usys u) (deinit_keeps H && utxe u) (uclk u) false.
(** One operation; interrupts left over happen before the next one; there are
    none while the port is closed. *)
Definition u_step (H : hal) (o : uop) (u : uart) : res uart :=
  match o with
  | UCall c sch =>
      let* (out, u1) := u_exec c (mkUart (mkSys (ser (usys u)) (if uopen u then sch else []) []) (utxe u) (uclk u) (uopen u)) in
      let* (s, t, ev) := handle_all (ser (usys u1)) (utxe u1) (concat (sched (usys u1))) in
      Ok (mkUart (mkSys s [] []) t (uclk u1) (uopen u1))
  | UOpenPort ok => Ok (u_open_port H ok u)
  | UClosePort => Ok (u_close_port H u)
  end.
Fixpoint u_steps (H : hal) (os : list uop) (u : uart) : res uart :=
  match os with
  | [] => Ok u
  | o :: os' => let* u1 := u_step H o u in u_steps H os' u1
  end.
