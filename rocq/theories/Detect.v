(** Model of cicada/commdevices/modemdetect.{h,cpp} (class ModemDetect). *)
From Coq Require Import String Ascii ZArith Bool List.
From Verif Require Import Base QueueSpec SerialSpec Ring LineRing Serial TaskMacros CStr Dev SimDev Sim7x00 Sim800 Espressif Cc1352.
Import ListNotations.
Local Open Scope nat_scope.

(** modemdetect.h:91-103, enum DetectState in this order *)
Inductive dstate : Type :=
| dNone | dBegin | dError | dCgmm | dGmr | dWaitOk | dDetected | dSim800 | dSim7x00 | dEspressif | dCc1352.
Definition ds_rank (s : dstate) : nat :=
  match s with
  | dNone => 0 | dBegin => 1 | dError => 2 | dCgmm => 3 | dGmr => 4 | dWaitOk => 5 | dDetected => 6
  | dSim800 => 7 | dSim7x00 => 8 | dEspressif => 9 | dCc1352 => 10
  end.

(** modemdetect.h:81-88, the union _md with the driver constructed in it. *)
Inductive modem : Type :=
| M800 (d : dev s8send s8reply simx)
| M7x00 (d : dev s7send s7reply simx)
| MEsp (d : dev essend esreply espx)
| MCc (d : dev ccsend ccreply ccx).
(** Calls on the driver. *)
Inductive modemop : Type :=
| O800 (o : dop simop) | O7x00 (o : dop simop) | OEsp (o : dop esop) | OCc (o : dop ccop).

Definition modem_io (v : modem) : sys := match v with M800 d => io d | M7x00 d => io d | MEsp d => io d | MCc d => io d end.
Definition modem_open (v : modem) : bool := match v with M800 d => isopen d | M7x00 d => isopen d | MEsp d => isopen d | MCc d => isopen d end.
Definition modem_task (v : modem) : tobj := match v with M800 d => tsk d | M7x00 d => tsk d | MEsp d => tsk d | MCc d => tsk d end.
Definition modem_last_run (t : Z) (v : modem) : modem :=
  match v with
  | M800 d => M800 (set_tsk (set_last_run t (tsk d)) d)
  | M7x00 d => M7x00 (set_tsk (set_last_run t (tsk d)) d)
  | MEsp d => MEsp (set_tsk (set_last_run t (tsk d)) d)
  | MCc d => MCc (set_tsk (set_last_run t (tsk d)) d)
  end.

(** The data members (modemdetect.h:81-106); [mio] and [mopen] are the serial port
    until a driver is constructed, which then has it.  [mdrv = None]: the pointer
    _detectedModem is NULL. *)
Record detect : Type := mkDetect {
  mio : sys; mopen : bool; mstate : dstate; mstart : bool; mdrv : option modem; mtask : tobj
}.
(** modemdetect.cpp:30-32 *)
Definition detect_new (s : serial) (opened : bool) : detect := mkDetect (mkSys s [] []) opened dNone false None (task_new 0%Z).
Definition m_io (y : sys) (m : detect) : detect := mkDetect y (mopen m) (mstate m) (mstart m) (mdrv m) (mtask m).
Definition m_state (s : dstate) (m : detect) : detect := mkDetect (mio m) (mopen m) s (mstart m) (mdrv m) (mtask m).

(** modemdetect.cpp:34-37 *)
Definition m_start (m : detect) : detect := mkDetect (mio m) (mopen m) (mstate m) true (mdrv m) (mtask m).
(** modemdetect.cpp:39-42 *)
Definition m_detected (m : detect) : bool := ds_rank dDetected <? ds_rank (mstate m).

(** strncmp(lit, readBuf, n) == 0; n is always the length of the literal. *)
Definition m_match (lit arr : bytes) : res bool := strncmp (length lit) arr (lit ++ [NUL]).

(** modemdetect.cpp:118-143: what is done with a line. *)
Definition m_line (arr : bytes) (m : detect) : res detect :=
  match mstate m with
  | dCgmm =>
      let* b := m_match (bs "SIMCOM_SIM800") arr in
      if b then Ok (m_state dSim800 m)
      else
        let* b := m_match (bs "SIMCOM_SIM7600") arr in
        if b then Ok (m_state dSim7x00 m)
        else
          let* b := m_match (bs "CC1352P7") arr in
          if b then Ok (m_state dCc1352 m)
          else
            let* b := m_match (bs "ERROR") arr in
            if b then
              let* (_, y) := s_write_str (bs "AT+GMR" ++ [CR; LF; NUL]) (mio m) in
              Ok (m_state dGmr (m_io y m))
            else Ok m
  | dGmr =>
      let* b := m_match (bs "AT version:1.7") arr in
      let* b := if b then Ok true else m_match (bs "AT version:2.1") arr in
      if b then Ok (m_state dWaitOk m) else Ok m
  | dWaitOk =>
      let* b := m_match (bs "OK" ++ [CR; LF]) arr in
      if b then Ok (m_state dEspressif m) else Ok m
  | _ => Ok m
  end.

(** modemdetect.cpp:112-116: uint16_t bufSize, an array of that many characters,
    readLine into it, and the terminator at the index returned.  The array is
    given by the part readLine stored into. *)
Definition m_read_line (m : detect) : res detect :=
  let* (n, y) := s_bytes_available (mio m) in
  let size := u16 (Z.of_nat n + 1) in
  let* (out, y) := s_readline (Z.to_nat size) y in
  let (arr, k) := match out with OData l k => (l, k) | _ => ([], 0) end in
  let* arr := wr arr k NUL in
  m_line arr (m_io y m).

(** modemdetect.cpp:96-110, the first switch of run(). *)
Definition m_first (m : detect) : res detect :=
  match mstate m with
  | dNone => Ok (if mstart m then m_state dBegin m else m)
  | dBegin =>
      let* y := s_flush (mio m) in
      let* (_, y) := s_write_str (bs "AT+CGMM" ++ [CR; LF; NUL]) y in
      let m := m_state dCgmm (m_io y m) in
      Ok (mkDetect (mio m) (mopen m) (mstate m) (mstart m) (mdrv m) (set_delay 10 (mtask m)))
  | _ => Ok m
  end.

(** modemdetect.cpp:83-145, run() while there is no driver; [open_ok]: would
    open() succeed? *)
Definition m_run (open_ok : bool) (m : detect) : res detect :=
  if negb (mopen m) then
    Ok (if open_ok then mkDetect (mio m) true (mstate m) (mstart m) (mdrv m) (mtask m) else m_state dError m)
  else
    let* m := m_first m in
    let* (b, y) := s_can_read_line (mio m) in
    let m := m_io y m in
    if b then m_read_line m else Ok m.

Section Steps.
Variable P : plat.

(** A call on the driver with the interrupts during it. *)
Definition modem_step (o : modemop) (sch : list (list isr)) (v : modem) : res (dobs * list event * modem) :=
  match o, v with
  | O800 o, M800 d => let* (out, ev, d) := d_step (s8_driver P) o sch d in Ok (out, ev, M800 d)
  | O7x00 o, M7x00 d => let* (out, ev, d) := d_step (s7_driver P) o sch d in Ok (out, ev, M7x00 d)
  | OEsp o, MEsp d => let* (out, ev, d) := d_step (se_driver P) o sch d in Ok (out, ev, MEsp d)
  | OCc o, MCc d => let* (out, ev, d) := d_step (sc_driver P) o sch d in Ok (out, ev, MCc d)
  | _, _ => UB NullDeref  (* no such call: the types do not fit *)
  end.
(** The virtual run() of the driver. *)
Definition run_op (open_ok : bool) (v : modem) : modemop :=
  match v with M800 _ => O800 (OpRun open_ok) | M7x00 _ => O7x00 (OpRun open_ok) | MEsp _ => OEsp (OpRun open_ok) | MCc _ => OCc (OpRun open_ok) end.

(** The uninitialised memory a driver finds. *)
Record rawmem : Type := mkRaw { raw_line : bytes; raw_a : bytes; raw_b : bytes; raw_type : Z }.
(** modemdetect.cpp:44-76, getDetectedModem(...): the driver it constructs. *)
Definition m_construct (s : serial) (opened : bool) (rb wb : list ascii) (w : rawmem) (st : dstate) : option (res modem) :=
  match st with
  | dSim800 => Some (let* d := s8_new s opened rb wb (raw_line w) (raw_a w) (raw_b w) (raw_type w) in Ok (M800 d))
  | dSim7x00 => Some (let* d := s7_new s opened rb wb (raw_line w) (raw_a w) (raw_b w) (raw_type w) in Ok (M7x00 d))
  | dEspressif => Some (let* d := se_new s opened rb wb (raw_line w) (raw_a w) (raw_type w) in Ok (MEsp d))
  | dCc1352 => Some (let* d := sc_new s opened rb wb (raw_line w) (raw_a w) (raw_type w) in Ok (MCc d))
  | _ => None
  end.

(** The program's calls. *)
Inductive mop : Type :=
| MIdle                                               (* only interrupts happen *)
| MStart | MDetected
| MRun (open_ok : bool)
| MPortClosed                                         (* the serial port gets closed *)
| MGet (rb wb : list ascii) (w : rawmem)              (* getDetectedModem(...) *)
| MOnDriver (o : modemop).                            (* a call on the driver *)

(** One call with the interrupts before and during it.  Simplification: the
    interrupts during a constructor happen before it. *)
Definition m_step (o : mop) (sch : list (list isr)) (m : detect) : res (dobs * list event * detect) :=
  let port := match mdrv m with Some v => modem_io v | None => mio m end in
  let opened := match mdrv m with Some v => modem_open v | None => mopen m end in
  let idle (m : detect) (out : dobs) :=
    match mdrv m with
    | None =>
        let* (s, ev) := run_isrs (ser (mio m)) (concat sch) in
        Ok (out, ev, m_io (mkSys s [] []) m)
    | Some v =>
        let* (_, ev, v) := modem_step (match v with M800 _ => O800 OpIdle | M7x00 _ => O7x00 OpIdle | MEsp _ => OEsp OpIdle | MCc _ => OCc OpIdle end) sch v in
        Ok (out, ev, mkDetect (mio m) (mopen m) (mstate m) (mstart m) (Some v) (mtask m))
    end in
  match o with
  | MIdle => idle m DNone
  | MStart => idle (m_start m) DNone
  | MDetected => idle m (DBool (m_detected m))
  | MPortClosed =>
      match mdrv m with
      | None => idle (mkDetect (mio m) false (mstate m) (mstart m) None (mtask m)) DNone
      | Some v =>
          let* (_, ev, v) := modem_step (match v with M800 _ => O800 OpPortClosed | M7x00 _ => O7x00 OpPortClosed | MEsp _ => OEsp OpPortClosed | MCc _ => OCc OpPortClosed end) sch v in
          Ok (DNone, ev, mkDetect (mio m) (mopen m) (mstate m) (mstart m) (Some v) (mtask m))
      end
  | MRun oo =>
      match mdrv m with
      | Some v =>
          (* modemdetect.cpp:85-90 *)
          let* (_, ev, v) := modem_step (run_op oo v) sch v in
          let v := modem_last_run (tlast (mtask m)) v in
          Ok (DNone, ev, mkDetect (mio m) (mopen m) (mstate m) (mstart m) (Some v) (set_delay (tdelay (modem_task v)) (mtask m)))
      | None =>
          let* m := m_run oo (m_io (mkSys (ser (mio m)) sch []) m) in
          let* (s, ev) := run_isrs (ser (mio m)) (concat (sched (mio m))) in
          Ok (DNone, slog (mio m) ++ ev, m_io (mkSys s [] []) m)
      end
  | MGet rb wb w =>
      let* (s, ev) := run_isrs (ser port) (concat sch) in
      match m_construct s opened rb wb w (mstate m) with
      | Some c =>
          let* v := c in
          Ok (DBool true, ev ++ slog (modem_io v), mkDetect (mio m) (mopen m) (mstate m) (mstart m) (Some v) (mtask m))
      | None => idle m (DBool (match mdrv m with Some _ => true | None => false end))
      end
  | MOnDriver o =>
      match mdrv m with
      | Some v =>
          let* (out, ev, v) := modem_step o sch v in
          Ok (out, ev, mkDetect (mio m) (mopen m) (mstate m) (mstart m) (Some v) (mtask m))
      | None => UB NullDeref
      end
  end.

(** A history: each call, what it let the program observe and what happened to
    the bytes meanwhile. *)
Record mcall : Type := mkMcall { c_op : mop; c_sch : list (list isr); c_out : dobs; c_ev : list event }.
Inductive m_hist : detect -> list mcall -> detect -> Prop :=
| mh_nil m : m_hist m [] m
| mh_cons m o sch out ev m1 h m2 : m_step o sch m = Ok (out, ev, m1) -> m_hist m1 h m2 ->
    m_hist m (mkMcall o sch out ev :: h) m2.
End Steps.
