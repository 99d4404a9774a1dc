(** Model of commdevices/cc1352p7.{h,cpp}, the CC1352P7 Wi-SUN driver. *)
From Coq Require Import String Ascii ZArith Bool List.
From Verif Require Import Base QueueSpec SerialSpec Ring LineRing Serial TaskMacros CStr Dev SimDev Espressif.
Import ListNotations.
Local Open Scope nat_scope.

(** cc1352p7.h:137, the data member _macStringBuffer. *)
Record ccx : Type := mkCcx { cmac : bytes }.
Definition MAC64STRING_MAX_LENGTH : nat := 24.
Definition CC1352P7_MAX_RX : Z := 1220.

(** cc1352p7.h:115 *)
Inductive ccreply : Type := RCOk | RCParseCiprecvdata | RCCsq | RCReqMac.
Definition rc_ok (r : ccreply) : bool := match r with RCOk => true | _ => false end.

(** cc1352p7.h:117-130 *)
Inductive ccsend : Type :=
| SCNotConnected | SCSerialError | SCConnecting | SCSendCipstart | SCFinalizeConnect | SCConnected
| SCSendDataState | SCSendCiprecvdata | SCWaitReceive | SCReceiving | SCSendCipclose
| SCFinalizeDisconnect.

(** The enumeration's numbers, for the comparisons. *)
Definition sc_rank (s : ccsend) : nat :=
  match s with
  | SCNotConnected => 0 | SCSerialError => 1 | SCConnecting => 2 | SCSendCipstart => 3
  | SCFinalizeConnect => 4 | SCConnected => 5 | SCSendDataState => 6 | SCSendCiprecvdata => 7
  | SCWaitReceive => 8 | SCReceiving => 9 | SCSendCipclose => 10 | SCFinalizeDisconnect => 11
  end.
Definition sc_is_receiving (s : ccsend) : bool := match s with SCReceiving => true | _ => false end.

Section Cc1352.
Variable P : plat.
Notation dv := (dev ccsend ccreply ccx).

Definition set_cmac (b : bytes) (d : dv) : dv := set_ext (mkCcx b) d.

(** cc1352p7.cpp:50-65 *)
Definition sc_reset_states (d : dv) : res dv := at_reset_states SCNotConnected RCOk 255%Z d.

(** cc1352p7.cpp:85-108 *)
Definition sc_send_ciprcvdata (d : dv) : res (bool * dv) :=
  let* (o, d) := rx_request_size 30 CC1352P7_MAX_RX d in
  match o with
  | Some n =>
      let* sizeStr := sprintf6 n in
      let* d := w_str (bs "AT+CIPRECVDATA=") d in
      let* d := w_str sizeStr d in
      let* d := w_str lineEndStr d in
      Ok (true, d)
  | None => Ok (false, d)
  end.

(** cc1352p7.cpp:110-122 *)
Definition sc_parse_ciprecvdata (d : dv) : res (bool * dv) :=
  let* m := lstarts (bs "+CIPRECVDATA") d in
  if m then
    let* v := strtol P (skipn 13 (lbuf d)) in
    let d := set_toReceive (u64 (toReceive d - i32 v)) d in
    let d := set_toRead (u64 (toRead d + i32 v)) d in
    Ok (true, on_line false d)
  else Ok (false, d).

(** cc1352p7.cpp:124-131 *)
Definition sc_parse_csq (d : dv) : res (bool * dv) :=
  let* m := lstarts (bs "+CSQ:") d in
  if m then
    let* v := strtol P (skipn 5 (lbuf d)) in
    Ok (true, set_rssi (i16 v) d)
  else Ok (false, d).

(** cc1352p7.cpp:133-146 *)
Definition sc_request_mac (d : dv) : res dv :=
  let* b := wr (cmac (ext d)) 0 NUL in
  let* b := wr b 1 (ascii_of_nat 255) in
  Ok (set_cmac b d).
Definition sc_get_mac (d : dv) : res (option bytes) :=
  match wait d with
  | Some _ => Ok None
  | None =>
      let* c0 := rd (cmac (ext d)) 0 in
      if aeqb c0 NUL then Ok None else let* s := cstring (cmac (ext d)) in Ok (Some s)
  end.

(** cc1352p7.cpp:158-171; run() goes on afterwards *)
Definition sc_reset (d : dv) : res dv :=
  let* d := d_flush_rx d in
  let d := set_toWrite 0%Z (set_toReceive 0%Z (set_toRead 0%Z d)) in
  let d := on_reset false (set_wait None (set_rst RCOk (set_sst SCSendCipclose d))) in
  Ok (if cs_rank csIntermediate <=? cs_rank (cst d) then snd (ip_connect d) else d).

(** cc1352p7.cpp:182-189 *)
Definition sc_is_error (d : dv) : res bool :=
  let* a := lstarts (bs "ERROR") d in
  if a then Ok true
  else if sc_rank SCConnected <=? sc_rank (sst d) then lstarts (bs "SEND FAIL") d
  else Ok false.

(** cc1352p7.cpp:191-196 *)
Definition sc_standard_reply (d : dv) : res dv :=
  match wait d with
  | Some w => let* m := lmatch (clen w) w d in Ok (if m then set_wait None d else d)
  | None => Ok d
  end.

(** cc1352p7.cpp:212-222, the reqMac case *)
Definition sc_parse_mac (d : dv) : res dv :=
  let* m := lstarts (bs "+CIPSTAMAC:" ++ [DQ]) d in
  if m then
    let* s := copy_until DQ (MAC64STRING_MAX_LENGTH - 1) (skipn 12 (lbuf d)) in
    let* b := wr_list (cmac (ext d)) 0 (s ++ [NUL]) in
    Ok (set_rst RCOk (set_cmac b d))
  else Ok d.

(** cc1352p7.cpp:198-226.  The csq case has no break: control falls into the
    reqMac case. *)
Definition sc_special_reply (d : dv) : res dv :=
  match rst d with
  | RCParseCiprecvdata =>
      let* (ok, d) := sc_parse_ciprecvdata d in
      Ok (if ok then set_sst SCReceiving (set_rst RCOk d) else d)
  | RCCsq =>
      let* (ok, d) := sc_parse_csq d in
      sc_parse_mac (if ok then set_rst RCOk d else d)
  | RCReqMac => sc_parse_mac d
  | RCOk => Ok d
  end.

(** cc1352p7.cpp:228-236; the comparison of "+IPD," covers four characters;
    the long is stored in the 64 bit Size *)
Definition sc_unsolicited (d : dv) : res dv :=
  let* m := lmatch 4 (bs "+IPD,") d in
  if m then
    let* v := strtol P (skipn 5 (lbuf d)) in
    Ok (on_data true (set_toReceive (u64 v) d))
  else
    let* m := lstarts (bs "CLOSED") d in
    Ok (if m then on_ip false d else d).

(** cc1352p7.cpp:177-237; true: run() returns *)
Definition sc_parse (d : dv) : res (bool * dv) :=
  let* e := sc_is_error d in
  if e then Ok (true, set_wait None (set_cst csGeneralError (on_reset true d)))
  else
    let* d := sc_standard_reply d in
    let* d := sc_special_reply d in
    if sc_rank SCConnected <=? sc_rank (sst d)
    then let* d := sc_unsolicited d in Ok (false, d)
    else Ok (false, d).

(** cc1352p7.cpp:173-242; true: run() returns *)
Definition sc_input (d : dv) : res (bool * dv) :=
  let* (line, d) := at_fill d in
  if line then sc_parse d
  else if fDisc (fl d) && sc_is_receiving (sst d)
  then let* d := at_flush_read_buffer d in Ok (false, d)
  else Ok (false, d).

(** cc1352p7.cpp:284-303 *)
Definition sc_send_cipstart (d : dv) : res dv :=
  let* d := w_str (bs "AT+CIPSTART") d in
  let* d :=
    if (typ d =? UDP)%Z then w_str (bs "=" ++ [DQ] ++ bs "UDP" ++ [DQ] ++ bs "," ++ [DQ]) d
    else w_str (bs "=" ++ [DQ] ++ bs "TCP" ++ [DQ] ++ bs "," ++ [DQ]) d in
  let* d := w_ptr (host d) d in
  let* d := w_str ([DQ] ++ bs ",") d in
  let* d := w_str (snprintf6 (port d)) d in
  let* d := w_str lineEndStr d in
  Ok (set_sst SCFinalizeConnect (set_wait (Some okStr) d)).

(** cc1352p7.cpp:311-332 *)
Definition sc_connected (d : dv) : res dv :=
  if 0 <? avail (wbuf d) then
    let* (ok, d) := at_prepare_sending false d in
    if ok then
      let* d := w_str lineEndStr d in
      Ok (set_sst SCSendDataState (set_cst csTransmitting d))
    else Ok d
  else if fData (fl d) then
    Ok (set_sst SCSendCiprecvdata (set_cst csReceiving (on_data false d)))
  else
    let d := set_cst csConnected d in
    if fIp (fl d) then Ok (snd (at_handle_disconnect SCSendCipclose d))
    else Ok (set_sst SCFinalizeDisconnect (on_disc false d)).

(** cc1352p7.cpp:269-389 *)
Definition sc_machine (d : dv) : res dv :=
  match sst d with
  | SCNotConnected =>
      Ok (snd (at_handle_connect SCConnecting (set_cst csNotConnected d)))
  | SCConnecting =>
      let d := on_line true (set_cst csIntermediate d) in
      at_send_command (bs "ATE0") (set_sst SCSendCipstart (set_wait (Some okStr) d))
  | SCSendCipstart => sc_send_cipstart d
  | SCFinalizeConnect =>
      Ok (on_ip true (set_sst SCConnected (set_cst csConnected d)))
  | SCConnected => sc_connected d
  | SCSendDataState =>
      let* d := at_send_data d in Ok (set_sst SCConnected (set_wait (Some okStr) d))
  | SCSendCiprecvdata =>
      let (h, d) := at_handle_disconnect SCSendCipclose d in
      if h then Ok d
      else if (0 <? toReceive d)%Z then
        let* (ok, d) := sc_send_ciprcvdata d in
        Ok (if ok then set_rst RCParseCiprecvdata (set_sst SCWaitReceive d) else d)
      else Ok (set_sst SCConnected d)
  | SCWaitReceive => Ok d
  | SCReceiving =>
      if (0 <? toRead d)%Z then
        let* (ok, d) := at_receive d in
        Ok (if ok then set_wait (Some okStr) (set_rst RCOk d) else d)
      else Ok (set_sst (if (0 <? toReceive d)%Z then SCSendCiprecvdata else SCConnected) d)
  | SCSendCipclose =>
      at_send_command (bs "AT+CIPCLOSE")
        (set_sst SCFinalizeDisconnect (set_wait (Some okStr) (set_cst csIntermediate d)))
  | SCFinalizeDisconnect =>
      Ok (set_sst SCNotConnected (set_cst csNotConnected (on_ip false d)))
  | SCSerialError => Ok d
  end.

(** cc1352p7.cpp:260-267 *)
Definition sc_send_mac (d : dv) : res (bool * dv) :=
  let* c1 := rd (cmac (ext d)) 1 in
  let* c0 := rd (cmac (ext d)) 0 in
  if char_is_ff P c1 && aeqb c0 NUL && fLine (fl d) then
    let* b := wr (cmac (ext d)) 1 NUL in
    let* d := at_send_command (bs "AT+CIPSTAMAC") (set_cmac b d) in
    Ok (true, set_wait (Some okStr) (set_rst RCReqMac d))
  else Ok (false, d).

(** cc1352p7.cpp:244-389 *)
Definition sc_output (d : dv) : res dv :=
  match wait d with
  | Some _ => Ok d
  | None =>
      if negb (rc_ok (rst d)) then Ok d
      else
        let* (sp, d) := d_space d in
        if sp <? 20 then Ok d
        else if (rssi d =? INT16_MAX)%Z && fLine (fl d) then
          at_send_command (bs "AT+CSQ") (set_wait (Some okStr) (set_rst RCCsq d))
        else
          let* (sent, d) := sc_send_mac d in
          if sent then Ok d else sc_machine d
  end.

(** cc1352p7.cpp:148-390, run; [open_ok]: what open() would return *)
Definition sc_run (open_ok : bool) (d : dv) : res dv :=
  if negb (isopen d) then
    Ok (if open_ok then set_isopen true d else set_sst SCSerialError d)
  else
    let* d := if fReset (fl d) then sc_reset d else Ok d in
    let* (ret, d) := sc_input d in
    if ret then Ok d else sc_output d.

(** The calls CC1352P7CommDevice adds. *)
Inductive ccop : Type := CRequestMac | CGetMac.

Definition sc_x (o : ccop) (d : dv) : res (dobs * dv) :=
  match o with
  | CRequestMac => let* d := sc_request_mac d in Ok (DNone, d)
  | CGetMac => let* s := sc_get_mac d in Ok (DStr s, d)
  end.

Definition sc_driver : driver ccsend ccreply ccx ccop :=
  mkDriver sc_run sc_reset_states (fun d => Ok (ip_connect d)) sc_x.

(** cc1352p7.cpp:36-48; the raw contents are arbitrary. *)
Definition sc_new (s : serial) (opened : bool) (rb wb : list ascii)
    (raw_lbuf raw_mac : bytes) (raw_typ : Z) : res dv :=
  sc_reset_states
    (d_raw s opened rb wb raw_lbuf raw_typ SCNotConnected RCOk (mkCcx raw_mac)).

End Cc1352.
