(** Model of commdevices/sim7x00.{h,cpp}, the SIM7x00 driver. *)
From Coq Require Import String Ascii ZArith Bool List.
From Verif Require Import Base QueueSpec SerialSpec Ring LineRing Serial TaskMacros CStr Dev SimDev.
Import ListNotations.
Local Open Scope nat_scope.

(** sim7x00.h:111-121 *)
Inductive s7reply : Type :=
| R7Ok | R7Csq | R7RequestID | R7ExpectConnect | R7Netopen | R7Cdnsgip | R7Cipopen
| R7Ciprxget4 | R7Ciprxget2.
Definition r7_ok (r : s7reply) : bool := match r with R7Ok => true | _ => false end.

(** sim7x00.h:123-145 *)
Inductive s7send : Type :=
| S7NotConnected | S7SerialError | S7DnsError | S7Connecting | S7SendCgsockcont | S7SendCsocksetpn
| S7SendCipmode | S7SendNetopen | S7SendCiprxget | S7SendDnsQuery | S7SendCipopen
| S7FinalizeConnect | S7Connected | S7SendData | S7SendCiprxget4 | S7SendCiprxget2
| S7WaitReceive | S7Receiving | S7IpUnconnected | S7SendNetclose | S7FinalizeDisconnect.

(** The enumeration's numbers, for the comparisons. *)
Definition s7_rank (s : s7send) : nat :=
  match s with
  | S7NotConnected => 0 | S7SerialError => 1 | S7DnsError => 2 | S7Connecting => 3
  | S7SendCgsockcont => 4 | S7SendCsocksetpn => 5 | S7SendCipmode => 6 | S7SendNetopen => 7
  | S7SendCiprxget => 8 | S7SendDnsQuery => 9 | S7SendCipopen => 10 | S7FinalizeConnect => 11
  | S7Connected => 12 | S7SendData => 13 | S7SendCiprxget4 => 14 | S7SendCiprxget2 => 15
  | S7WaitReceive => 16 | S7Receiving => 17 | S7IpUnconnected => 18 | S7SendNetclose => 19
  | S7FinalizeDisconnect => 20
  end.
Definition s7_is_receiving (s : s7send) : bool := match s with S7Receiving => true | _ => false end.

Section Sim7x00.
Variable P : plat.
Notation dv := (dev s7send s7reply simx).

(** sim7x00.cpp:63-83 *)
Definition s7_reset (d : dv) : res dv :=
  let* d := d_flush_rx d in
  let d := set_fl flags_line_read d in
  let d := set_toWrite 0%Z (set_toReceive 0%Z (set_toRead 0%Z d)) in
  let d := set_sst (if (s7_rank S7Connecting <=? s7_rank (sst d)) && (s7_rank (sst d) <=? s7_rank S7Receiving)
                    then S7Connecting else S7NotConnected) d in
  let* d := w_many (bs "AT+CRESET") d in
  let* d := w_str lineEndStr d in
  let d := set_wait (Some (bs "RDY")) (set_rst R7Ok d) in
  Ok (dev_set_delay 4000%Z d).

(** sim7x00.cpp:94-104; true: run() returns *)
Definition s7_standard_reply (d : dv) : res (bool * dv) :=
  match wait d with
  | Some w =>
      let* m := lmatch (clen w) w d in
      if m then Ok (false, set_wait None d)
      else
        let* e := lstarts (bs "ERROR") d in
        if e then Ok (true, set_wait None (set_cst csGeneralError (on_reset true d)))
        else Ok (false, d)
  | None => Ok (false, d)
  end.

(** sim7x00.cpp:106-164; true: run() returns *)
Definition s7_special_reply (d : dv) : res (bool * dv) :=
  match rst d with
  | R7Netopen =>
      match wait d with
      | None => Ok (false, set_rst R7Ok d)
      | Some _ =>
          let* m := lstarts (bs "+NETOPEN: 1") d in
          if m then Ok (true, set_rst R7Ok (set_wait None (set_sst S7SendNetopen (dev_set_delay 2000%Z d))))
          else Ok (false, d)
      end
  | R7Cdnsgip =>
      let* (ok, d) := sim_parse_dns d in Ok (false, if ok then set_rst R7Ok d else d)
  | R7Cipopen =>
      match wait d with
      | None => Ok (false, set_rst R7Ok d)
      | Some _ =>
          let* m := lstarts (bs "+CIPOPEN: 0,") d in
          Ok (false, if m then set_cst csGeneralError (on_reset true d) else d)
      end
  | R7Ciprxget4 =>
      let* (ok, d) := sim_parse_ciprxget4 P d in Ok (false, if ok then set_rst R7Ok d else d)
  | R7Ciprxget2 =>
      let* (ok, d) := sim_parse_ciprxget2 P d in
      Ok (false, if ok then set_sst S7Receiving (set_rst R7Ok d) else d)
  | R7Csq =>
      let* (ok, d) := sim_parse_csq P d in Ok (false, if ok then set_rst R7Ok d else d)
  | R7RequestID =>
      let* (ok, d) := sim_parse_id d in Ok (false, if ok then set_rst R7Ok d else d)
  | R7Ok | R7ExpectConnect => Ok (false, d)
  end.

(** sim7x00.cpp:94-169, a complete line; true: run() returns *)
Definition s7_parse (d : dv) : res (bool * dv) :=
  let* (ret, d) := s7_standard_reply d in
  if ret then Ok (true, d)
  else
    let* (ret, d) := s7_special_reply d in
    if ret then Ok (true, d)
    else if s7_rank S7Connected <=? s7_rank (sst d)
    then let* d := sim_check_connection (bs "+IPCLOSE: 0,") d in Ok (false, d)
    else Ok (false, d).

(** sim7x00.cpp:85-175; true: run() returns *)
Definition s7_input (d : dv) : res (bool * dv) :=
  let* (line, d) := at_fill d in
  if line then s7_parse d
  else if fDisc (fl d) && s7_is_receiving (sst d)
  then let* d := at_flush_read_buffer d in Ok (false, d)
  else Ok (false, d).

(** sim7x00.cpp:265-284 *)
Definition s7_send_cipopen (d : dv) : res dv :=
  let* d := w_str (bs "AT+CIPOPEN") d in
  let* d :=
    if (typ d =? UDP)%Z then w_str (bs "=0," ++ [DQ] ++ bs "UDP" ++ [DQ] ++ bs ",,,") d
    else
      let* d := w_str (bs "=0," ++ [DQ] ++ bs "TCP" ++ [DQ] ++ bs "," ++ [DQ]) d in
      let* d := w_arr (ip (ext d)) d in
      w_str ([DQ] ++ bs ",") d in
  let* d := w_str (snprintf6 (port d)) d in
  let* d := w_str lineEndStr d in
  Ok (set_sst S7FinalizeConnect (set_wait (Some (bs "+CIPOPEN: 0,0")) (set_rst R7Cipopen d))).

(** sim7x00.cpp:294-321 *)
Definition s7_connected (d : dv) : res dv :=
  if 0 <? avail (wbuf d) then
    let* (ok, d) := at_prepare_sending true d in
    if ok then
      let* d :=
        if (typ d =? UDP)%Z then
          let* d := w_str (bs "," ++ [DQ]) d in
          let* d := w_arr (ip (ext d)) d in
          let* d := w_str ([DQ] ++ bs ",") d in
          w_str (snprintf6 (port d)) d
        else Ok d in
      let* d := w_str lineEndStr d in
      Ok (set_sst S7SendData (set_cst csTransmitting d))
    else Ok d
  else if fData (fl d) then
    Ok (set_sst S7SendCiprxget4 (set_cst csReceiving (on_data false d)))
  else
    Ok (snd (at_handle_disconnect S7SendNetclose (set_cst csConnected d))).

(** sim7x00.cpp:200-394 *)
Definition s7_machine (d : dv) : res dv :=
  match sst d with
  | S7NotConnected =>
      Ok (snd (at_handle_connect S7Connecting (set_cst csNotConnected (dev_set_delay 10%Z d))))
  | S7Connecting =>
      let d := on_line true (set_cst csIntermediate (dev_set_delay 10%Z d)) in
      at_send_command (bs "ATE0") (set_sst S7SendCgsockcont (set_wait (Some okStr) d))
  | S7SendCgsockcont =>
      let* d := w_many (bs "AT+CGSOCKCONT=1," ++ [DQ] ++ bs "IP" ++ [DQ] ++ bs "," ++ [DQ]) d in
      let* d := w_ptr_len (apn (ext d)) d in
      let* d := w_str quoteEndStr d in
      Ok (set_sst S7SendCsocksetpn (set_wait (Some okStr) d))
  | S7SendCsocksetpn =>
      at_send_command (bs "AT+CSOCKSETPN=1") (set_sst S7SendCipmode (set_wait (Some okStr) d))
  | S7SendCipmode =>
      at_send_command (bs "AT+CIPMODE=0") (set_sst S7SendNetopen (set_wait (Some okStr) d))
  | S7SendNetopen =>
      let (h, d) := at_handle_disconnect S7FinalizeDisconnect d in
      if h then Ok d
      else
        let d := set_wait (Some (bs "+NETOPEN: 0")) (dev_set_delay 10%Z d) in
        at_send_command (bs "AT+NETOPEN") (set_rst R7Netopen (set_sst S7SendCiprxget d))
  | S7SendCiprxget =>
      at_send_command (bs "AT+CIPRXGET=1") (set_sst S7SendDnsQuery (set_wait (Some okStr) d))
  | S7SendDnsQuery =>
      let* (ok, d) := sim_send_dns d in
      Ok (if ok then set_sst S7SendCipopen (set_wait (Some okStr) (set_rst R7Cdnsgip d)) else d)
  | S7SendCipopen => s7_send_cipopen d
  | S7FinalizeConnect =>
      Ok (on_ip true (set_sst S7Connected (set_rst R7Ok (set_cst csConnected (dev_set_delay 0%Z d)))))
  | S7Connected => s7_connected d
  | S7SendData =>
      let* d := at_send_data d in Ok (set_sst S7Connected (set_wait (Some okStr) d))
  | S7SendCiprxget4 =>
      at_send_command (bs "AT+CIPRXGET=4,0")
        (set_rst R7Ciprxget4 (set_sst S7SendCiprxget2 (set_wait (Some okStr) d)))
  | S7SendCiprxget2 =>
      let (h, d) := at_handle_disconnect S7SendNetclose d in
      if h then Ok d
      else if (0 <? toReceive d)%Z then
        let* (ok, d) := sim_send_ciprxget2 d in
        Ok (if ok then set_rst R7Ciprxget2 (set_sst S7WaitReceive d) else d)
      else Ok (set_sst (if fIp (fl d) then S7Connected else S7IpUnconnected) d)
  | S7WaitReceive => Ok d
  | S7Receiving =>
      if (0 <? toRead d)%Z then
        let* (ok, d) := at_receive d in
        Ok (if ok then set_wait (Some okStr) (set_rst R7Ok d) else d)
      else Ok (set_sst (if (0 <? toReceive d)%Z then S7SendCiprxget2 else S7SendCiprxget4) d)
  | S7IpUnconnected =>
      let (h, d) := at_handle_disconnect S7SendNetclose (set_cst csIntermediate d) in
      if h then Ok d else Ok (snd (at_handle_connect S7SendCipopen d))
  | S7SendNetclose =>
      at_send_command (bs "AT+NETCLOSE")
        (set_sst S7FinalizeDisconnect (set_wait (Some (bs "+NETCLOSE: 0")) (set_cst csIntermediate d)))
  | S7FinalizeDisconnect =>
      Ok (set_sst S7NotConnected (set_cst csNotConnected (on_ip false d)))
  | S7SerialError | S7DnsError => Ok d
  end.

Definition s7_iccid_command : bytes := bs "AT+CICCID".

(** sim7x00.cpp:177-394 *)
Definition s7_output (d : dv) : res dv :=
  match wait d with
  | Some _ => Ok d
  | None =>
      if negb (r7_ok (rst d)) then Ok d
      else
        let* (sp, d) := d_space d in
        if sp <? 20 then Ok d
        else if (rssi d =? INT16_MAX)%Z && fLine (fl d) then
          at_send_command (bs "AT+CSQ") (set_wait (Some okStr) (set_rst R7Csq d))
        else
          let* (sent, d) := sim_send_id s7_iccid_command d in
          if sent then Ok (set_wait (Some okStr) (set_rst R7RequestID d))
          else s7_machine d
  end.

(** sim7x00.cpp:49-395, run; [open_ok]: what open() would return *)
Definition s7_run (open_ok : bool) (d : dv) : res dv :=
  if negb (isopen d) then
    Ok (if open_ok then set_isopen true d else set_sst S7SerialError d)
  else if fLock (fl d) then Ok d
  else if fReset (fl d) then s7_reset d
  else
    let* (ret, d) := s7_input d in
    if ret then Ok d else s7_output d.

Definition s7_driver : driver s7send s7reply simx simop :=
  mkDriver s7_run (sim_reset_states S7NotConnected R7Ok)
           (fun d => Ok (sim_connect d)) (sim_x r7_ok).

(** sim7x00.cpp:35-47, simcommdevice.cpp:33-45; the raw contents are arbitrary. *)
Definition s7_new (s : serial) (opened : bool) (rb wb : list ascii)
    (raw_lbuf raw_ip raw_id : bytes) (raw_typ : Z) : res dv :=
  sim_reset_states S7NotConnected R7Ok
    (d_raw s opened rb wb raw_lbuf raw_typ S7NotConnected R7Ok (mkSimx PNull raw_ip raw_id 1500%Z)).

End Sim7x00.
