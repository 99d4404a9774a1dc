(** Model of commdevices/sim800.{h,cpp}, the SIM800 driver. *)
From Coq Require Import String Ascii ZArith Bool List.
From Verif Require Import Base QueueSpec SerialSpec Ring LineRing Serial TaskMacros CStr Dev SimDev.
Import ListNotations.
Local Open Scope nat_scope.

(** sim800.h:111 *)
Inductive s8reply : Type :=
| R8Ok | R8Csq | R8RequestID | R8Cifsr | R8Cdnsgip | R8Cipstart | R8Ciprxget4 | R8Ciprxget2.
Definition r8_ok (r : s8reply) : bool := match r with R8Ok => true | _ => false end.

(** sim800.h:113-136 *)
Inductive s8send : Type :=
| S8NotConnected | S8SerialError | S8Connecting | S8SendCiprxget | S8SendCipmux | S8SendCipsprt
| S8SendCstt | S8SendCiicr | S8SendCifsr | S8SendDnsQuery | S8SendCipstart | S8FinalizeConnect
| S8Connected | S8SendData | S8SendCiprxget4 | S8SendCiprxget2 | S8WaitReceive | S8Receiving
| S8IpUnconnected | S8SendCipclose | S8SendCipshut | S8FinalizeDisconnect.

(** The enumeration's numbers, for the comparisons. *)
Definition s8_rank (s : s8send) : nat :=
  match s with
  | S8NotConnected => 0 | S8SerialError => 1 | S8Connecting => 2 | S8SendCiprxget => 3
  | S8SendCipmux => 4 | S8SendCipsprt => 5 | S8SendCstt => 6 | S8SendCiicr => 7
  | S8SendCifsr => 8 | S8SendDnsQuery => 9 | S8SendCipstart => 10 | S8FinalizeConnect => 11
  | S8Connected => 12 | S8SendData => 13 | S8SendCiprxget4 => 14 | S8SendCiprxget2 => 15
  | S8WaitReceive => 16 | S8Receiving => 17 | S8IpUnconnected => 18 | S8SendCipclose => 19
  | S8SendCipshut => 20 | S8FinalizeDisconnect => 21
  end.
Definition s8_is_receiving (s : s8send) : bool := match s with S8Receiving => true | _ => false end.

Section Sim800.
Variable P : plat.
Notation dv := (dev s8send s8reply simx).

(** sim800.cpp:63-80; run() goes on afterwards *)
Definition s8_reset (d : dv) : res dv :=
  let* d := d_flush_rx d in
  let d := set_toWrite 0%Z (set_toReceive 0%Z (set_toRead 0%Z d)) in
  let d := set_sst (if (s8_rank (sst d) <? s8_rank S8SendCiicr) || (s8_rank S8SendCipshut <? s8_rank (sst d))
                    then S8NotConnected else S8SendCipshut) d in
  let d := on_reset false (set_wait None (set_rst R8Ok d)) in
  Ok (if cs_rank csIntermediate <=? cs_rank (cst d)
      then snd (sim_connect (dev_set_delay 2000%Z d)) else d).

(** sim800.cpp:90-98 *)
Definition s8_is_error (d : dv) : res bool :=
  let* a := lstarts (bs "+PDP: DEACT") d in
  if a then Ok true
  else
    let* b := lstarts (bs "+CME ERROR") d in
    if b then Ok true else lstarts (bs "ERROR") d.

(** sim800.cpp:100-105 *)
Definition s8_standard_reply (d : dv) : res dv :=
  match wait d with
  | Some w => let* m := lmatch (clen w) w d in Ok (if m then set_wait None d else d)
  | None => Ok d
  end.

(** sim800.cpp:107-164.  The csq case has no break: control falls into the
    requestID case. *)
Definition s8_special_reply (d : dv) : res dv :=
  match rst d with
  | R8Cifsr =>
      let* p := count_char "."%char (lbuf d) in
      Ok (if p =? 3 then set_rst R8Ok d else d)
  | R8Cdnsgip =>
      let* (ok, d) := sim_parse_dns d in Ok (if ok then set_rst R8Ok d else d)
  | R8Cipstart =>
      let (h, d) := at_handle_disconnect S8SendCipshut d in
      if h then Ok (set_rst R8Ok d)
      else
        match wait d with
        | None => Ok (set_rst R8Ok d)
        | Some _ =>
            let* m := lstarts (bs "0, CONNECT FAIL") d in
            Ok (if m then set_cst csGeneralError (on_reset true d) else d)
        end
  | R8Ciprxget4 =>
      let* (ok, d) := sim_parse_ciprxget4 P d in Ok (if ok then set_rst R8Ok d else d)
  | R8Ciprxget2 =>
      let* (ok, d) := sim_parse_ciprxget2 P d in
      Ok (if ok then set_sst S8Receiving (set_rst R8Ok d) else d)
  | R8Csq =>
      let* (ok, d) := sim_parse_csq P d in
      let d := if ok then set_rst R8Ok d else d in
      let* (ok, d) := sim_parse_id d in Ok (if ok then set_rst R8Ok d else d)
  | R8RequestID =>
      let* (ok, d) := sim_parse_id d in Ok (if ok then set_rst R8Ok d else d)
  | R8Ok => Ok d
  end.

(** sim800.cpp:86-169; true: run() returns *)
Definition s8_parse (d : dv) : res (bool * dv) :=
  let* e := s8_is_error d in
  if e then Ok (true, set_wait None (set_cst csGeneralError (on_reset true d)))
  else
    let* d := s8_standard_reply d in
    let* d := s8_special_reply d in
    if s8_rank S8Connected <=? s8_rank (sst d)
    then let* d := sim_check_connection (bs "0, CLOSED") d in Ok (false, d)
    else Ok (false, d).

(** sim800.cpp:82-175; true: run() returns *)
Definition s8_input (d : dv) : res (bool * dv) :=
  let* (line, d) := at_fill d in
  if line then s8_parse d
  else if fDisc (fl d) && s8_is_receiving (sst d)
  then let* d := at_flush_read_buffer d in Ok (false, d)
  else Ok (false, d).

(** sim800.cpp:267-286 *)
Definition s8_send_cipstart (d : dv) : res dv :=
  let* d := w_str (bs "AT+CIPSTART") d in
  let* d :=
    if (typ d =? UDP)%Z then w_str (bs "=0," ++ [DQ] ++ bs "UDP" ++ [DQ] ++ bs "," ++ [DQ]) d
    else w_str (bs "=0," ++ [DQ] ++ bs "TCP" ++ [DQ] ++ bs "," ++ [DQ]) d in
  let* d := w_arr (ip (ext d)) d in
  let* d := w_str ([DQ] ++ bs ",") d in
  let* d := w_str (snprintf6 (port d)) d in
  let* d := w_str lineEndStr d in
  Ok (set_sst S8FinalizeConnect (set_wait (Some (bs "0, CONNECT OK")) (set_rst R8Cipstart d))).

(** sim800.cpp:296-316 *)
Definition s8_connected (d : dv) : res dv :=
  if 0 <? avail (wbuf d) then
    let* (ok, d) := at_prepare_sending true d in
    if ok then
      let* d := w_str lineEndStr d in
      Ok (set_sst S8SendData (set_cst csTransmitting d))
    else Ok d
  else if fData (fl d) then
    Ok (set_sst S8SendCiprxget4 (set_cst csReceiving (on_data false d)))
  else
    let d := set_cst csConnected d in
    if fIp (fl d) then Ok (snd (at_handle_disconnect S8SendCipclose d))
    else Ok (set_sst S8SendCipshut (on_disc false d)).

(** sim800.cpp:200-402 *)
Definition s8_machine (d : dv) : res dv :=
  match sst d with
  | S8NotConnected =>
      Ok (snd (at_handle_connect S8Connecting (set_cst csNotConnected (dev_set_delay 10%Z d))))
  | S8Connecting =>
      let d := on_line true (set_cst csIntermediate (dev_set_delay 10%Z d)) in
      at_send_command (bs "ATE0") (set_sst S8SendCiprxget (set_wait (Some okStr) d))
  | S8SendCiprxget =>
      at_send_command (bs "AT+CIPRXGET=1") (set_sst S8SendCipmux (set_wait (Some okStr) d))
  | S8SendCipmux =>
      at_send_command (bs "AT+CIPMUX=1") (set_sst S8SendCstt (set_wait (Some okStr) d))
  | S8SendCstt =>
      let* d := w_many (bs "AT+CSTT=" ++ [DQ]) d in
      let* d := w_ptr (apn (ext d)) d in
      let* d := w_str quoteEndStr d in
      Ok (set_sst S8SendCiicr (set_wait (Some okStr) d))
  | S8SendCiicr =>
      at_send_command (bs "AT+CIICR") (set_sst S8SendCifsr (set_wait (Some okStr) d))
  | S8SendCifsr =>
      let (h, d) := at_handle_disconnect S8SendCipshut d in
      if h then Ok d
      else
        let* d := w_many (bs "AT+CIFSR") d in
        let* d := w_str lineEndStr d in
        Ok (set_sst S8SendDnsQuery (set_rst R8Cifsr d))
  | S8SendDnsQuery =>
      let* (ok, d) := sim_send_dns d in
      Ok (if ok then set_sst S8SendCipstart (set_wait (Some okStr) (set_rst R8Cdnsgip d)) else d)
  | S8SendCipstart => s8_send_cipstart d
  | S8FinalizeConnect =>
      Ok (on_ip true (set_sst S8Connected (set_rst R8Ok (set_cst csConnected (dev_set_delay 0%Z d)))))
  | S8Connected => s8_connected d
  | S8SendData =>
      let* d := at_send_data d in Ok (set_sst S8Connected (set_wait (Some (bs "0, SEND OK")) d))
  | S8SendCiprxget4 =>
      at_send_command (bs "AT+CIPRXGET=4,0")
        (set_rst R8Ciprxget4 (set_sst S8SendCiprxget2 (set_wait (Some okStr) (dev_set_delay 0%Z d))))
  | S8SendCiprxget2 =>
      let (h, d) := at_handle_disconnect S8SendCipclose d in
      if h then Ok d
      else if (0 <? toReceive d)%Z then
        let* (ok, d) := sim_send_ciprxget2 d in
        Ok (if ok then set_rst R8Ciprxget2 (set_sst S8WaitReceive d) else d)
      else Ok (set_sst (if fIp (fl d) then S8Connected else S8IpUnconnected) d)
  | S8WaitReceive => Ok d
  | S8Receiving =>
      if (0 <? toRead d)%Z then
        let* (ok, d) := at_receive d in
        Ok (if ok then set_wait (Some okStr) (set_rst R8Ok d) else d)
      else if (0 <? toReceive d)%Z then Ok (set_sst S8SendCiprxget2 d)
      else Ok (set_sst S8SendCiprxget4 (dev_set_delay 10%Z d))
  | S8IpUnconnected =>
      let (h, d) := at_handle_disconnect S8FinalizeDisconnect (set_cst csIntermediate d) in
      if h then Ok d else Ok (snd (at_handle_connect S8SendCipstart d))
  | S8SendCipclose =>
      let d := set_cst csIntermediate d in
      if fIp (fl d) then
        at_send_command (bs "AT+CIPCLOSE=0") (set_sst S8SendCipshut (set_wait (Some (bs "0, CLOSE OK")) d))
      else Ok (set_sst S8SendCipshut d)
  | S8SendCipshut =>
      at_send_command (bs "AT+CIPSHUT")
        (set_sst S8FinalizeDisconnect (set_wait (Some (bs "SHUT OK")) (set_cst csIntermediate d)))
  | S8FinalizeDisconnect =>
      Ok (set_sst S8NotConnected (set_cst csNotConnected (on_ip false d)))
  | S8SerialError | S8SendCipsprt => Ok d
  end.

Definition s8_iccid_command : bytes := bs "AT+CCID".

(** sim800.cpp:177-402 *)
Definition s8_output (d : dv) : res dv :=
  match wait d with
  | Some _ => Ok d
  | None =>
      if negb (r8_ok (rst d)) then Ok d
      else
        let* (sp, d) := d_space d in
        if sp <? 20 then Ok d
        else if (rssi d =? INT16_MAX)%Z && fLine (fl d) then
          at_send_command (bs "AT+CSQ") (set_wait (Some okStr) (set_rst R8Csq d))
        else
          let* (sent, d) := sim_send_id s8_iccid_command d in
          if sent then Ok (set_wait (Some okStr) (set_rst R8RequestID d))
          else s8_machine d
  end.

(** sim800.cpp:48-403, run; [open_ok]: what open() would return *)
Definition s8_run (open_ok : bool) (d : dv) : res dv :=
  if negb (isopen d) then
    Ok (if open_ok then set_isopen true d else set_sst S8SerialError d)
  else if fLock (fl d) then Ok d
  else
    let* d := if fReset (fl d) then s8_reset d else Ok d in
    let* (ret, d) := s8_input d in
    if ret then Ok d else s8_output d.

Definition s8_driver : driver s8send s8reply simx simop :=
  mkDriver s8_run (sim_reset_states S8NotConnected R8Ok)
           (fun d => Ok (sim_connect d)) (sim_x r8_ok).

(** sim800.cpp:34-46, simcommdevice.cpp:33-45; the raw contents are arbitrary. *)
Definition s8_new (s : serial) (opened : bool) (rb wb : list ascii)
    (raw_lbuf raw_ip raw_id : bytes) (raw_typ : Z) : res dv :=
  sim_reset_states S8NotConnected R8Ok
    (d_raw s opened rb wb raw_lbuf raw_typ S8NotConnected R8Ok (mkSimx PNull raw_ip raw_id 1460%Z)).

End Sim800.
