(** Model of commdevices/espressif.{h,cpp}, the Espressif WiFi driver. *)
From Coq Require Import String Ascii ZArith Bool List.
From Verif Require Import Base QueueSpec SerialSpec Ring LineRing Serial TaskMacros CStr Dev SimDev.
Import ListNotations.
Local Open Scope nat_scope.

(** espressif.h:151-154, data members. *)
Record espx : Type := mkEspx { ssid : cptr; passwd : cptr; emac : bytes }.
Definition MACSTRING_MAX_LENGTH : nat := 18.
Definition ESPRESSIF_MAX_RX : Z := 2048.

(** espressif.h:122 *)
Inductive esreply : Type := REOk | REWaitCiprecvdata | REParseCiprecvdata | REReqMac | RERssi.
Definition re_ok (r : esreply) : bool := match r with REOk => true | _ => false end.

(** espressif.h:124-143 *)
Inductive essend : Type :=
| SENotConnected | SESerialError | SEConnecting | SESendCwmode | SESendCwjap | SESendCiprecvmode
| SESendCipmux | SESendCipmode | SESendCipstart | SEFinalizeConnect | SEConnected | SESendDataState
| SESendCiprecvdata | SEWaitReceive | SEReceiving | SESendCipclose | SESendCwqap
| SEFinalizeDisconnect.

(** The enumeration's numbers, for the comparisons. *)
Definition se_rank (s : essend) : nat :=
  match s with
  | SENotConnected => 0 | SESerialError => 1 | SEConnecting => 2 | SESendCwmode => 3
  | SESendCwjap => 4 | SESendCiprecvmode => 5 | SESendCipmux => 6 | SESendCipmode => 7
  | SESendCipstart => 8 | SEFinalizeConnect => 9 | SEConnected => 10 | SESendDataState => 11
  | SESendCiprecvdata => 12 | SEWaitReceive => 13 | SEReceiving => 14 | SESendCipclose => 15
  | SESendCwqap => 16 | SEFinalizeDisconnect => 17
  end.
Definition se_is_receiving (s : essend) : bool := match s with SEReceiving => true | _ => false end.
Definition se_is_connected (s : essend) : bool := match s with SEConnected => true | _ => false end.

(** espressif.cpp:254-261: the text behind the third comma, if there is one. *)
Fixpoint after_commas (n : nat) (src : bytes) : res (option bytes) :=
  match src with
  | [] => UB OutOfBounds
  | c :: src' =>
      if aeqb c NUL then Ok None
      else if aeqb c ","%char then
        match n with
        | O | S O => Ok (Some src')
        | S n' => after_commas n' src'
        end
      else after_commas n src'
  end.

(** [char == 0xFF]: a signed char is never 255. *)
Definition char_is_ff (P : plat) (c : ascii) : bool :=
  negb (char_signed P) && (nat_of_ascii c =? 255).

Section Espressif.
Variable P : plat.
Notation dv := (dev essend esreply espx).

Definition set_emac (b : bytes) (d : dv) : dv := set_ext (mkEspx (ssid (ext d)) (passwd (ext d)) b) d.

(** espressif.cpp:48-63 *)
Definition se_reset_states (d : dv) : res dv := at_reset_states SENotConnected REOk 99%Z d.

(** espressif.cpp:65-73 *)
Definition se_set_ssid (p : cptr) (d : dv) : dv := set_ext (mkEspx p (passwd (ext d)) (emac (ext d))) d.
Definition se_set_passwd (p : cptr) (d : dv) : dv := set_ext (mkEspx (ssid (ext d)) p (emac (ext d))) d.

(** espressif.cpp:75-82; the pointers are not initialised by the constructor *)
Definition se_connect (d : dv) : res (bool * dv) :=
  match ssid (ext d) with
  | PUninit => UB Uninitialised
  | PNull => Ok (false, d)
  | PStr s =>
      match passwd (ext d) with
      | PUninit => UB Uninitialised
      | PNull => Ok (false, d)
      | PStr _ => if clen s =? 0 then Ok (false, d) else Ok (ip_connect d)
      end
  end.

(** espressif.cpp:92-95 *)
Definition se_line_end (c : ascii) (d : dv) : bool :=
  aeqb c LF || aeqb c GT
  || (negb (typ d =? TCP)%Z
      && match rst d with REWaitCiprecvdata | REReqMac | RERssi => false | _ => true end
      && aeqb c ":"%char)
  || (lbfill d =? LINE_MAX_LENGTH).

(** espressif.cpp:100-110 *)
Definition se_is_ciprecvdata (c : ascii) (d : dv) : res bool :=
  match rst d with
  | REWaitCiprecvdata =>
      if 14 <? lbfill d then
        if aeqb c ":"%char then lstarts (bs "+CIPRECVDATA,") d
        else if aeqb c ","%char then lstarts (bs "+CIPRECVDATA:") d
        else Ok false
      else Ok false
  | _ => Ok false
  end.

(** espressif.cpp:84-114 *)
Fixpoint se_fill_loop (fuel : nat) (d : dv) : res (bool * dv) :=
  let* (a, d) := d_avail d in
  if a =? 0 then Ok (false, d)
  else
    match fuel with
    | O => UB Diverges
    | S fuel' =>
        let* (c, d) := d_getc d in
        let* b := wr (lbuf d) (lbfill d) c in
        let d := set_lbfill (S (lbfill d)) (set_lbuf b d) in
        if se_line_end c d then
          let* b := wr (lbuf d) (lbfill d) NUL in
          Ok (true, set_lbfill 0 (set_lbuf b d))
        else
          let* m := se_is_ciprecvdata c d in
          if m then
            let* b := wr (lbuf d) (lbfill d) NUL in
            Ok (true, set_lbfill 0 (set_lbuf b (set_rst REParseCiprecvdata d)))
          else se_fill_loop fuel' d
    end.
Definition se_fill (d : dv) : res (bool * dv) :=
  if fLine (fl d) then se_fill_loop (S LINE_MAX_LENGTH) d else Ok (false, d).

(** espressif.cpp:116-139 *)
Definition se_send_ciprcvdata (d : dv) : res (bool * dv) :=
  let* (o, d) := rx_request_size 30 ESPRESSIF_MAX_RX d in
  match o with
  | Some n =>
      let* sizeStr := sprintf6 n in
      let* d := w_str (bs "AT+CIPRECVDATA=") d in
      let* d := w_str sizeStr d in
      let* d := w_str lineEndStr d in
      Ok (true, d)
  | None => Ok (false, d)
  end.

(** espressif.cpp:141-152 *)
Definition se_parse_ciprecvdata (d : dv) : res (bool * dv) :=
  let* m := lstarts (bs "+CIPRECVDATA") d in
  if m then
    let* v := strtol P (skipn 13 (lbuf d)) in
    let d := set_toReceive (u64 (toReceive d - i32 v)) d in
    let d := set_toRead (u64 (toRead d + i32 v)) d in
    Ok (true, on_line false d)
  else Ok (false, d).

(** espressif.cpp:154-167 *)
Definition se_request_mac (d : dv) : res dv :=
  let* b := wr (emac (ext d)) 0 NUL in
  let* b := wr b 1 (ascii_of_nat 255) in
  Ok (set_emac b d).
Definition se_get_mac (d : dv) : res (option bytes) :=
  match wait d with
  | Some _ => Ok None
  | None =>
      let* c0 := rd (emac (ext d)) 0 in
      if aeqb c0 NUL then Ok None else let* s := cstring (emac (ext d)) in Ok (Some s)
  end.

(** espressif.cpp:179-200 *)
Definition se_reset (d : dv) : res dv :=
  let* d := d_flush_rx d in
  let d := set_sst (if (se_rank SEConnecting <=? se_rank (sst d)) && (se_rank (sst d) <=? se_rank SEReceiving)
                       && negb (fDisc (fl d))
                    then SEConnecting else SENotConnected) d in
  let d := set_fl flags_line_read d in
  let d := set_toWrite 0%Z (set_toReceive 0%Z (set_toRead 0%Z d)) in
  let* d := w_str (bs "AT+RST") d in
  let* d := w_str lineEndStr d in
  let d := set_wait (Some (bs "ready")) (set_rst REOk d) in
  Ok (dev_set_delay 10%Z d).

(** espressif.cpp:211-220; true: run() returns *)
Definition se_errors (d : dv) : res (bool * dv) :=
  let* a := lstarts (bs "ERROR") d in
  let* b := if a then Ok true else lstarts (bs "FAIL") d in
  if b then Ok (true, set_wait None (set_cst csGeneralError (on_reset true d)))
  else if se_is_connected (sst d) then
    let* m := lstarts (bs "SEND FAIL") d in
    Ok (false, if m then set_wait None (set_cst csGeneralError d) else d)
  else Ok (false, d).

(** espressif.cpp:222-227 *)
Definition se_standard_reply (d : dv) : res dv :=
  match wait d with
  | Some w => let* m := lmatch (clen w) w d in Ok (if m then set_wait None d else d)
  | None => Ok d
  end.

(** espressif.cpp:229-270 *)
Definition se_special_reply (d : dv) : res dv :=
  match rst d with
  | REParseCiprecvdata =>
      let* (ok, d) := se_parse_ciprecvdata d in
      Ok (if ok then set_sst SEReceiving (set_rst REOk d) else d)
  | REReqMac =>
      let* m := lstarts (bs "+CIPSTAMAC:" ++ [DQ]) d in
      if m then
        let* s := copy_until DQ (MACSTRING_MAX_LENGTH - 1) (skipn 12 (lbuf d)) in
        let* b := wr_list (emac (ext d)) 0 (s ++ [NUL]) in
        Ok (set_rst REOk (set_emac b d))
      else Ok d
  | RERssi =>
      let* m := lstarts (bs "+CWJAP:") d in
      if m then
        let* o := after_commas 3 (skipn 7 (lbuf d)) in
        match o with
        | Some src => let* v := strtol P src in Ok (set_rst REOk (set_rssi (i16 v) d))
        | None => Ok (set_rst REOk d)
        end
      else
        let* m := lstarts (bs "No AP") d in
        Ok (if m then set_rst REOk (set_rssi 99%Z d) else d)
  | REOk | REWaitCiprecvdata => Ok d
  end.

(** espressif.cpp:272-289; the comparison of "+IPD," covers four characters *)
Definition se_unsolicited (d : dv) : res dv :=
  let* m := lmatch 4 (bs "+IPD,") d in
  if m then
    let* v := strtol P (skipn 5 (lbuf d)) in
    let d := if (typ d =? TCP)%Z then set_toReceive (u64 (i32 v)) d
             else on_line false (set_toRead (u64 (toRead d + i32 v)) d) in
    Ok (on_data true d)
  else
    let* m := lstarts (bs "CLOSED") d in
    if m then Ok (on_ip false d)
    else
      let* m := lstarts (bs "WIFI DISCONNECT") d in
      Ok (if m then set_wait None (set_sst SEFinalizeDisconnect d) else d).

(** espressif.cpp:206-290; true: run() returns *)
Definition se_parse (d : dv) : res (bool * dv) :=
  let* (ret, d) := se_errors d in
  if ret then Ok (true, d)
  else
    let* d := se_standard_reply d in
    let* d := se_special_reply d in
    if se_rank SEConnected <=? se_rank (sst d)
    then let* d := se_unsolicited d in Ok (false, d)
    else Ok (false, d).

(** espressif.cpp:202-295; true: run() returns *)
Definition se_input (d : dv) : res (bool * dv) :=
  let* (line, d) := se_fill d in
  if line then se_parse d
  else if fDisc (fl d) && se_is_receiving (sst d)
  then let* d := at_flush_read_buffer d in Ok (false, d)
  else Ok (false, d).

(** espressif.cpp:380-405; an unknown type value writes no type *)
Definition se_send_cipstart (d : dv) : res dv :=
  let* d := w_str (bs "AT+CIPSTART") d in
  let* d :=
    if (typ d =? TCP)%Z then w_str (bs "=" ++ [DQ] ++ bs "TCP" ++ [DQ] ++ bs "," ++ [DQ]) d
    else if (typ d =? UDP)%Z then w_str (bs "=" ++ [DQ] ++ bs "UDP" ++ [DQ] ++ bs "," ++ [DQ]) d
    else if (typ d =? SSL)%Z then w_str (bs "=" ++ [DQ] ++ bs "SSL" ++ [DQ] ++ bs "," ++ [DQ]) d
    else Ok d in
  let* d := w_ptr (host d) d in
  let* d := w_str ([DQ] ++ bs ",") d in
  let* d := w_str (snprintf6 (port d)) d in
  let* d := w_str lineEndStr d in
  Ok (set_sst SEFinalizeConnect (set_wait (Some okStr) d)).

(** espressif.cpp:414-440 *)
Definition se_connected (d : dv) : res dv :=
  if 0 <? avail (wbuf d) then
    let* (ok, d) := at_prepare_sending false d in
    if ok then
      let* d := w_str lineEndStr d in
      Ok (set_sst SESendDataState (set_cst csTransmitting d))
    else Ok d
  else if fData (fl d) then
    let d := set_cst csReceiving (on_data false d) in
    Ok (set_sst (if (typ d =? TCP)%Z then SESendCiprecvdata else SEReceiving) d)
  else
    let d := set_cst csConnected d in
    if fIp (fl d) then
      let (h, d) := at_handle_disconnect SESendCipclose d in
      Ok (if h then dev_set_delay 100%Z d else d)
    else Ok (set_sst SESendCwqap (on_disc false d)).

(** espressif.cpp:322-508 *)
Definition se_machine (d : dv) : res dv :=
  match sst d with
  | SENotConnected =>
      Ok (snd (at_handle_connect SEConnecting (set_cst csNotConnected (dev_set_delay 10%Z d))))
  | SEConnecting =>
      let d := on_line true (set_cst csIntermediate (dev_set_delay 10%Z d)) in
      at_send_command (bs "ATE0") (set_sst SESendCwmode (set_wait (Some okStr) d))
  | SESendCwmode =>
      let* d := w_str (bs "AT+CWMODE=1") d in
      let* d := w_str lineEndStr d in
      Ok (set_sst SESendCwjap (set_wait (Some okStr) d))
  | SESendCwjap =>
      let* d := w_str (bs "AT+CWJAP=" ++ [DQ]) d in
      let* d := w_ptr_len (ssid (ext d)) d in
      let* d := w_str ([DQ] ++ bs "," ++ [DQ]) d in
      let* d := w_ptr_len (passwd (ext d)) d in
      let* d := w_str quoteEndStr d in
      Ok (set_sst SESendCipmux (set_wait (Some okStr) d))
  | SESendCipmux =>
      at_send_command (bs "AT+CIPMUX=0") (set_sst SESendCiprecvmode (set_wait (Some okStr) d))
  | SESendCiprecvmode =>
      let d := set_sst SESendCipmode (set_wait (Some okStr) d) in
      at_send_command (if (typ d =? TCP)%Z then bs "AT+CIPRECVMODE=1" else bs "AT+CIPRECVMODE=0") d
  | SESendCipmode =>
      at_send_command (bs "AT+CIPMODE=0") (set_sst SESendCipstart (set_wait (Some okStr) d))
  | SESendCipstart => se_send_cipstart d
  | SEFinalizeConnect =>
      Ok (on_ip true (set_sst SEConnected (set_cst csConnected (dev_set_delay 0%Z d))))
  | SEConnected => se_connected d
  | SESendDataState =>
      let* d := at_send_data d in Ok (set_sst SEConnected (set_wait (Some (bs "SEND OK")) d))
  | SESendCiprecvdata =>
      let (h, d) := at_handle_disconnect SESendCipclose d in
      if h then Ok (dev_set_delay 100%Z d)
      else if (0 <? toReceive d)%Z then
        let* (ok, d) := se_send_ciprcvdata d in
        Ok (if ok then set_rst REWaitCiprecvdata (set_sst SEWaitReceive d) else d)
      else Ok (set_sst SEConnected d)
  | SEWaitReceive => Ok d
  | SEReceiving =>
      if (0 <? toRead d)%Z then
        let* (ok, d) := at_receive d in
        Ok (if ok && (typ d =? TCP)%Z then set_wait (Some okStr) (set_rst REOk d) else d)
      else Ok (set_sst (if (0 <? toReceive d)%Z then SESendCiprecvdata else SEConnected) d)
  | SESendCipclose =>
      let d := set_cst csIntermediate (dev_set_delay 0%Z d) in
      let* d := if fIp (fl d) then at_send_command (bs "AT+CIPCLOSE") (set_wait (Some okStr) d) else Ok d in
      Ok (set_sst SESendCwqap d)
  | SESendCwqap =>
      at_send_command (bs "AT+CWQAP")
        (set_sst SEFinalizeDisconnect (set_wait (Some (bs "WIFI DISCONNECT")) (set_cst csIntermediate d)))
  | SEFinalizeDisconnect =>
      Ok (set_sst SENotConnected (set_cst csNotConnected (on_ip false d)))
  | SESerialError => Ok d
  end.

(** espressif.cpp:313-320 *)
Definition se_send_mac (d : dv) : res (bool * dv) :=
  let* c1 := rd (emac (ext d)) 1 in
  let* c0 := rd (emac (ext d)) 0 in
  if char_is_ff P c1 && aeqb c0 NUL && fLine (fl d) then
    let* b := wr (emac (ext d)) 1 NUL in
    let* d := at_send_command (bs "AT+CIPSTAMAC?") (set_emac b d) in
    Ok (true, set_wait (Some okStr) (set_rst REReqMac d))
  else Ok (false, d).

(** espressif.cpp:297-508 *)
Definition se_output (d : dv) : res dv :=
  match wait d with
  | Some _ => Ok d
  | None =>
      if negb (re_ok (rst d)) then Ok d
      else
        let* (sp, d) := d_space d in
        if sp <? 20 then Ok d
        else if (rssi d =? INT16_MAX)%Z && fLine (fl d) then
          at_send_command (bs "AT+CWJAP?") (set_wait (Some okStr) (set_rst RERssi d))
        else
          let* (sent, d) := se_send_mac d in
          if sent then Ok d else se_machine d
  end.

(** espressif.cpp:169-509, run; [open_ok]: what open() would return *)
Definition se_run (open_ok : bool) (d : dv) : res dv :=
  if negb (isopen d) then
    Ok (if open_ok then set_isopen true d else set_sst SESerialError d)
  else if fReset (fl d) then se_reset d
  else
    let* (ret, d) := se_input d in
    if ret then Ok d else se_output d.

(** The calls EspressifDevice adds. *)
Inductive esop : Type := SetSSID (p : cptr) | SetPassword (p : cptr) | RequestMac | GetMac.

Definition se_x (o : esop) (d : dv) : res (dobs * dv) :=
  match o with
  | SetSSID p => Ok (DNone, se_set_ssid p d)
  | SetPassword p => Ok (DNone, se_set_passwd p d)
  | RequestMac => let* d := se_request_mac d in Ok (DNone, d)
  | GetMac => let* s := se_get_mac d in Ok (DStr s, d)
  end.

Definition se_driver : driver essend esreply espx esop :=
  mkDriver se_run se_reset_states se_connect se_x.

(** espressif.cpp:34-46; the raw contents are arbitrary. *)
Definition se_new (s : serial) (opened : bool) (rb wb : list ascii)
    (raw_lbuf raw_mac : bytes) (raw_typ : Z) : res dv :=
  se_reset_states
    (d_raw s opened rb wb raw_lbuf raw_typ SENotConnected REOk (mkEspx PUninit PUninit raw_mac)).

End Espressif.
