(** Model of commdevices/simcommdevice.{h,cpp}: what the two Simcom cellular
    drivers share. *)
From Coq Require Import String Ascii ZArith Bool List.
From Verif Require Import Base QueueSpec SerialSpec Ring LineRing Serial TaskMacros CStr Dev.
Import ListNotations.
Local Open Scope nat_scope.

(** simcommdevice.h:103-109, data members. *)
Record simx : Type := mkSimx {
  apn : cptr;      (* _apn *)
  ip : bytes;      (* _ip, 16 characters *)
  idbuf : bytes;   (* _idStringBuffer, 24 characters *)
  maxrx : Z        (* _modemMaxReceiveSize *)
}.
Definition set_apn (v : cptr) (x : simx) := mkSimx v (ip x) (idbuf x) (maxrx x).
Definition set_ip (v : bytes) (x : simx) := mkSimx (apn x) v (idbuf x) (maxrx x).
Definition set_idbuf (v : bytes) (x : simx) := mkSimx (apn x) (ip x) v (maxrx x).

Definition IP_SIZE : nat := 16.
Definition IDSTRING_MAX_LENGTH : nat := 24.

(** simcommdevice.h:71 *)
Inductive idtype : Type := idNone | idManufacturer | idModel | idImei | idImsi | idIccid.
Definition id_code (t : idtype) : ascii :=
  ascii_of_nat (match t with
    | idNone => 0 | idManufacturer => 1 | idModel => 2 | idImei => 3 | idImsi => 4 | idIccid => 5
    end).
(** Reading the stored character back as RequestIDType. *)
Definition id_of_code (c : ascii) : option idtype :=
  match nat_of_ascii c with
  | 0 => Some idNone | 1 => Some idManufacturer | 2 => Some idModel | 3 => Some idImei
  | 4 => Some idImsi | 5 => Some idIccid | _ => None
  end.

(** ** Parsing helpers *)

(** simcommdevice.cpp:118-121: counting quotes up to the terminator. *)
Fixpoint count_char (q : ascii) (a : bytes) : res nat :=
  match a with
  | [] => UB OutOfBounds
  | c :: a' =>
      if aeqb c NUL then Ok 0
      else let* n := count_char q a' in Ok (if aeqb c q then S n else n)
  end.

(** simcommdevice.cpp:130-132: the index behind the [n]-th quote. *)
Fixpoint after_quotes (n : nat) (a : bytes) (i : nat) : res nat :=
  match n with
  | O => Ok i
  | S n' =>
      match a with
      | [] => UB OutOfBounds
      | c :: a' => after_quotes (if aeqb c DQ then n' else n) a' (S i)
      end
  end.

(** simcommdevice.cpp:134-138: blank out the quotes of the rest of the line. *)
Fixpoint blank_quotes (a : bytes) : res bytes :=
  match a with
  | [] => UB OutOfBounds
  | c :: a' =>
      if aeqb c NUL then Ok a
      else let* r := blank_quotes a' in Ok ((if aeqb c DQ then NUL else c) :: r)
  end.

(** The string an array holds, as strcpy reads it. *)
Fixpoint cstring (a : bytes) : res bytes :=
  match a with
  | [] => UB OutOfBounds
  | c :: a' => if aeqb c NUL then Ok [] else let* r := cstring a' in Ok (c :: r)
  end.

(** simcommdevice.cpp:242-245 and the MAC copy loops: characters up to [stop],
    at most [n] of them; *src is read before the count is compared. *)
Fixpoint copy_until (stop : ascii) (n : nat) (src : bytes) : res bytes :=
  match src with
  | [] => UB OutOfBounds
  | c :: src' =>
      if aeqb c stop then Ok []
      else match n with
           | O => Ok []
           | S n' => let* r := copy_until stop n' src' in Ok (c :: r)
           end
  end.

(** simcommdevice.cpp:213-216 *)
Fixpoint count_digits (src : bytes) : res nat :=
  match src with
  | [] => UB OutOfBounds
  | c :: src' => if is_digit c then let* n := count_digits src' in Ok (S n) else Ok 0
  end.

(** simcommdevice.cpp:219-228, from the last digit to the first. *)
Fixpoint luhn_sum (rev_digits : bytes) (second : bool) : Z :=
  match rev_digits with
  | [] => 0
  | c :: r =>
      let d := if second then (digit_val c * 2)%Z else digit_val c in
      (d / 10 + d mod 10 + luhn_sum r (negb second))%Z
  end.

(** simcommdevice.cpp:211-233, validation of an ICCID *)
Definition iccid_valid (src : bytes) : res bool :=
  let* n := count_digits src in
  if (18 <=? n) && (n <=? 22) && (luhn_sum (rev (firstn n src)) false mod 10 =? 0)%Z then
    let* c0 := rd src 0 in
    if aeqb c0 "8"%char then let* c1 := rd src 1 in Ok (aeqb c1 "9"%char) else Ok false
  else Ok false.

Section Sim.
Context {SS RS : Type}.
Variable P : plat.
Notation dv := (dev SS RS simx).

Definition set_x_idbuf (b : bytes) (d : dv) : dv := set_ext (set_idbuf b (ext d)) d.

(** simcommdevice.cpp:47-64 *)
Definition sim_reset_states (s0 : SS) (r0 : RS) (d : dv) : res dv :=
  let* d := at_reset_states s0 r0 99%Z d in
  let* b := wr (idbuf (ext d)) 0 NUL in
  let* b := wr b 1 (id_code idNone) in
  Ok (set_x_idbuf b d).

(** simcommdevice.cpp:84-95 *)
Definition sim_set_apn (p : cptr) (d : dv) : dv := set_ext (set_apn p (ext d)) d.
Definition sim_connect (d : dv) : bool * dv :=
  match apn (ext d) with PStr _ => ip_connect d | _ => (false, d) end.

(** simcommdevice.cpp:97-109; [idle_reply]: is _replyState 0? *)
Definition sim_serial_lock (idle_reply : bool) (d : dv) : bool * dv :=
  match wait d with
  | Some _ => (false, d)
  | None => if idle_reply then (true, on_lock true d) else (false, d)
  end.
Definition sim_serial_unlock (d : dv) : dv := on_lock false d.

(** simcommdevice.cpp:111-146.  The uint8_t indices stay below 61, the counter
    below 61, so they do not wrap. *)
Definition sim_parse_dns (d : dv) : res (bool * dv) :=
  let* m := lstarts (bs "+CDNSGIP: 1") d in
  if m then
    let* q := count_char DQ (lbuf d) in
    if (q <? 4) || (10 <? q) then Ok (false, set_cst csDnsError d)
    else
      let* i := after_quotes 3 (lbuf d) 0 in
      let* rest := blank_quotes (skipn i (lbuf d)) in
      let d := set_lbuf (firstn i (lbuf d) ++ rest) d in
      let* s := cstring rest in
      let* a := wr_list (ip (ext d)) 0 (s ++ [NUL]) in
      Ok (true, set_ext (set_ip a (ext d)) d)
  else
    let* m := lstarts (bs "+CDNSGIP: 0") d in
    Ok (false, if m then on_reset true d else d).

(** simcommdevice.cpp:148-156; int is added to the 64 bit Size *)
Definition sim_parse_ciprxget4 (d : dv) : res (bool * dv) :=
  let* m := lstarts (bs "+CIPRXGET: 4,0,") d in
  if m then
    let* v := strtol P (skipn 15 (lbuf d)) in
    Ok (true, set_toReceive (u64 (toReceive d + i32 v)) d)
  else Ok (false, d).

(** simcommdevice.cpp:158-168 *)
Definition sim_parse_ciprxget2 (d : dv) : res (bool * dv) :=
  let* m := lstarts (bs "+CIPRXGET: 2,0,") d in
  if m then
    let* v := strtol P (skipn 15 (lbuf d)) in
    let d := set_toReceive (u64 (toReceive d - i32 v)) d in
    let d := set_toRead (u64 (toRead d + i32 v)) d in
    Ok (true, on_line false d)
  else Ok (false, d).

(** simcommdevice.cpp:170-187; unsigned arithmetic, stored into int16_t *)
Definition csq_dbm (v : Z) : Z :=
  let r := u32 v in
  if (r <=? 31)%Z then i16 (u32 (-113 + r * 2))
  else if (99 <? r)%Z && (r <=? 199)%Z then i16 (u32 (-116 + (r - 100)))
  else 0%Z.
Definition sim_parse_csq (d : dv) : res (bool * dv) :=
  let* m := lstarts (bs "+CSQ: ") d in
  if m then
    let* v := strtol P (skipn 6 (lbuf d)) in
    Ok (true, set_rssi (csq_dbm v) d)
  else Ok (false, d).

(** simcommdevice.cpp:189-252 *)
Definition sim_parse_id (d : dv) : res (bool * dv) :=
  let* at_ := lstarts (bs "AT") d in
  let* c0 := rd (lbuf d) 0 in
  if at_ || aeqb c0 CR then Ok (false, d)
  else
    let* icc := lstarts (bs "+ICCID: ") d in
    let* plus := lstarts (bs "+") d in
    if negb icc && plus then Ok (false, d)
    else
      let src := if icc then skipn 8 (lbuf d) else lbuf d in
      let* t := rd (idbuf (ext d)) 2 in
      let* valid := if aeqb t (id_code idIccid) then iccid_valid src else Ok true in
      if valid then
        let* s := copy_until CR (IDSTRING_MAX_LENGTH - 1) src in
        let* b := wr_list (idbuf (ext d)) 0 (s ++ [NUL]) in
        Ok (true, set_x_idbuf b d)
      else Ok (false, d).

(** simcommdevice.cpp:254-264 *)
Definition sim_send_dns (d : dv) : res (bool * dv) :=
  let* (sp, d) := d_space d in
  match host d with
  | PUninit => UB Uninitialised | PNull => UB NullDeref
  | PStr h =>
      if sp <? clen h + 20 then Ok (false, d)
      else
        let* d := w_str (bs "AT+CDNSGIP=" ++ [DQ]) d in
        let* d := w_str h d in
        let* d := w_str quoteEndStr d in
        Ok (true, d)
  end.

(** The size computation shared by simcommdevice.cpp:268-276,
    espressif.cpp:118-128 and cc1352p7.cpp:87-97: free space in the serial
    read buffer minus [margin], limited by the announced bytes, the free space
    of the device's read buffer and [mx].  bytesAvailable() is called twice. *)
Definition rx_request_size {S R Y} (margin : nat) (mx : Z) (d : dev S R Y)
  : res (option Z * dev S R Y) :=
  let size := Z.of_nat (rsize (lr (srx (ser (io d))))) in
  let* (a, d) := d_avail d in
  if (Z.of_nat margin <? u64 (size - Z.of_nat a))%Z && (0 <? ring_space (rbuf d)) then
    let* (a, d) := d_avail d in
    let n := u64 (size - Z.of_nat a - Z.of_nat margin) in
    let n := if (toReceive d <? n)%Z then toReceive d else n in
    let n := if (Z.of_nat (ring_space (rbuf d)) <? n)%Z then Z.of_nat (ring_space (rbuf d)) else n in
    let n := if (mx <? n)%Z then mx else n in
    Ok (Some n, d)
  else Ok (None, d).

(** simcommdevice.cpp:266-288 *)
Definition sim_send_ciprxget2 (d : dv) : res (bool * dv) :=
  let* (o, d) := rx_request_size 8 (maxrx (ext d)) d in
  match o with
  | Some n =>
      let* sizeStr := sprintf6 n in
      let* d := w_many (bs "AT+CIPRXGET=2,0,") d in
      let* d := w_str sizeStr d in
      let* d := w_str lineEndStr d in
      Ok (true, d)
  | None => Ok (false, d)
  end.

(** simcommdevice.cpp:290-298 *)
Definition sim_check_connection (closeVariant : bytes) (d : dv) : res dv :=
  let* m := lstarts (bs "+CIPRXGET: 1,0") d in
  if m then Ok (on_data true d)
  else
    let* m := lstarts closeVariant d in
    Ok (if m then on_ip false (set_wait None d) else d).

(** simcommdevice.cpp:306-327, the command for a request *)
Definition id_command (iccidCommand : bytes) (t : idtype) : option bytes :=
  match t with
  | idManufacturer => Some (bs "AT+CGMI")
  | idModel => Some (bs "AT+CGMM")
  | idImei => Some (bs "AT+CGSN")
  | idImsi => Some (bs "AT+CIMI")
  | idIccid => Some iccidCommand
  | idNone => None
  end.

(** simcommdevice.cpp:300-330 *)
Definition sim_send_id (iccidCommand : bytes) (d : dv) : res (bool * dv) :=
  let* t := rd (idbuf (ext d)) 1 in
  let* c0 := rd (idbuf (ext d)) 0 in
  if negb (aeqb t (id_code idNone)) && aeqb c0 NUL && fLine (fl d) then
    let* b := wr (idbuf (ext d)) 1 (id_code idNone) in
    let d := set_x_idbuf b d in
    match id_of_code t with
    | Some ty =>
        match id_command iccidCommand ty with
        | Some cmd => let* d := at_send_command cmd d in Ok (true, d)
        | None => Ok (false, d)
        end
    | None => Ok (false, d)
    end
  else Ok (false, d).

(** simcommdevice.cpp:332-337 *)
Definition sim_request_id (t : idtype) (d : dv) : res dv :=
  let* b := wr (idbuf (ext d)) 0 NUL in
  let* b := wr b 1 (id_code t) in
  let* b := wr b 2 (id_code t) in
  Ok (set_x_idbuf b d).

(** simcommdevice.cpp:339-346; the caller reads the returned string. *)
Definition sim_get_id (d : dv) : res (option bytes) :=
  match wait d with
  | Some _ => Ok None
  | None =>
      let* c0 := rd (idbuf (ext d)) 0 in
      if aeqb c0 NUL then Ok None else let* s := cstring (idbuf (ext d)) in Ok (Some s)
  end.

(** The calls SimCommDevice adds. *)
Inductive simop : Type :=
| SetApn (p : cptr) | SerialLock | SerialUnlock | RequestID (t : idtype) | GetID.

Definition sim_x (is_ok : RS -> bool) (o : simop) (d : dv) : res (dobs * dv) :=
  match o with
  | SetApn p => Ok (DNone, sim_set_apn p d)
  | SerialLock => let (b, d) := sim_serial_lock (is_ok (rst d)) d in Ok (DBool b, d)
  | SerialUnlock => Ok (DNone, sim_serial_unlock d)
  | RequestID t => let* d := sim_request_id t d in Ok (DNone, d)
  | GetID => let* s := sim_get_id d in Ok (DStr s, d)
  end.

End Sim.
