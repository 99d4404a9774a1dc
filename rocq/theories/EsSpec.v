(** What the documentation of the Espressif driver promises: the state diagram
    and the commands of espressif.h:92-132.  Nothing here refers to how the
    driver computes. *)
From Coq Require Import String Ascii ZArith Bool List.
From Verif Require Import Base QueueSpec SerialSpec CStr CStrProofs Dev DevProofs SimDev SimSpec Espressif.
Import ListNotations.
Local Open Scope nat_scope.

(** espressif.h:96-131, the arrows between different states. *)
Definition se_diagram : list (essend * essend) :=
  [(SENotConnected, SEConnecting); (SEConnecting, SESendCwjap); (SESendCwjap, SESendCiprecvmode);
   (SESendCwjap, SEFinalizeDisconnect); (SESendCiprecvmode, SESendCipmode); (SESendCipmode, SESendCipstart);
   (SESendCipstart, SEFinalizeConnect); (SEFinalizeConnect, SEConnected); (SEConnected, SESendDataState);
   (SEConnected, SESendCiprecvdata); (SEConnected, SEReceiving); (SEConnected, SESendCipclose);
   (SEConnected, SESendCwqap); (SESendDataState, SEConnected); (SESendCiprecvdata, SESendCipclose);
   (SESendCiprecvdata, SEWaitReceive); (SESendCiprecvdata, SEConnected); (SEWaitReceive, SEReceiving);
   (SEReceiving, SESendCiprecvdata); (SEReceiving, SEConnected); (SESendCipclose, SESendCwqap);
   (SESendCwqap, SEFinalizeDisconnect); (SEFinalizeDisconnect, SENotConnected)].

(** Arrows the diagram lacks: two states it does not mention, *)
Definition se_undocumented : list (essend * essend) :=
  [(SEConnecting, SESendCwmode); (SESendCwmode, SESendCwjap); (SESendCwjap, SESendCipmux); (SESendCipmux, SESendCiprecvmode)].
(** and the loss of the WiFi network. *)
Definition se_wifi_lost : list (essend * essend) :=
  map (fun s => (s, SEFinalizeDisconnect))
    [SEConnected; SESendDataState; SESendCiprecvdata; SEWaitReceive; SEReceiving; SESendCipclose; SESendCwqap].

(** The type of the connection in AT+CIPSTART; a value outside the enumeration
    is not written at all. *)
Definition se_type (type : Z) : bytes :=
  if (type =? TCP)%Z then bs "=" ++ quoted (bs "TCP") ++ bs "," ++ [DQ]
  else if (type =? UDP)%Z then bs "=" ++ quoted (bs "UDP") ++ bs "," ++ [DQ]
  else if (type =? SSL)%Z then bs "=" ++ quoted (bs "SSL") ++ bs "," ++ [DQ]
  else [].

(** The command of each state (without the line end). *)
Definition se_command (s : essend) (ssid passwd host : cptr) (type port : Z) : option bytes :=
  match s with
  | SEConnecting => Some (bs "ATE0")
  | SESendCwmode => Some (bs "AT+CWMODE=1")
  | SESendCwjap => Some (bs "AT+CWJAP=" ++ quoted (text ssid) ++ bs "," ++ quoted (text passwd))
  | SESendCipmux => Some (bs "AT+CIPMUX=0")
  | SESendCiprecvmode => Some (bs "AT+CIPRECVMODE=" ++ (if (type =? TCP)%Z then bs "1" else bs "0"))
  | SESendCipmode => Some (bs "AT+CIPMODE=0")
  | SESendCipstart => Some (bs "AT+CIPSTART" ++ se_type type ++ text host ++ [DQ] ++ bs "," ++ dec port)
  | SESendCipclose => Some (bs "AT+CIPCLOSE")
  | SESendCwqap => Some (bs "AT+CWQAP")
  | _ => None
  end.

(** A pending request for the MAC address: the buffer holds the empty string,
    followed by the byte 0xFF - which a signed char never equals. *)
Definition se_mac_request (P : plat) (b : bytes) : bool :=
  match b with
  | c0 :: c1 :: _ => Ascii.eqb c0 NUL && negb (char_signed P) && (nat_of_ascii c1 =? 255)
  | _ => false
  end.

(** When a byte ends the reply line [L] (whose last byte it is): '\n', '>', the
    60th byte; a colon if the connection is not a TCP connection and no reply
    containing colons is expected; or the separator in front of the payload of
    AT+CIPRECVDATA (for both firmware versions). *)
Definition se_colon (t : Z) (r : esreply) (L : bytes) : bool :=
  negb (t =? TCP)%Z && match r with REOk | REParseCiprecvdata => true | _ => false end && Ascii.eqb (last L NUL) ":".
Definition se_header (r : esreply) (L : bytes) : bool :=
  match r with REWaitCiprecvdata => true | _ => false end && (14 <? length L) &&
  (Ascii.eqb (last L NUL) ":" && prefixb (bs "+CIPRECVDATA,") L || Ascii.eqb (last L NUL) "," && prefixb (bs "+CIPRECVDATA:") L).
Definition se_ends (t : Z) (r : esreply) (L : bytes) : bool :=
  at_end (last L NUL) (length L) || se_colon t r L || se_header r L.
