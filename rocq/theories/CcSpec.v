(** What the documentation of the CC1352P7 driver promises: the state diagram
    and the commands of cc1352p7.h:73-110.  Nothing here refers to how the
    driver computes. *)
From Coq Require Import String Ascii ZArith Bool List.
From Verif Require Import Base QueueSpec SerialSpec CStr CStrProofs Dev DevProofs SimDev SimSpec Espressif Cc1352.
Import ListNotations.
Local Open Scope nat_scope.

(** cc1352p7.h:78-109, the arrows between different states. *)
Definition sc_diagram : list (ccsend * ccsend) :=
  [(SCNotConnected, SCConnecting); (SCConnecting, SCSendCipstart); (SCSendCipstart, SCFinalizeConnect);
   (SCFinalizeConnect, SCConnected); (SCConnected, SCSendDataState); (SCConnected, SCSendCiprecvdata);
   (SCConnected, SCReceiving); (SCConnected, SCSendCipclose); (SCSendDataState, SCConnected);
   (SCSendCiprecvdata, SCSendCipclose); (SCSendCiprecvdata, SCWaitReceive); (SCSendCiprecvdata, SCConnected);
   (SCWaitReceive, SCReceiving); (SCReceiving, SCSendCiprecvdata); (SCReceiving, SCConnected);
   (SCSendCipclose, SCFinalizeDisconnect); (SCFinalizeDisconnect, SCNotConnected)].

(** An arrow the diagram lacks: the peer closed the connection. *)
Definition sc_undocumented : list (ccsend * ccsend) := [(SCConnected, SCFinalizeDisconnect)].

(** The command of each state (without the line end). *)
Definition sc_command (s : ccsend) (host : cptr) (type port : Z) : option bytes :=
  match s with
  | SCConnecting => Some (bs "ATE0")
  | SCSendCipstart =>
      Some (bs "AT+CIPSTART=" ++ quoted (if (type =? UDP)%Z then bs "UDP" else bs "TCP") ++ bs "," ++
            quoted (text host) ++ bs "," ++ dec port)
  | SCSendCipclose => Some (bs "AT+CIPCLOSE")
  | _ => None
  end.

(** A pending request for the MAC address: the buffer holds the empty string,
    followed by the byte 0xFF - which a signed char never equals. *)
Definition mac_request (P : plat) (b : bytes) : bool :=
  match b with
  | c0 :: c1 :: _ => Ascii.eqb c0 NUL && negb (char_signed P) && (nat_of_ascii c1 =? 255)
  | _ => false
  end.
