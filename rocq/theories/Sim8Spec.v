(** What the documentation of the SIM800 driver promises: the state diagram
    and the commands of sim800.h:59-104.  Nothing here refers to how the driver
    computes. *)
From Coq Require Import String Ascii ZArith Bool List.
From Verif Require Import Base QueueSpec SerialSpec CStr CStrProofs Dev DevProofs SimDev SimSpec Sim800.
Import ListNotations.
Local Open Scope nat_scope.

(** sim800.h:59-104, the arrows between different states. *)
Definition s8_diagram : list (s8send * s8send) :=
  [(S8NotConnected, S8Connecting); (S8Connecting, S8SendCiprxget); (S8SendCiprxget, S8SendCipmux);
   (S8SendCipmux, S8SendCstt); (S8SendCstt, S8SendCiicr); (S8SendCiicr, S8SendCifsr);
   (S8SendCifsr, S8SendCipshut); (S8SendCifsr, S8SendDnsQuery); (S8SendDnsQuery, S8SendCipstart);
   (S8SendCipstart, S8FinalizeConnect); (S8FinalizeConnect, S8Connected);
   (S8Connected, S8SendData); (S8Connected, S8SendCiprxget4); (S8Connected, S8SendCipclose);
   (S8SendData, S8Connected); (S8SendCiprxget4, S8SendCiprxget2);
   (S8SendCiprxget2, S8SendCipclose); (S8SendCiprxget2, S8WaitReceive);
   (S8SendCiprxget2, S8Connected); (S8SendCiprxget2, S8IpUnconnected);
   (S8WaitReceive, S8Receiving); (S8Receiving, S8SendCiprxget2); (S8Receiving, S8SendCiprxget4);
   (S8IpUnconnected, S8FinalizeDisconnect); (S8IpUnconnected, S8SendCipstart);
   (S8SendCipclose, S8SendCipshut); (S8SendCipshut, S8FinalizeDisconnect);
   (S8FinalizeDisconnect, S8NotConnected)].

(** Arrows the diagram lacks: the peer closed the connection, and a disconnect
    request while the connection is being opened (taken on a reply line). *)
Definition s8_undocumented : list (s8send * s8send) := [(S8Connected, S8SendCipshut)].
Definition s8_giveup : list (s8send * s8send) := [(S8FinalizeConnect, S8SendCipshut)].

(** The command of each state (without the line end).  The header documents
    AT+CSTT without the quotes the driver sends. *)
Definition s8_command (s : s8send) (apn host : cptr) (ipbuf : bytes) (type port : Z) : option bytes :=
  match s with
  | S8Connecting => Some (bs "ATE0")
  | S8SendCiprxget => Some (bs "AT+CIPRXGET=1")
  | S8SendCipmux => Some (bs "AT+CIPMUX=1")
  | S8SendCstt => Some (bs "AT+CSTT=" ++ quoted (text apn))
  | S8SendCiicr => Some (bs "AT+CIICR")
  | S8SendCifsr => Some (bs "AT+CIFSR")
  | S8SendDnsQuery => Some (bs "AT+CDNSGIP=" ++ quoted (text host))
  | S8SendCipstart =>
      Some (bs "AT+CIPSTART=0," ++ quoted (if (type =? UDP)%Z then bs "UDP" else bs "TCP") ++ bs "," ++
            quoted (str_body ipbuf) ++ bs "," ++ dec port)
  | S8SendCiprxget4 => Some (bs "AT+CIPRXGET=4,0")
  | S8SendCipclose => Some (bs "AT+CIPCLOSE=0")
  | S8SendCipshut => Some (bs "AT+CIPSHUT")
  | _ => None
  end.
