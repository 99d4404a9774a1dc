(** What the documentation of the SIM7x00 driver promises: the state diagram
    and the commands of sim7x00.h:59-104.  Nothing here refers to how the driver
    computes. *)
From Coq Require Import String Ascii ZArith Bool List.
From Verif Require Import Base QueueSpec SerialSpec CStr CStrProofs Dev DevProofs SimDev SimSpec Sim7x00.
Import ListNotations.
Local Open Scope nat_scope.

(** sim7x00.h:60-104, the arrows between different states. *)
Definition s7_diagram : list (s7send * s7send) :=
  [(S7NotConnected, S7Connecting); (S7Connecting, S7SendCgsockcont);
   (S7SendCgsockcont, S7SendCsocksetpn); (S7SendCsocksetpn, S7SendCipmode);
   (S7SendCipmode, S7SendNetopen); (S7SendNetopen, S7SendCiprxget);
   (S7SendCiprxget, S7SendDnsQuery); (S7SendDnsQuery, S7SendCipopen);
   (S7SendCipopen, S7FinalizeConnect); (S7FinalizeConnect, S7Connected);
   (S7Connected, S7SendData); (S7Connected, S7SendCiprxget4); (S7Connected, S7SendNetclose);
   (S7SendData, S7Connected); (S7SendCiprxget4, S7SendCiprxget2);
   (S7SendCiprxget2, S7SendNetclose); (S7SendCiprxget2, S7WaitReceive);
   (S7SendCiprxget2, S7Connected); (S7SendCiprxget2, S7IpUnconnected);
   (S7WaitReceive, S7Receiving); (S7Receiving, S7SendCiprxget2); (S7Receiving, S7SendCiprxget4);
   (S7IpUnconnected, S7SendNetclose); (S7IpUnconnected, S7SendCipopen);
   (S7SendNetclose, S7FinalizeDisconnect); (S7FinalizeDisconnect, S7NotConnected)].

(** Arrows the diagram lacks: a disconnect request before AT+NETOPEN, and the
    repetition of AT+NETOPEN when the modem says the network is already open. *)
Definition s7_undocumented : list (s7send * s7send) := [(S7SendNetopen, S7FinalizeDisconnect)].
Definition s7_retry : list (s7send * s7send) := [(S7SendCiprxget, S7SendNetopen)].

(** The command of each state (without the line end). *)

Definition s7_command (s : s7send) (apn host : cptr) (ipbuf : bytes) (type port : Z) : option bytes :=
  match s with
  | S7Connecting => Some (bs "ATE0")
  | S7SendCgsockcont => Some (bs "AT+CGSOCKCONT=1," ++ quoted (bs "IP") ++ bs "," ++ quoted (text apn))
  | S7SendCsocksetpn => Some (bs "AT+CSOCKSETPN=1")
  | S7SendCipmode => Some (bs "AT+CIPMODE=0")
  | S7SendNetopen => Some (bs "AT+NETOPEN")
  | S7SendCiprxget => Some (bs "AT+CIPRXGET=1")
  | S7SendDnsQuery => Some (bs "AT+CDNSGIP=" ++ quoted (text host))
  | S7SendCipopen =>
      Some (if (type =? UDP)%Z then bs "AT+CIPOPEN=0," ++ quoted (bs "UDP") ++ bs ",,," ++ dec port
            else bs "AT+CIPOPEN=0," ++ quoted (bs "TCP") ++ bs "," ++ quoted (str_body ipbuf) ++ bs "," ++ dec port)
  | S7SendCiprxget4 => Some (bs "AT+CIPRXGET=4,0")
  | S7SendNetclose => Some (bs "AT+NETCLOSE")
  | _ => None
  end.
