(** The SIM7x00 driver: what is proved of C32-C57, C59 and C69 for it.

    [s7_built d0]: [d0] is a driver as the constructor leaves it.  [s7_hist P d0
    tr d]: the calls [tr], with interrupts at any point, lead from [d0] to [d];
    by [C51_sim7_histories] every sequence of valid calls that does not end in
    undefined behaviour is such a history.  The entries of [tr] say what call was
    made, what it returned, which serial events it caused and, for run(), how the
    bytes moved belong together (actions); the bytes of the actions are the bytes
    moved ([C51_sim7_actions]). *)
From Coq Require Import String Ascii ZArith List Bool Arith Lia ZifyBool ZifyNat.
From Verif Require Import Base QueueSpec LineSpec SerialSpec Ring RingProofs LineRing LineRingProofs Serial SerialProofs
  SerStep TaskMacros CStr CStrProofs Dev DevProofs SimDev SimProofs SimSpec SimParse Sym DrvStep DrvCommon DrvRun DrvHist DrvActs DrvStuck DrvRecv SimLog
  Sim7x00 Sim7Spec Sim7Proofs Sim7Ctl Sim7CtlIn Sim7Hist Sim7Thms Sim7More Sim7Line Sim7Req Sim7Rest Sim7Stuck Sim7Ack Sim7Recv Session.
Import ListNotations.
Local Open Scope nat_scope.
Local Notation dv := (dev s7send s7reply simx).
Local Notation ent := (@entry simop).

(** ** The sessions of the examples *)
Definition PA : plat := mkPlat true true.
Definition s7_ex : res dv := s7_new ser64 true (repeat NUL 32) (repeat NUL 32) (repeat NUL 61) (repeat NUL 16) (repeat NUL 24) 1%Z.
Definition s7_start : @script simop :=
  [call (OpX (SetApn (PStr (bs "net")))); call (OpSetHostPort (PStr (bs "host")) 80%Z 1%Z); call OpConnect; call (OpRun true); call (OpRun true)].
Definition s7_dns_line (a : bytes) : bytes := dns_reply (bs "host") a [CR; LF].
Definition s7_until_dns : @script simop :=
  dialog [crlf (bs "OK"); crlf (bs "OK"); crlf (bs "OK"); crlf (bs "OK"); crlf (bs "+NETOPEN: 0"); crlf (bs "OK")].
Definition s7_from_dns : @script simop := dialog [s7_dns_line (bs "1.2.3.4"); crlf (bs "OK"); crlf (bs "+CIPOPEN: 0,0")].
Definition s7_connected : @script simop := s7_start ++ s7_until_dns ++ s7_from_dns ++ runs_ 1.
Definition s7_seen (h : @script simop) := seen (s7_driver PA) s7_ex h.
(** The same after the connection was opened. *)
Definition s7_then (h : @script simop) : res (list dobs * list string) :=
  match s7_seen (s7_connected ++ h) with Ok (a, b) => Ok (skipn 1 a, skipn 8 b) | UB u => UB u end.
Definition s7_end {A} (f : dv -> A) (h : @script simop) : res A := ends (s7_driver PA) f s7_ex h.

Example s7_ex_built : exists d, s7_ex = Ok d /\ s7_built d.
Proof.
  assert (W : serial_wf ser64).
  { repeat split; cbn; try lia; intro; discriminate. }
  destruct (s7_new_ok ser64 true (repeat NUL 32) (repeat NUL 32) (repeat NUL 61) (repeat NUL 16) (repeat NUL 24) 1%Z) as (d & E & _);
    try exact W; try discriminate; try (unfold fits; cbn; lia); try reflexivity.
  exists d. split; [exact E|]. unfold s7_built. do 8 eexists. repeat (split; [shelve|]). exact E.
  Unshelve. all: try exact W; try discriminate; try (unfold fits; cbn; lia); try reflexivity.
Qed.

(** The whole opening dialogue: the commands and the final state. *)
Example s7_session : s7_seen (s7_connected ++ [call OpIsConnected]) =
  Ok ([DBool true; DBool true],
      ["ATE0"; "AT+CGSOCKCONT=1,""IP"",""net"""; "AT+CSOCKSETPN=1"; "AT+CIPMODE=0"; "AT+NETOPEN"; "AT+CIPRXGET=1";
       "AT+CDNSGIP=""host"""; "AT+CIPOPEN=0,""TCP"",""1.2.3.4"",80"])%string.
Proof. vm_compute. reflexivity. Qed.

(** ** C51: memory safety *)

(** Undefined behaviour is reached only by run() on a DNS reply whose address
    has more than 15 characters. *)
Theorem C51_sim7_safe : forall P d0 h u, s7_built d0 -> s7_valid h -> d_run (s7_driver P) d0 h = UB u ->
  exists h1 oo sch h2 d1 outs, h = h1 ++ (OpRun oo, sch) :: h2 /\ d_run (s7_driver P) d0 h1 = Ok (d1, outs) /\
    s7_dns_overflow (during sch d1).
Proof. exact s7_safe. Qed.

Theorem C51_sim7_histories : forall P d0 h d outs, s7_built d0 -> s7_valid h -> d_run (s7_driver P) d0 h = Ok (d, outs) ->
  exists tr, s7_hist P d0 tr d /\ map (fun e => (e_op e, e_sch e)) tr = h /\ map (fun e => (e_out e, e_ev e)) tr = outs.
Proof. exact s7_every_run. Qed.

Theorem C51_sim7_actions : forall P d e d' oo, s7_step P d e d' -> e_op e = OpRun oo ->
  taken (e_ev e) = concat (map act_taken (e_acts e)) /\ put (e_ev e) = concat (map act_put (e_acts e)).
Proof. intros P d e d' oo (_ & _ & _ & _ & _ & _ & H & _) E. rewrite E in H. exact H. Qed.

(** ** C37: the overflow *)
Definition s7_long_address : @script simop := s7_start ++ s7_until_dns ++ dialog [s7_dns_line (bs "2001:db8:85a3::1")].
Theorem C37_sim7_refuted : s7_seen s7_long_address = UB OutOfBounds.
Proof. vm_compute. reflexivity. Qed.
(** With one character less it is accepted. *)
Example C37_sim7_fits : s7_end (fun d => str_body (ip (ext d))) (s7_start ++ s7_until_dns ++ dialog [s7_dns_line (bs "255.255.255.255")])
  = Ok (bs "255.255.255.255").
Proof. vm_compute. reflexivity. Qed.

(** ** C36: the resolved address *)
Theorem C36_sim7_open : forall P d0 tr d e d' cmd q, s7_built d0 -> s7_hist P d0 tr d -> s7_step P d e d' ->
  In (aCommand cmd q) (e_acts e) -> prefixb (bs "AT+CIPOPEN=") cmd = true -> typ d <> UDP ->
  exists a, fst (dns_log (tr ++ [e])) = Some a /\ cmd = bs "AT+CIPOPEN=0," ++ quoted (bs "TCP") ++ bs "," ++ quoted a ++ bs "," ++ dec (port d) ++ [CR; LF].
Proof.
  intros P d0 tr d e d' cmd q HB Hh Hs. apply s7_open_address with (d0 := d0) (d' := d') (P := P); auto.
  eapply hist_app; [exact Hh|econstructor; [exact Hs|constructor]].
Qed.
Theorem C36_reply : forall h a rest, ~ In DQ h -> ~ In DQ a -> quotes rest <= 6 -> ~ In NUL (dns_reply h a rest) ->
  dns_okb (dns_reply h a rest) = true /\ dns_ip (cbody (dns_reply h a rest)) = Some a.
Proof.
  intros h a rest Hh Ha Hr Hn. assert (E : cbody (dns_reply h a rest) = dns_reply h a rest).
  { unfold cbody. generalize (dns_reply h a rest) Hn. clear. induction b as [|c b IH]; intro H; [reflexivity|]. cbn [app str_body].
    destruct (Ascii.eqb c "000") eqn:E; [apply Ascii.eqb_eq in E; subst; contradiction H; left; reflexivity|]. f_equal. apply IH. intro K. apply H. right. exact K. }
  split; [|rewrite E; apply dns_ip_reply; assumption]. apply dns_okb_spec. unfold dns_ok. rewrite E, quotes_reply by assumption. split; [reflexivity|lia].
Qed.
Example C36_case : dns_reply (bs "host") (bs "1.2.3.4") [CR; LF] =
  bs "+CDNSGIP: 1," ++ quoted (bs "host") ++ bs "," ++ quoted (bs "1.2.3.4") ++ [CR; LF].
Proof. reflexivity. Qed.

(** ** C38: no recovery from a malformed DNS reply *)
Theorem C38_sim7_refuted : forall P d tr d', s7_hist P d tr d' -> s7_unresolved d -> Forall s7_no_answer tr ->
  s7_unresolved d' /\ Forall silent tr.
Proof. exact s7_dns_wedge. Qed.
(** Such a state is reached by an answer with fewer than four quotes. *)
Example C38_sim7_case : s7_end (fun d => (isopen d, fReset (fl d), rst d, wait d, dns_okb (crlf (bs "+CDNSGIP: 1,1.2.3.4"))))
    (s7_start ++ s7_until_dns ++ dialog [crlf (bs "+CDNSGIP: 1,1.2.3.4"); crlf (bs "OK")]) =
  Ok (true, false, R7Cdnsgip, None, false).
Proof. vm_compute. reflexivity. Qed.

(** ** C32: writeBufferProcessed() *)

(** From the announcement of a block until the reply to it, it is false. *)
Theorem C32_sim7_not_before_reply : forall P d0 tr d, s7_built d0 -> s7_hist P d0 tr d -> tx_log s7_acks s7_nacks tr <> txNone ->
  ip_write_buffer_processed d = false.
Proof.
  intros P d0 tr d HB Hh Ht. pose proof (s7_tx_history P d0 tr d (s7_built_fresh _ HB) Hh) as H.
  unfold ip_write_buffer_processed. destruct (tx_log s7_acks s7_nacks tr); [contradiction Ht; reflexivity| |]; destruct H as [-> _]; apply andb_false_r.
Qed.
(** Nor while there are accepted bytes that were not handed to the modem (see
    also C53). *)
Theorem C32_sim7_unsent : forall d : dv, ring_ok (wbuf d) -> contents (wbuf d) <> [] -> ip_write_buffer_processed d = false.
Proof.
  intros d Hok H. unfold ip_write_buffer_processed. destruct (avail (wbuf d)) eqn:E; [|reflexivity].
  contradiction H. unfold contents. rewrite E. reflexivity.
Qed.
Definition s7_hello : @script simop := [call (OpWrite (bs "hello") 5)] ++ runs_ 1 ++ dialog [bs ">"].
Example C32_sim7_case : s7_then (s7_hello ++ [call OpWriteBufferProcessed] ++ dialog [crlf (bs "OK")] ++ [call OpWriteBufferProcessed]) =
  Ok ([DCount 5; DBool false; DBool true], ["AT+CIPSEND=0,5"; "hello"])%string.
Proof. vm_compute. reflexivity. Qed.
(** An error reply also makes it true. *)
Theorem C32_sim7_refuted : s7_then (s7_hello ++ [call OpWriteBufferProcessed] ++ dialog [crlf (bs "ERROR")] ++ [call OpWriteBufferProcessed]) =
  Ok ([DCount 5; DBool false; DBool true], ["AT+CIPSEND=0,5"; "hello"])%string.
Proof. vm_compute. reflexivity. Qed.

(** ** C33: disconnect() *)
Theorem C33_sim7_kept : forall P d e d', s7_step P d e d' -> fDisc (fl d) = true ->
  fDisc (fl d') = true \/ sst d' = S7SendNetclose \/ sst d' = S7FinalizeDisconnect \/
  (exists oo q, e_op e = OpRun oo /\ e_acts e = [aReset q]) \/ e_op e = OpResetStates.
Proof. exact s7_disc_kept. Qed.
Theorem C33_sim7_idle : forall P d e d', s7_step P d e d' -> e_op e = OpDisconnect ->
  fDisc (fl d') = (if ip_is_idle d then fDisc (fl d) else true) /\ fConnect (fl d') = fConnect (fl d) /\ sst d' = sst d.
Proof. exact s7_disc_idle. Qed.
(** Called right after connect(), it is ignored. *)
Theorem C33_sim7_refuted :
  s7_seen (firstn 3 s7_start ++ [call OpDisconnect] ++ skipn 3 s7_start ++ s7_until_dns ++ s7_from_dns ++ runs_ 1 ++ [call OpIsConnected]) =
  s7_seen (s7_connected ++ [call OpIsConnected]).
Proof. vm_compute. reflexivity. Qed.

(** ** C34, C35: reply lines *)
Theorem C34_sim7_line_buffer : forall P d0 tr d, s7_built d0 -> s7_hist P d0 tr d -> length (lbuf d) = 61 /\ lbfill d < 60.
Proof.
  intros P d0 tr d HB Hh. assert (HI : s7_all d) by (apply (hist_inv _ _ _ _ _ _ _ Hh), (s7_built_fresh _ HB)).
  destruct HI as (((_ & _ & _ & _ & _ & _ & _ & _ & Hl & _) & _) & _). unfold line_ok in Hl. destruct Hl as (H1 & H2 & _). split; lia.
Qed.
Theorem C35_sim7_lines : forall P d0 tr d, s7_built d0 -> s7_hist P d0 tr d ->
  fst (fold_left line_log tr ([], [])) = concat (snd (fold_left line_log tr ([], []))) ++ pending d /\
  Forall whole_line (snd (fold_left line_log tr ([], []))) /\ partial_line (pending d).
Proof.
  intros P d0 tr d HB Hh. pose proof (s7_built_fresh _ HB) as HF.
  destruct (line_history _ _ _ _ _ (s7_contract P) whole_line (fun _ _ H => H) d0 tr d Hh) as [A B]; [apply HF|]. split; [exact A|]. split; [exact B|].
  assert (HI : s7_all d) by (apply (hist_inv _ _ _ _ _ _ _ Hh), HF).
  destruct HI as (((_ & _ & _ & _ & _ & _ & _ & _ & Hl & _) & _) & _). unfold line_ok in Hl. apply Hl.
Qed.
(** A line in three pieces over five calls. *)
Example C35_sim7_case : s7_end (fun d => (lbfill d, rssi d))
   ([call OpRequestRSSI] ++ runs_ 1 ++ dialog [bs "+CS"; bs "Q: 2"; []] ) = Ok (7, INT16_MAX) /\
  s7_end (fun d => (lbfill d, rssi d)) ([call OpRequestRSSI] ++ runs_ 1 ++ dialog [bs "+CS"; bs "Q: 2"; []; crlf (bs "0,0")]) = Ok (0, (-73)%Z).
Proof. split; vm_compute; reflexivity. Qed.

(** ** C39: signal strength *)
Theorem C39_sim7_rssi : forall P d0 tr d e d' n, s7_built d0 -> s7_hist P d0 tr d -> s7_step P d e d' -> e_op e = OpGetRSSI -> e_out e = DNum n ->
  n = fst (rssi_log P tr).
Proof.
  intros P d0 tr d e d' n HB Hh Hs Eo Ee. destruct (s7_rssi_history P d0 tr d (s7_built_fresh _ HB) Hh) as [<- _].
  destruct (s7_cases P d e d' Hs) as (d1 & _ & _ & [(oo & E & _)|(_ & _ & _ & Hc)]); [congruence|].
  rewrite Eo, Ee in Hc. destruct Hc as [_ Hc]. injection Hc as <- _. reflexivity.
Qed.
Theorem C39_conversion : forall v, csq_dbm v = dbm (v mod 4294967296) /\ csq_dbm v <> INT16_MAX.
Proof. intro v. split; [apply csq_dbm_spec|apply csq_never_pending]. Qed.
Theorem C39_reply : forall P n, (0 <= n < 2147483648)%Z -> csq_dbm (number P (skipn 6 (bs "+CSQ: " ++ dec n ++ bs ",99" ++ [CR; LF]))) = dbm n.
Proof.
  intros P n H. change (skipn 6 (bs "+CSQ: " ++ dec n ++ bs ",99" ++ [CR; LF])) with (dec n ++ bs ",99" ++ [CR; LF]).
  rewrite number_dec by (try assumption; reflexivity). rewrite csq_dbm_spec, Z.mod_small by lia. reflexivity.
Qed.
Example C39_sim7_case : s7_seen ([call OpGetRSSI; call OpRequestRSSI; call OpGetRSSI] ++ runs_ 1 ++ dialog [crlf (bs "+CSQ: 31,99")] ++ [call OpGetRSSI]) =
  Ok ([DNum 99; DNum 32767; DNum (-51)], ["AT+CSQ"%string]).
Proof. vm_compute. reflexivity. Qed.

(** ** C40, C41, C42, C59: identification *)
Theorem C40_sim7_id : forall P d0 tr d e d' s, s7_built d0 -> s7_hist P d0 tr d -> s7_step P d e d' ->
  e_op e = OpX GetID -> e_out e = DStr (Some s) -> il_nul (id_log tr) = false ->
  exists t L x, il_req (id_log tr) = Some t /\ In L (il_lines (id_log tr)) /\ id_reply L = Some x /\ (t = idIccid -> iccid (leading_digits x)) /\
    s = firstn 23 (upto CR x).
Proof. exact s7_id_answer. Qed.
Theorem C41_sim7_bounded : forall P d0 tr d e d' s, s7_built d0 -> s7_hist P d0 tr d -> s7_step P d e d' ->
  e_op e = OpX GetID -> e_out e = DStr (Some s) -> il_nul (id_log tr) = false -> length s <= 23 /\ length (idbuf (ext d)) = 24.
Proof.
  intros P d0 tr d e d' s HB Hh Hs Eo Ee Hn. destruct (s7_id_answer P d0 tr d e d' s HB Hh Hs Eo Ee Hn) as (t & L & x & _ & _ & _ & _ & ->).
  split; [rewrite firstn_length; lia|]. assert (HI : s7_all d) by (apply Hs). apply HI.
Qed.
Definition s7_ask_id (t : idtype) (l : list bytes) : @script simop := [call (OpX (RequestID t))] ++ runs_ 1 ++ dialog l ++ [call (OpX GetID)].
Example C40_sim7_case : s7_seen (s7_ask_id idIccid [crlf (bs "+ICCID: 89490200001234567899"); crlf (bs "OK")]) =
  Ok ([DStr None], ["AT+CICCID"%string]) /\
  s7_seen (s7_ask_id idIccid [crlf (bs "+ICCID: 89490200001234567892"); crlf (bs "OK")]) =
  Ok ([DStr (Some (bs "89490200001234567892"))], ["AT+CICCID"%string]).
Proof. split; vm_compute; reflexivity. Qed.
(** The reply to the first of two requests is returned for the second. *)
Theorem C42_sim7_refuted :
  s7_seen ([call (OpX (RequestID idImei))] ++ runs_ 1 ++ [call (OpX (RequestID idImsi))] ++ dialog [crlf (bs "490154203237518"); crlf (bs "OK")] ++
           [call (OpX GetID)]) =
  Ok ([DStr (Some (bs "490154203237518"))], ["AT+CGSN"%string]).
Proof. vm_compute. reflexivity. Qed.
(** A line read while the answer to AT+CSQ is expected leaves the stored
    identification alone. *)
Theorem C59_sim7_rssi : forall P d ret d' L, s7_handles P d ret d' L -> rst d = R7Csq -> idbuf (ext d') = idbuf (ext d).
Proof.
  intros P d ret d' L H E. apply s7_line_effect in H. unfold s7_effect in H. rewrite E in H. destruct (s7_refused L d).
  - destruct H as (_ & -> & _). reflexivity.
  - destruct H as [-> _]. reflexivity.
Qed.
Theorem C59_sim7_request : forall P d e d', s7_step P d e d' -> e_op e = OpRequestRSSI \/ e_op e = OpGetRSSI -> ext d' = ext d.
Proof.
  intros P d e d' Hs Ho. destruct (s7_cases P d e d' Hs) as (d1 & E & _ & [(oo & Eo & _)|(_ & _ & _ & Hc)]); [destruct Ho; congruence|].
  rewrite E. destruct Ho as [Eo|Eo]; rewrite Eo in Hc; destruct Hc as [_ Hc]; injection Hc as _ <-; reflexivity.
Qed.
Example C59_sim7_case : s7_seen (s7_ask_id idImei [crlf (bs "490154203237518"); crlf (bs "OK")] ++ [call OpRequestRSSI] ++ runs_ 1 ++
     dialog [crlf (bs "hello"); crlf (bs "+CSQ: 31,99"); crlf (bs "OK")] ++ [call (OpX GetID)]) =
  Ok ([DStr (Some (bs "490154203237518")); DStr (Some (bs "490154203237518"))], ["AT+CGSN"; "AT+CSQ"]%string).
Proof. vm_compute. reflexivity. Qed.

(** ** C43, C54, C55: receiving *)
Theorem C43_sim7_request : forall P d0 tr d e d' cmd q, s7_built d0 -> s7_hist P d0 tr d -> s7_step P d e d' ->
  In (aCommand cmd q) (e_acts e) -> prefixb (bs "AT+CIPRXGET=2,0,") cmd = true ->
  exists n, cmd = bs "AT+CIPRXGET=2,0," ++ dec n ++ [CR; LF] /\ (0 <= n <= 1500)%Z /\
    (n <= Z.of_nat (ring_space (rbuf d)))%Z /\ (n <= rx_waiting (rx_log P (tr ++ [e])))%Z /\
    (e_sch e = [] -> (0 < n)%Z /\ (n + 8 + Z.of_nat (rxav (io d)) <= Z.of_nat (rxsz (io d)) + Z.of_nat (length (taken (e_ev e))))%Z).
Proof. exact s7_request. Qed.
Definition s7_notice (n : bytes) : @script simop :=
  dialog [crlf (bs "+CIPRXGET: 1,0")] ++ runs_ 1 ++ dialog [crlf (bs "+CIPRXGET: 4,0," ++ n)].
Example C43_sim7_case : s7_then (s7_notice (bs "50") ++ dialog [crlf (bs "OK")]) = Ok ([], ["AT+CIPRXGET=4,0"; "AT+CIPRXGET=2,0,32"]%string).
Proof. vm_compute. reflexivity. Qed.
(** Under interrupts the request may even be for 0 bytes. *)
Definition s7_rx_race (k : nat) : @script simop :=
  s7_notice (bs "5") ++ [modem (crlf (bs "OK"))] ++ [(OpRun true, repeat [] k ++ [map (fun c => Transfer (Some c) true) (repeat "x"%char 120)])].
Theorem C43_sim7_interrupt_refuted : exists k, s7_then (s7_rx_race k) = Ok ([], ["AT+CIPRXGET=4,0"; "AT+CIPRXGET=2,0,0"]%string).
Proof. exists 10. vm_compute. reflexivity. Qed.

Theorem C54_sim7_received : forall P d0 tr d, s7_built d0 -> s7_hist P d0 tr d ->
  let acc := r_log (rx_req P) (rx_rep P) tr in
  r_ok acc = true -> r_in acc = r_out acc ++ contents (rbuf d).
Proof. intros P d0 tr d HB Hh acc H. apply (s7_received P d0 tr d (s7_built_fresh _ HB) Hh H). Qed.
Definition s7_receive (m : bytes) (data : bytes) : @script simop :=
  s7_notice (bs "5") ++ dialog [crlf (bs "OK"); crlf (bs "+CIPRXGET: 2,0," ++ m); data] ++ runs_ 1.
Example C54_sim7_case : s7_then (s7_receive (bs "5") (bs "world") ++ [call OpBytesAvailable; call (OpRead 40)]) =
  Ok ([DCount 5; DData (bs "world") 5], ["AT+CIPRXGET=4,0"; "AT+CIPRXGET=2,0,5"]%string).
Proof. vm_compute. reflexivity. Qed.
(** What happens otherwise: data is lost, or the driver waits for ever. *)
Theorem C55_sim7_overrun_refuted :
  s7_then (s7_receive (bs "40") (bs "abcdefghij" ++ repeat "x"%char 30) ++ [call OpBytesAvailable; call (OpRead 40)]) =
  Ok ([DCount 32; DData (repeat "x"%char 8 ++ bs "ij" ++ repeat "x"%char 22) 32], ["AT+CIPRXGET=4,0"; "AT+CIPRXGET=2,0,5"]%string).
Proof. vm_compute. reflexivity. Qed.
Theorem C55_sim7_starve_refuted : forall P d tr d', s7_hist P d tr d' -> s7_starves (rxsz (io d)) d -> Forall (fun e => ~ s7_helps e) tr ->
  s7_starves (rxsz (io d)) d' /\ Forall silent tr.
Proof. exact s7_starve. Qed.
Example C55_sim7_case : s7_end (fun d => (sst d, rst d, wait d, fLine (fl d), toRead d)) (s7_connected ++ s7_receive (bs "-1") []) =
  Ok (S7Receiving, R7Ok, None, false, 18446744073709551615%Z).
Proof. vm_compute. reflexivity. Qed.

(** ** C44, C45, C53: sending *)
Theorem C44_sim7_payload : forall P d0 tr d e d' q, s7_built d0 -> s7_hist P d0 tr d -> s7_step P d e d' -> In (aPayload q) (e_acts e) ->
  exists n, fold_left announce_log tr None = Some n /\ length q <= Z.to_nat n /\ (clean (e_ev e) -> length q = Z.to_nat n).
Proof.
  intros P d0 tr d e d' q HB Hh Hs Hin.
  destruct (payload_announced _ _ _ _ _ (s7_contract P) eq_refl d0 tr d e d' q Hh) as (n & A & _ & B); auto.
  - pose proof (s7_built_fresh _ HB) as HF. destruct HF as (_ & _ & -> & _). reflexivity.
  - exists n. auto.
Qed.
(** The announced number without interrupts, and in general. *)
Theorem C45_sim7_announce : forall P d e d' n q, s7_step P d e d' -> In (aAnnounce n q) (e_acts e) ->
  0 < avail (wbuf d) /\ (0 <= n <= Z.of_nat (txsz (io d)) - 22)%Z /\
  (e_sch e = [] -> exists k, k <= txav (io d) /\ n = Z.min (Z.of_nat (avail (wbuf d))) (Z.of_nat (txsz (io d)) - Z.of_nat k - 22)).
Proof.
  intros P d e d' n q Hs Hin.
  destruct (s7_sent P d e d' _ Hs Hin eq_refl) as (a & dm & d1 & r & Ea & Hl & Hx & Ho & Hox & Hd' & Hk & _ & Hmx & (evx & Hev) & Htx).
  assert (Hw : wbuf dm = wbuf d) by (destruct Hk as (_ & _ & Hk & _); exact Hk).
  assert (Hsz : txsz (io dm) = txsz (io d)).
  { destruct d. inversion Hl; subst; match goal with H : ioeff _ _ _ _ |- _ => destruct (ioeff_caps _ _ _ _ H) end; assumption. }
  inversion Ho as [| |y n' q' Aw Io1 Io2 Hlen Hfull Hk1 Hk2 Hav Htw H0 Hsp Hsch| |]; subst n' q'.
  assert (txsz y = txsz (io dm)) by (destruct (ioeff_caps _ _ _ _ Io1); assumption).
  rewrite <- Hw. split; [exact Hav|]. split; [lia|]. intro Es. exists (txav (io dm)). split; [exact Htx|].
  assert (Hsd : sched (io dm) = []).
  { destruct Hev as (_ & _ & _ & _ & _ & _ & Hev). apply Hev. rewrite Es. destruct d; reflexivity. }
  rewrite <- Hsz. apply Hsch, Hsd.
Qed.
(** A serial write buffer of 22 bytes makes every announcement one of 0 bytes. *)
Theorem C45_sim7_zero_refuted : forall P d e d' n q, s7_step P d e d' -> In (aAnnounce n q) (e_acts e) -> txsz (io d) = 22 -> n = 0%Z.
Proof. intros P d e d' n q Hs Hin E. destruct (C45_sim7_announce P d e d' n q Hs Hin) as (_ & H & _). rewrite E in H. lia. Qed.
Definition s7_fill (n : nat) : @script simop := [call (OpX SerialLock); call (OpSerialWrite (PStr (repeat "x"%char n))); call (OpX SerialUnlock)].
Example C45_sim7_zero_case : s7_then ([call (OpWrite (bs "hello") 5)] ++ s7_fill 106 ++ runs_ 1) =
  Ok ([DCount 5; DBool true; DCount 106], [string_of_list_ascii (repeat "x"%char 106); "AT+CIPSEND=0,0"]%string).
Proof. vm_compute. reflexivity. Qed.

Theorem C53_sim7_sent : forall P d0 tr d, s7_built d0 -> s7_hist P d0 tr d ->
  Forall (fun e => clean (e_ev e) /\ (announces (e_acts e) = true -> e_sch e = [])) tr ->
  fst (fold_left write_log tr ([], [])) = snd (fold_left write_log tr ([], [])) ++ contents (wbuf d).
Proof.
  intros P d0 tr d HB Hh HQ. pose proof (s7_built_fresh _ HB) as (_ & _ & F1 & _ & _ & _ & _ & _ & _ & F2 & _ & F3 & _).
  apply (write_history _ _ _ _ _ (s7_contract P) eq_refl d0 tr d Hh); auto. rewrite F1. reflexivity.
Qed.
Example C53_sim7_case : s7_then ([call (OpWrite (bs "0123456789abcdefghij") 20)] ++ s7_fill 90 ++ runs_ 1 ++
     dialog [bs ">"; crlf (bs "OK")] ++ runs_ 1 ++ dialog [bs ">"; crlf (bs "OK")]) =
  Ok ([DCount 20; DBool true; DCount 90],
      [string_of_list_ascii (repeat "x"%char 90); "AT+CIPSEND=0,16"; "0123456789abcdef"; "AT+CIPSEND=0,4"; "ghij"]%string).
Proof. vm_compute. reflexivity. Qed.
(** If the transmit interrupt empties the serial buffer between two looks at
    the space left, more is announced and sent than was ever written. *)
Definition s7_tx_race (k : nat) : @script simop :=
  [call (OpWrite (bs "0123456789abcdefghij") 20)] ++ s7_fill 90 ++ [(OpRun true, repeat [] k ++ [repeat (Transfer None true) 90])] ++ dialog [bs ">"].
Definition s7_announced (r : res (list dobs * list string)) : option (list string * list nat) :=
  match r with Ok (_, _ :: a :: p) => Some ([a], map String.length p) | _ => None end.
Theorem C53_sim7_interrupt_refuted : exists k, s7_announced (s7_then (s7_tx_race k)) = Some (["AT+CIPSEND=0,106"%string], [106]).
Proof. exists 4. vm_compute. reflexivity. Qed.

(** ** C46: the serial lock *)
Theorem C46_sim7_locked : forall P d e d' tr d2, s7_step P d e d' -> e_op e = OpX SerialLock -> e_out e = DBool true ->
  s7_hist P d' tr d2 -> Forall (fun e => ~ unlocks e) tr ->
  Forall (fun e => ~ raw_access e -> taken (e_ev e) = [] /\ put (e_ev e) = []) tr.
Proof. intros P d e d' tr d2 Hs Eo Ee Hh Hu. destruct (s7_lock P d e d' Hs Eo Ee) as [Hl _]. apply (s7_locked_history P d' tr d2 Hh Hl Hu). Qed.
Theorem C46_sim7_quiet : forall P d e d', s7_step P d e d' -> e_op e = OpX SerialLock -> e_out e = DBool true -> ~ awaiting r7_ok d.
Proof. intros P d e d' Hs Eo Ee. apply (s7_lock P d e d' Hs Eo Ee). Qed.
Theorem C46_sim7_unlocked : forall P d e d', s7_step P d e d' -> raw_access e -> fLock (fl d) = false ->
  (e_out e = DCount 0 \/ e_out e = DData [] 0) /\ taken (e_ev e) = [] /\ put (e_ev e) = [] /\ d' = set_io (io d') d.
Proof. exact s7_unlocked_raw. Qed.
Example C46_sim7_case : s7_then ([call (OpSerialWrite (PStr (bs "x"))); call (OpX SerialLock); call (OpSerialWrite (PStr (bs "y")))] ++ [call OpRequestRSSI] ++
    dialog [crlf (bs "abc")] ++ [call (OpSerialRead 9); call (OpX SerialUnlock); call (OpSerialWrite (PStr (bs "z")))] ++ runs_ 1) =
  Ok ([DCount 0; DBool true; DCount 1; DData (crlf (bs "abc")) 5; DCount 0], ["y"; "AT+CSQ"]%string).
Proof. vm_compute. reflexivity. Qed.

(** ** C47: commands and replies stay paired *)
Theorem C47_sim7_paired : forall P d0 tr d, s7_built d0 -> s7_hist P d0 tr d -> s7_awaited tr <> None.
Proof. intros P d0 tr d HB Hh E. destruct (s7_pair_history P d0 tr d (s7_built_fresh _ HB) Hh) as [_ (w & H & _)]. congruence. Qed.
(** The waiting may also end by a close notice; then the late reply to the
    first command is taken for the reply to the second. *)
Theorem C47_sim7_close_refuted : s7_then ([call OpRequestRSSI] ++ runs_ 1 ++ [call (OpX (RequestID idImei))] ++
     dialog [crlf (bs "+CSQ: 31,99"); crlf (bs "+IPCLOSE: 0,1"); crlf (bs "OK")] ++ [call (OpX GetID)]) =
  Ok ([DStr (Some (bs "OK"))], ["AT+CSQ"; "AT+CGSN"]%string).
Proof. vm_compute. reflexivity. Qed.

(** ** C48: the state diagram *)
Theorem C48_sim7_edges : forall P d e d', s7_step P d e d' ->
  match e_op e with
  | OpRun oo =>
      (isopen d = false /\ sst d' = (if oo then sst d else S7SerialError)) \/
      (fLock (fl d) = true /\ sst d' = sst d) \/
      (fReset (fl d) = true /\ sst d' = s7_reset_state (sst d)) \/
      (isopen d = true /\ fLock (fl d) = false /\ fReset (fl d) = false /\
       exists s, (s = sst d \/ In (sst d, s) (s7_diagram ++ s7_retry ++ s7_revival)) /\
                 (sst d' = s \/ In (s, sst d') (s7_diagram ++ s7_undocumented)))
  | OpResetStates => sst d' = S7NotConnected
  | _ => sst d' = sst d
  end.
Proof. exact s7_edges. Qed.
(** The transition the diagram lacks does occur. *)
Theorem C48_sim7_undocumented : ~ In (S7SendNetopen, S7FinalizeDisconnect) s7_diagram /\
  s7_end sst (s7_start ++ firstn 6 s7_until_dns ++ [call OpDisconnect]) = Ok S7SendNetopen /\
  s7_end sst (s7_start ++ firstn 6 s7_until_dns ++ [call OpDisconnect] ++ dialog [crlf (bs "OK")]) = Ok S7FinalizeDisconnect.
Proof.
  split; [|split; vm_compute; reflexivity].
  unfold s7_diagram. cbn [In]. intro H. repeat destruct H as [H|H]; try discriminate. exact H.
Qed.

(** ** C49: the commands *)
Theorem C49_sim7_commands : forall P d0 tr d e d' cmd q, s7_built d0 -> s7_hist P d0 tr d -> s7_step P d e d' -> In (aCommand cmd q) (e_acts e) ->
  (cmd = bs "AT+CSQ" ++ [CR; LF] \/
   (exists t c, id_command s7_iccid_command t = Some c /\ cmd = c ++ [CR; LF]) \/
   (exists s ipb c, s7_command s (apn (ext d)) (host d) ipb (typ d) (port d) = Some c /\ cmd = c ++ [CR; LF]) \/
   (exists n, (0 <= n <= 1500)%Z /\ cmd = bs "AT+CIPRXGET=2,0," ++ dec n ++ [CR; LF])) /\
  (txav (io d) + length cmd <= txsz (io d) -> q = cmd).
Proof.
  intros P d0 tr d e d' cmd q HB Hh Hs Hin. pose proof (s7_maxrx P d0 tr d HB Hh) as Hm.
  destruct (s7_commands P d e d' cmd q Hs Hin) as (K & _ & F). split; [|exact F].
  destruct K as [K|[K|[K|(n & K1 & _ & K2)]]]; auto. right. right. right. exists n. split; [lia|exact K2].
Qed.
(** A command longer than the space left is cut, although 20 bytes were free. *)
Definition s7_stalled (s : bytes) : dop simop * list (list isr) := (OpIdle, [map (fun c => Transfer (Some c) false) s]).
Theorem C49_sim7_cut_refuted : s7_seen (firstn 4 s7_start ++ s7_fill 100 ++ runs_ 1 ++ [s7_stalled (crlf (bs "OK"))] ++ runs_ 1) =
  Ok ([DBool true; DBool true; DCount 100], [string_of_list_ascii (repeat "x"%char 100); "ATE0"; "AT+CGSOCKCONT=1,""IP"","""]%string).
Proof. vm_compute. reflexivity. Qed.

(** ** C50: connected only when confirmed *)
Theorem C50_sim7_confirmed : forall P d0 tr d, s7_built d0 -> s7_hist P d0 tr d -> ip_is_connected d = true -> s7_confirmed tr = true.
Proof. exact s7_connected_confirmed. Qed.
Example C50_sim7_case : s7_seen (s7_start ++ s7_until_dns ++ dialog [s7_dns_line (bs "1.2.3.4"); crlf (bs "OK")] ++ [call OpIsConnected] ++
   dialog [crlf (bs "+CIPOPEN: 0,4")] ++ runs_ 2 ++ [call OpIsConnected]) =
  match s7_seen s7_connected with Ok (_, b) => Ok ([DBool true; DBool false; DBool false], b ++ ["AT+CRESET"%string]) | UB u => UB u end.
Proof. vm_compute. reflexivity. Qed.

(** ** C56: a failed opening of the serial port *)
Theorem C56_sim7_refuted : forall P d0 e d1 tr d, s7_built d0 -> isopen d0 = false -> s7_step P d0 e d1 -> e_op e = OpRun false ->
  s7_hist P d1 tr d -> Forall (fun e => ~ s7_rescue e) tr ->
  sst d = S7SerialError /\ ip_is_connected d = false /\ Forall (fun e => raw_access e \/ put (e_ev e) = []) tr.
Proof. exact s7_failed_open. Qed.
Definition s7_ex_closed : res dv := s7_new ser64 false (repeat NUL 32) (repeat NUL 32) (repeat NUL 61) (repeat NUL 16) (repeat NUL 24) 1%Z.
Example C56_sim7_case : seen (s7_driver PA) s7_ex_closed ([call (OpRun false)] ++ s7_start ++ s7_until_dns ++ [call OpIsConnected]) =
    Ok ([DBool true; DBool false], []) /\
  seen (s7_driver PA) s7_ex_closed (runs_ 1 ++ s7_connected ++ [call OpIsConnected]) = s7_seen (s7_connected ++ [call OpIsConnected]).
Proof. split; vm_compute; reflexivity. Qed.

(** ** C57: the peer closes *)
Theorem C57_sim7_refuted : forall P d tr d', s7_hist P d tr d' -> s7_rests d -> Forall s7_leaves tr ->
  ip_is_connected d' = true /\ Forall silent tr.
Proof. exact s7_peer_close. Qed.
Example C57_sim7_case :
  s7_then (dialog [crlf (bs "+IPCLOSE: 0,1")] ++ runs_ 5 ++ [call OpIsConnected]) = Ok ([DBool true], []) /\
  s7_end (fun d => (sst d, cst d, wait d, rst d)) s7_connected = Ok (S7Connected, csConnected, None, R7Ok).
Proof. split; vm_compute; reflexivity. Qed.

(** ** C69: SSL *)
Theorem C69_sim7_refuted : forall P d0 tr d e d' cmd q, s7_built d0 -> s7_hist P d0 tr d -> s7_step P d e d' ->
  In (aCommand cmd q) (e_acts e) -> prefixb (bs "AT+CIPOPEN=") cmd = true -> typ d = SSL ->
  prefixb (bs "AT+CIPOPEN=0," ++ quoted (bs "TCP") ++ bs ",") cmd = true.
Proof.
  intros P d0 tr d e d' cmd q HB Hh Hs Hin Hp Ht.
  destruct (C36_sim7_open P d0 tr d e d' cmd q HB Hh Hs Hin Hp) as (a & _ & ->); [rewrite Ht; discriminate|].
  apply prefixb_spec. eexists. unfold quoted. rewrite <- !app_assoc. reflexivity.
Qed.

(** ** Assumptions *)
Print Assumptions C51_sim7_safe.
Print Assumptions C51_sim7_histories.
Print Assumptions C51_sim7_actions.
Print Assumptions C37_sim7_refuted.
Print Assumptions C36_sim7_open.
Print Assumptions C36_reply.
Print Assumptions C38_sim7_refuted.
Print Assumptions C32_sim7_not_before_reply.
Print Assumptions C32_sim7_unsent.
Print Assumptions C32_sim7_refuted.
Print Assumptions C33_sim7_kept.
Print Assumptions C33_sim7_idle.
Print Assumptions C33_sim7_refuted.
Print Assumptions C34_sim7_line_buffer.
Print Assumptions C35_sim7_lines.
Print Assumptions C39_sim7_rssi.
Print Assumptions C39_conversion.
Print Assumptions C39_reply.
Print Assumptions C40_sim7_id.
Print Assumptions C41_sim7_bounded.
Print Assumptions C42_sim7_refuted.
Print Assumptions C59_sim7_rssi.
Print Assumptions C59_sim7_request.
Print Assumptions C43_sim7_request.
Print Assumptions C43_sim7_interrupt_refuted.
Print Assumptions C54_sim7_received.
Print Assumptions C55_sim7_overrun_refuted.
Print Assumptions C55_sim7_starve_refuted.
Print Assumptions C44_sim7_payload.
Print Assumptions C45_sim7_announce.
Print Assumptions C45_sim7_zero_refuted.
Print Assumptions C53_sim7_sent.
Print Assumptions C53_sim7_interrupt_refuted.
Print Assumptions C46_sim7_locked.
Print Assumptions C46_sim7_quiet.
Print Assumptions C46_sim7_unlocked.
Print Assumptions C47_sim7_paired.
Print Assumptions C47_sim7_close_refuted.
Print Assumptions C48_sim7_edges.
Print Assumptions C48_sim7_undocumented.
Print Assumptions C49_sim7_commands.
Print Assumptions C49_sim7_cut_refuted.
Print Assumptions C50_sim7_confirmed.
Print Assumptions C56_sim7_refuted.
Print Assumptions C57_sim7_refuted.
Print Assumptions C69_sim7_refuted.
