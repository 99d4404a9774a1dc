(** The SIM800 driver: what is proved of C32-C57, C59 and C69 for it.

    [s8_built d0]: [d0] is a driver as the constructor leaves it.  [s8_hist P d0
    tr d]: the calls [tr], with interrupts at any point, lead from [d0] to [d];
    by [C51_sim8_histories] every sequence of valid calls that does not end in
    undefined behaviour is such a history.  The entries of [tr] say what call was
    made, what it returned, which serial events it caused and, for run(), how the
    bytes moved belong together (actions); the bytes of the actions are the bytes
    moved ([C51_sim8_actions]). *)
From Coq Require Import String Ascii ZArith List Bool Arith Lia ZifyBool ZifyNat.
From Verif Require Import Base QueueSpec LineSpec SerialSpec Ring RingProofs LineRing LineRingProofs Serial SerialProofs
  SerStep TaskMacros CStr CStrProofs Dev DevProofs SimDev SimProofs SimSpec SimParse Sym DrvStep DrvCommon DrvRun DrvHist DrvActs DrvStuck DrvRecv SimLog
  Sim800 Sim8Spec Sim8Proofs Sim8Ctl Sim8CtlIn Sim8Hist Sim8Thms Sim8More Sim8Line Sim8Req Sim8Rest Sim8Stuck Sim8Ack Sim8Recv Session Sim7Props.
Import ListNotations.
Local Open Scope nat_scope.
Local Notation dv := (dev s8send s8reply simx).
Local Notation ent := (@entry simop).

(** ** The sessions of the examples *)
Definition s8_ex : res dv := s8_new ser64 true (repeat NUL 32) (repeat NUL 32) (repeat NUL 61) (repeat NUL 16) (repeat NUL 24) 1%Z.
Definition s8_start : @script simop :=
  [call (OpX (SetApn (PStr (bs "net")))); call (OpSetHostPort (PStr (bs "host")) 80%Z 1%Z); call OpConnect; call (OpRun true); call (OpRun true)].
Definition s8_dns_line (a : bytes) : bytes := dns_reply (bs "host") a [CR; LF].
Definition s8_until_dns : @script simop :=
  dialog [crlf (bs "OK"); crlf (bs "OK"); crlf (bs "OK"); crlf (bs "OK"); crlf (bs "OK"); crlf (bs "10.0.0.1")].
Definition s8_from_dns : @script simop := dialog [s8_dns_line (bs "1.2.3.4"); crlf (bs "OK"); crlf (bs "0, CONNECT OK")].
Definition s8_connected : @script simop := s8_start ++ s8_until_dns ++ s8_from_dns ++ runs_ 1.
Definition s8_seen (h : @script simop) := seen (s8_driver PA) s8_ex h.
(** The same after the connection was opened. *)
Definition s8_then (h : @script simop) : res (list dobs * list string) :=
  match s8_seen (s8_connected ++ h) with Ok (a, b) => Ok (skipn 1 a, skipn 8 b) | UB u => UB u end.
Definition s8_end {A} (f : dv -> A) (h : @script simop) : res A := ends (s8_driver PA) f s8_ex h.

Example s8_ex_built : exists d, s8_ex = Ok d /\ s8_built d.
Proof.
  assert (W : serial_wf ser64).
  { repeat split; cbn; try lia; intro; discriminate. }
  destruct (s8_new_ok ser64 true (repeat NUL 32) (repeat NUL 32) (repeat NUL 61) (repeat NUL 16) (repeat NUL 24) 1%Z) as (d & E & _);
    try exact W; try discriminate; try (unfold fits; cbn; lia); try reflexivity.
  exists d. split; [exact E|]. unfold s8_built. do 8 eexists. repeat (split; [shelve|]). exact E.
  Unshelve. all: try exact W; try discriminate; try (unfold fits; cbn; lia); try reflexivity.
Qed.

(** The whole opening dialogue: the commands and the final state. *)
Example s8_session : s8_seen (s8_connected ++ [call OpIsConnected]) =
  Ok ([DBool true; DBool true],
      ["ATE0"; "AT+CIPRXGET=1"; "AT+CIPMUX=1"; "AT+CSTT=""net"""; "AT+CIICR"; "AT+CIFSR";
       "AT+CDNSGIP=""host"""; "AT+CIPSTART=0,""TCP"",""1.2.3.4"",80"])%string.
Proof. vm_compute. reflexivity. Qed.

(** ** C51: memory safety *)

(** Undefined behaviour is reached only by run() on a DNS reply whose address
    has more than 15 characters. *)
Theorem C51_sim8_safe : forall P d0 h u, s8_built d0 -> s8_valid h -> d_run (s8_driver P) d0 h = UB u ->
  exists h1 oo sch h2 d1 outs, h = h1 ++ (OpRun oo, sch) :: h2 /\ d_run (s8_driver P) d0 h1 = Ok (d1, outs) /\
    s8_dns_overflow (during sch d1).
Proof. exact s8_safe. Qed.

Theorem C51_sim8_histories : forall P d0 h d outs, s8_built d0 -> s8_valid h -> d_run (s8_driver P) d0 h = Ok (d, outs) ->
  exists tr, s8_hist P d0 tr d /\ map (fun e => (e_op e, e_sch e)) tr = h /\ map (fun e => (e_out e, e_ev e)) tr = outs.
Proof. exact s8_every_run. Qed.

Theorem C51_sim8_actions : forall P d e d' oo, s8_step P d e d' -> e_op e = OpRun oo ->
  taken (e_ev e) = concat (map act_taken (e_acts e)) /\ put (e_ev e) = concat (map act_put (e_acts e)).
Proof. intros P d e d' oo (_ & _ & _ & _ & _ & _ & H & _) E. rewrite E in H. exact H. Qed.

(** ** C37: the overflow *)
Definition s8_long_address : @script simop := s8_start ++ s8_until_dns ++ dialog [s8_dns_line (bs "2001:db8:85a3::1")].
Theorem C37_sim8_refuted : s8_seen s8_long_address = UB OutOfBounds.
Proof. vm_compute. reflexivity. Qed.
(** With one character less it is accepted. *)
Example C37_sim8_fits : s8_end (fun d => str_body (ip (ext d))) (s8_start ++ s8_until_dns ++ dialog [s8_dns_line (bs "255.255.255.255")])
  = Ok (bs "255.255.255.255").
Proof. vm_compute. reflexivity. Qed.

(** ** C36: the resolved address *)
Theorem C36_sim8_open : forall P d0 tr d e d' cmd q, s8_built d0 -> s8_hist P d0 tr d -> s8_step P d e d' ->
  In (aCommand cmd q) (e_acts e) -> prefixb (bs "AT+CIPSTART=") cmd = true ->
  exists a, fst (dns_log (tr ++ [e])) = Some a /\
    cmd = bs "AT+CIPSTART=0," ++ quoted (if (typ d =? UDP)%Z then bs "UDP" else bs "TCP") ++ bs "," ++ quoted a ++ bs "," ++ dec (port d) ++ [CR; LF].
Proof.
  intros P d0 tr d e d' cmd q HB Hh Hs Hin Hp. apply (s8_open_address P d0 tr d e d' cmd q); auto.
  eapply hist_app; [exact Hh|econstructor; [exact Hs|constructor]].
Qed.
Example C36_sim8_case : s8_end (fun d => (str_body (ip (ext d)), typ d)) (s8_start ++ [call (OpSetHostPort (PStr (bs "host")) 7%Z UDP)] ++ s8_until_dns ++ s8_from_dns) =
  Ok (bs "1.2.3.4", UDP).
Proof. vm_compute. reflexivity. Qed.

(** ** C38: no recovery from a malformed DNS reply *)
Theorem C38_sim8_refuted : forall P d tr d', s8_hist P d tr d' -> s8_unresolved d -> Forall s8_no_answer tr ->
  s8_unresolved d' /\ Forall silent tr.
Proof. exact s8_dns_wedge. Qed.
(** Such a state is reached by an answer with fewer than four quotes. *)
Example C38_sim8_case : s8_end (fun d => (isopen d, fReset (fl d), rst d, wait d, dns_okb (crlf (bs "+CDNSGIP: 1,1.2.3.4"))))
    (s8_start ++ s8_until_dns ++ dialog [crlf (bs "+CDNSGIP: 1,1.2.3.4"); crlf (bs "OK")]) =
  Ok (true, false, R8Cdnsgip, None, false).
Proof. vm_compute. reflexivity. Qed.

(** ** C32: writeBufferProcessed() *)

(** From the announcement of a block until the reply to it, it is false. *)
Theorem C32_sim8_not_before_reply : forall P d0 tr d, s8_built d0 -> s8_hist P d0 tr d -> tx_log s8_acks s8_nacks tr <> txNone ->
  ip_write_buffer_processed d = false.
Proof.
  intros P d0 tr d HB Hh Ht. pose proof (s8_tx_history P d0 tr d (s8_built_fresh _ HB) Hh) as H.
  unfold ip_write_buffer_processed. destruct (tx_log s8_acks s8_nacks tr); [contradiction Ht; reflexivity| |]; destruct H as [-> _]; apply andb_false_r.
Qed.
(** Nor while there are accepted bytes that were not handed to the modem (see
    also C53). *)
Theorem C32_sim8_unsent : forall d : dv, ring_ok (wbuf d) -> contents (wbuf d) <> [] -> ip_write_buffer_processed d = false.
Proof.
  intros d Hok H. unfold ip_write_buffer_processed. destruct (avail (wbuf d)) eqn:E; [|reflexivity].
  contradiction H. unfold contents. rewrite E. reflexivity.
Qed.
Definition s8_hello : @script simop := [call (OpWrite (bs "hello") 5)] ++ runs_ 1 ++ dialog [bs ">"].
Example C32_sim8_case : s8_then (s8_hello ++ [call OpWriteBufferProcessed] ++ dialog [crlf (bs "0, SEND OK")] ++ [call OpWriteBufferProcessed]) =
  Ok ([DCount 5; DBool false; DBool true], ["AT+CIPSEND=0,5"; "hello"])%string.
Proof. vm_compute. reflexivity. Qed.
(** An error reply also makes it true. *)
Theorem C32_sim8_refuted : s8_then (s8_hello ++ [call OpWriteBufferProcessed] ++ dialog [crlf (bs "ERROR")] ++ [call OpWriteBufferProcessed]) =
  Ok ([DCount 5; DBool false; DBool true], ["AT+CIPSEND=0,5"; "hello"])%string.
Proof. vm_compute. reflexivity. Qed.

(** ** C33: disconnect() *)
Theorem C33_sim8_kept : forall P d e d', s8_step P d e d' -> fDisc (fl d) = true ->
  fDisc (fl d') = true \/ sst d' = S8SendCipclose \/ sst d' = S8SendCipshut \/ sst d' = S8FinalizeDisconnect \/ e_op e = OpResetStates.
Proof. exact s8_disc_kept. Qed.
Theorem C33_sim8_idle : forall P d e d', s8_step P d e d' -> e_op e = OpDisconnect ->
  fDisc (fl d') = (if ip_is_idle d then fDisc (fl d) else true) /\ fConnect (fl d') = fConnect (fl d) /\ sst d' = sst d.
Proof. exact s8_disc_idle. Qed.
(** Called right after connect(), it is ignored. *)
Theorem C33_sim8_refuted :
  s8_seen (firstn 3 s8_start ++ [call OpDisconnect] ++ skipn 3 s8_start ++ s8_until_dns ++ s8_from_dns ++ runs_ 1 ++ [call OpIsConnected]) =
  s8_seen (s8_connected ++ [call OpIsConnected]).
Proof. vm_compute. reflexivity. Qed.

(** ** C34, C35: reply lines *)
Theorem C34_sim8_line_buffer : forall P d0 tr d, s8_built d0 -> s8_hist P d0 tr d -> length (lbuf d) = 61 /\ lbfill d < 60.
Proof.
  intros P d0 tr d HB Hh. assert (HI : s8_all d) by (apply (hist_inv _ _ _ _ _ _ _ Hh), (s8_built_fresh _ HB)).
  destruct HI as (((_ & _ & _ & _ & _ & _ & _ & _ & Hl & _) & _) & _). unfold line_ok in Hl. destruct Hl as (H1 & H2 & _). split; lia.
Qed.
Theorem C35_sim8_lines : forall P d0 tr d, s8_built d0 -> s8_hist P d0 tr d ->
  fst (fold_left line_log tr ([], [])) = concat (snd (fold_left line_log tr ([], []))) ++ pending d /\
  Forall whole_line (snd (fold_left line_log tr ([], []))) /\ partial_line (pending d).
Proof.
  intros P d0 tr d HB Hh. pose proof (s8_built_fresh _ HB) as HF.
  destruct (line_history _ _ _ _ _ (s8_contract P) whole_line (fun _ _ H => H) d0 tr d Hh) as [A B]; [apply HF|]. split; [exact A|]. split; [exact B|].
  assert (HI : s8_all d) by (apply (hist_inv _ _ _ _ _ _ _ Hh), HF).
  destruct HI as (((_ & _ & _ & _ & _ & _ & _ & _ & Hl & _) & _) & _). unfold line_ok in Hl. apply Hl.
Qed.
(** A line in three pieces over five calls. *)
Example C35_sim8_case : s8_end (fun d => (lbfill d, rssi d))
   ([call OpRequestRSSI] ++ runs_ 1 ++ dialog [bs "+CS"; bs "Q: 2"; []] ) = Ok (7, INT16_MAX) /\
  s8_end (fun d => (lbfill d, rssi d)) ([call OpRequestRSSI] ++ runs_ 1 ++ dialog [bs "+CS"; bs "Q: 2"; []; crlf (bs "0,0")]) = Ok (0, (-73)%Z).
Proof. split; vm_compute; reflexivity. Qed.

(** ** C39: signal strength *)
Theorem C39_sim8_rssi : forall P d0 tr d e d' n, s8_built d0 -> s8_hist P d0 tr d -> s8_step P d e d' -> e_op e = OpGetRSSI -> e_out e = DNum n ->
  rl_stray (rssi8_log P tr) = false -> n = rl_value (rssi8_log P tr).
Proof.
  intros P d0 tr d e d' n HB Hh Hs Eo Ee Hr. destruct (s8_rssi_history P d0 tr d (s8_built_fresh _ HB) Hh) as [_ K]. destruct (K Hr) as [<- _].
  destruct (s8_cases P d e d' Hs) as (d1 & _ & _ & [(oo & E & _)|(_ & _ & _ & Hc)]); [congruence|].
  rewrite Eo, Ee in Hc. destruct Hc as [_ Hc]. injection Hc as <- _. reflexivity.
Qed.
(** A line in between that is neither a reply nor an echo ends the wait: the
    value that follows is missed and the query repeated. *)
Theorem C39_sim8_refuted :
  s8_seen ([call OpRequestRSSI] ++ runs_ 1 ++ dialog [crlf (bs "RING"); crlf (bs "+CSQ: 31,99"); crlf (bs "OK")] ++ [call OpGetRSSI] ++ runs_ 1) =
  Ok ([DNum 32767], ["AT+CSQ"; "AT+CSQ"]%string).
Proof. vm_compute. reflexivity. Qed.
Example C39_sim8_case : s8_seen ([call OpGetRSSI; call OpRequestRSSI; call OpGetRSSI] ++ runs_ 1 ++ dialog [crlf (bs "+CSQ: 31,99")] ++ [call OpGetRSSI]) =
  Ok ([DNum 99; DNum 32767; DNum (-51)], ["AT+CSQ"%string]).
Proof. vm_compute. reflexivity. Qed.

(** ** C40, C41, C42, C59: identification *)
Theorem C40_sim8_id : forall P d0 tr d e d' s, s8_built d0 -> s8_hist P d0 tr d -> s8_step P d e d' ->
  e_op e = OpX GetID -> e_out e = DStr (Some s) -> il_nul (snd (id8_log tr)) = false ->
  exists t L x, il_req (snd (id8_log tr)) = Some t /\ In L (il_lines (snd (id8_log tr))) /\ id_reply L = Some x /\
    (t = idIccid -> iccid (leading_digits x)) /\ s = firstn 23 (upto CR x).
Proof. exact s8_id_answer. Qed.
Theorem C41_sim8_bounded : forall P d0 tr d e d' s, s8_built d0 -> s8_hist P d0 tr d -> s8_step P d e d' ->
  e_op e = OpX GetID -> e_out e = DStr (Some s) -> il_nul (snd (id8_log tr)) = false -> length s <= 23 /\ length (idbuf (ext d)) = 24.
Proof.
  intros P d0 tr d e d' s HB Hh Hs Eo Ee Hn. destruct (s8_id_answer P d0 tr d e d' s HB Hh Hs Eo Ee Hn) as (t & L & x & _ & _ & _ & _ & ->).
  split; [rewrite firstn_length; lia|]. assert (HI : s8_all d) by (apply Hs). apply HI.
Qed.
Definition s8_ask_id (t : idtype) (l : list bytes) : @script simop := [call (OpX (RequestID t))] ++ runs_ 1 ++ dialog l ++ [call (OpX GetID)].
Example C40_sim8_case : s8_seen (s8_ask_id idIccid [crlf (bs "+ICCID: 89490200001234567899"); crlf (bs "OK")]) =
  Ok ([DStr None], ["AT+CCID"%string]) /\
  s8_seen (s8_ask_id idIccid [crlf (bs "+ICCID: 89490200001234567892"); crlf (bs "OK")]) =
  Ok ([DStr (Some (bs "89490200001234567892"))], ["AT+CCID"%string]).
Proof. split; vm_compute; reflexivity. Qed.
(** The reply to the first of two requests is returned for the second. *)
Theorem C42_sim8_refuted :
  s8_seen ([call (OpX (RequestID idImei))] ++ runs_ 1 ++ [call (OpX (RequestID idImsi))] ++ dialog [crlf (bs "490154203237518"); crlf (bs "OK")] ++
           [call (OpX GetID)]) =
  Ok ([DStr (Some (bs "490154203237518"))], ["AT+CGSN"%string]).
Proof. vm_compute. reflexivity. Qed.
(** A line read while the answer to AT+CSQ is expected may replace the stored
    identification. *)
Theorem C59_sim8_refuted : forall P d ret d' L s, s8_handles P d ret d' L -> rst d = R8Csq -> s8_refused L = false ->
  id_reply L = Some s -> nulfree s = true -> nth_error (idbuf (ext d)) 2 <> Some (id_code idIccid) ->
  rst d' = R8Ok /\ str_body (idbuf (ext d')) = firstn 23 (upto CR s).
Proof.
  intros P d ret d' L s H E Hf Hi Hn Ht. apply s8_line_effect in H. unfold s8_effect in H. rewrite E, Hf in H. destruct H as (_ & b & Hb & Hr).
  destruct b; [|exfalso; destruct Hb as [Hb _]; apply (Hb s); split; [exact Hi|intro K; contradiction]].
  split; [exact Hr|]. destruct Hb as (s' & r & (Hi' & _) & ->). assert (s' = s) by congruence. subst s'. cbn [idbuf set_idbuf].
  rewrite stored_text, cbody_free by (apply nulfree_ok; exact Hn). reflexivity.
Qed.
Theorem C59_sim8_request : forall P d e d', s8_step P d e d' -> e_op e = OpRequestRSSI \/ e_op e = OpGetRSSI -> ext d' = ext d.
Proof.
  intros P d e d' Hs Ho. destruct (s8_cases P d e d' Hs) as (d1 & E & _ & [(oo & Eo & _)|(_ & _ & _ & Hc)]); [destruct Ho; congruence|].
  rewrite E. destruct Ho as [Eo|Eo]; rewrite Eo in Hc; destruct Hc as [_ Hc]; injection Hc as _ <-; reflexivity.
Qed.
Theorem C59_sim8_session : s8_seen (s8_ask_id idImei [crlf (bs "490154203237518"); crlf (bs "OK")] ++ [call OpRequestRSSI] ++ runs_ 1 ++
     dialog [crlf (bs "hello"); crlf (bs "+CSQ: 31,99"); crlf (bs "OK"); crlf (bs "+CSQ: 31,99"); crlf (bs "OK")] ++ [call (OpX GetID)]) =
  Ok ([DStr (Some (bs "490154203237518")); DStr (Some (bs "hello"))], ["AT+CGSN"; "AT+CSQ"; "AT+CSQ"]%string).
Proof. vm_compute. reflexivity. Qed.

(** ** C43, C54, C55: receiving *)
Theorem C43_sim8_request : forall P d0 tr d e d' cmd q, s8_built d0 -> s8_hist P d0 tr d -> s8_step P d e d' ->
  In (aCommand cmd q) (e_acts e) -> prefixb (bs "AT+CIPRXGET=2,0,") cmd = true ->
  exists n, cmd = bs "AT+CIPRXGET=2,0," ++ dec n ++ [CR; LF] /\ (0 <= n <= 1460)%Z /\
    (n <= Z.of_nat (ring_space (rbuf d)))%Z /\ (n <= rx_waiting (rx_log P (tr ++ [e])))%Z /\
    (e_sch e = [] -> (0 < n)%Z /\ (n + 8 + Z.of_nat (rxav (io d)) <= Z.of_nat (rxsz (io d)) + Z.of_nat (length (taken (e_ev e))))%Z).
Proof. exact s8_request. Qed.
Definition s8_notice (n : bytes) : @script simop :=
  dialog [crlf (bs "+CIPRXGET: 1,0")] ++ runs_ 1 ++ dialog [crlf (bs "+CIPRXGET: 4,0," ++ n)].
Example C43_sim8_case : s8_then (s8_notice (bs "50") ++ dialog [crlf (bs "OK")]) = Ok ([], ["AT+CIPRXGET=4,0"; "AT+CIPRXGET=2,0,32"]%string).
Proof. vm_compute. reflexivity. Qed.
(** Under interrupts the request may even be for 0 bytes. *)
Definition s8_rx_race (k : nat) : @script simop :=
  s8_notice (bs "5") ++ [modem (crlf (bs "OK"))] ++ [(OpRun true, repeat [] k ++ [map (fun c => Transfer (Some c) true) (repeat "x"%char 120)])].
Theorem C43_sim8_interrupt_refuted : exists k, s8_then (s8_rx_race k) = Ok ([], ["AT+CIPRXGET=4,0"; "AT+CIPRXGET=2,0,0"]%string).
Proof. exists 10. vm_compute. reflexivity. Qed.

Theorem C54_sim8_received : forall P d0 tr d, s8_built d0 -> s8_hist P d0 tr d ->
  let acc := r_log (rx_req P) (rx_rep P) tr in
  r_ok acc = true -> r_in acc = r_out acc ++ contents (rbuf d).
Proof. intros P d0 tr d HB Hh acc H. apply (s8_received P d0 tr d (s8_built_fresh _ HB) Hh H). Qed.
Definition s8_receive (m : bytes) (data : bytes) : @script simop :=
  s8_notice (bs "5") ++ dialog [crlf (bs "OK"); crlf (bs "+CIPRXGET: 2,0," ++ m); data] ++ runs_ 1.
Example C54_sim8_case : s8_then (s8_receive (bs "5") (bs "world") ++ [call OpBytesAvailable; call (OpRead 40)]) =
  Ok ([DCount 5; DData (bs "world") 5], ["AT+CIPRXGET=4,0"; "AT+CIPRXGET=2,0,5"]%string).
Proof. vm_compute. reflexivity. Qed.
(** What happens otherwise: data is lost, or the driver waits for ever. *)
Theorem C55_sim8_overrun_refuted :
  s8_then (s8_receive (bs "40") (bs "abcdefghij" ++ repeat "x"%char 30) ++ [call OpBytesAvailable; call (OpRead 40)]) =
  Ok ([DCount 32; DData (repeat "x"%char 8 ++ bs "ij" ++ repeat "x"%char 22) 32], ["AT+CIPRXGET=4,0"; "AT+CIPRXGET=2,0,5"]%string).
Proof. vm_compute. reflexivity. Qed.
Theorem C55_sim8_starve_refuted : forall P d tr d', s8_hist P d tr d' -> s8_starves (rxsz (io d)) d -> Forall (fun e => ~ s8_helps e) tr ->
  s8_starves (rxsz (io d)) d' /\ Forall silent tr.
Proof. exact s8_starve. Qed.
Example C55_sim8_case : s8_end (fun d => (sst d, rst d, wait d, fLine (fl d), toRead d)) (s8_connected ++ s8_receive (bs "-1") []) =
  Ok (S8Receiving, R8Ok, None, false, 18446744073709551615%Z).
Proof. vm_compute. reflexivity. Qed.

(** ** C44, C45, C53: sending *)
Theorem C44_sim8_payload : forall P d0 tr d e d' q, s8_built d0 -> s8_hist P d0 tr d -> s8_step P d e d' -> In (aPayload q) (e_acts e) ->
  exists n, fold_left announce_log tr None = Some n /\ length q <= Z.to_nat n /\ (clean (e_ev e) -> length q = Z.to_nat n).
Proof.
  intros P d0 tr d e d' q HB Hh Hs Hin.
  destruct (payload_announced _ _ _ _ _ (s8_contract P) eq_refl d0 tr d e d' q Hh) as (n & A & _ & B); auto.
  - pose proof (s8_built_fresh _ HB) as HF. destruct HF as (_ & _ & -> & _). reflexivity.
  - exists n. auto.
Qed.
(** The announced number without interrupts, and in general. *)
Theorem C45_sim8_announce : forall P d e d' n q, s8_step P d e d' -> In (aAnnounce n q) (e_acts e) ->
  0 < avail (wbuf d) /\ (0 <= n <= Z.of_nat (txsz (io d)) - 22)%Z /\
  (e_sch e = [] -> exists k, k <= txav (io d) /\ n = Z.min (Z.of_nat (avail (wbuf d))) (Z.of_nat (txsz (io d)) - Z.of_nat k - 22)).
Proof.
  intros P d e d' n q Hs Hin.
  destruct (s8_sent P d e d' _ Hs Hin eq_refl) as (l & dp & a & dm & d1 & r & Ea & Hp & Hl & Hx & Ho & Hox & Hd' & Hk & _ & Hmx & (evx & Hev) & Htx).
  assert (Hw : wbuf dm = wbuf d) by (destruct Hk as (_ & _ & Hk & _); exact Hk).
  assert (Hsz : txsz (io dm) = txsz (io d)) by (apply sstep_caps in Hev; destruct d; apply Hev).
  inversion Ho as [| |y n' q' Aw Io1 Io2 Hlen Hfull Hk1 Hk2 Hav Htw H0 Hsp Hsch| |]; subst n' q'.
  assert (txsz y = txsz (io dm)) by (destruct (ioeff_caps _ _ _ _ Io1); assumption).
  rewrite <- Hw. split; [exact Hav|]. split; [lia|]. intro Es. exists (txav (io dm)). split; [exact Htx|].
  assert (Hsd : sched (io dm) = []).
  { destruct Hev as (_ & _ & _ & _ & _ & _ & Hev). apply Hev. rewrite Es. destruct d; reflexivity. }
  rewrite <- Hsz. apply Hsch, Hsd.
Qed.
(** A serial write buffer of 22 bytes makes every announcement one of 0 bytes. *)
Theorem C45_sim8_zero_refuted : forall P d e d' n q, s8_step P d e d' -> In (aAnnounce n q) (e_acts e) -> txsz (io d) = 22 -> n = 0%Z.
Proof. intros P d e d' n q Hs Hin E. destruct (C45_sim8_announce P d e d' n q Hs Hin) as (_ & H & _). rewrite E in H. lia. Qed.
Definition s8_fill (n : nat) : @script simop := [call (OpX SerialLock); call (OpSerialWrite (PStr (repeat "x"%char n))); call (OpX SerialUnlock)].
Example C45_sim8_zero_case : s8_then ([call (OpWrite (bs "hello") 5)] ++ s8_fill 106 ++ runs_ 1) =
  Ok ([DCount 5; DBool true; DCount 106], [string_of_list_ascii (repeat "x"%char 106); "AT+CIPSEND=0,0"]%string).
Proof. vm_compute. reflexivity. Qed.

Theorem C53_sim8_sent : forall P d0 tr d, s8_built d0 -> s8_hist P d0 tr d ->
  Forall (fun e => clean (e_ev e) /\ (announces (e_acts e) = true -> e_sch e = [])) tr ->
  fst (fold_left write_log tr ([], [])) = snd (fold_left write_log tr ([], [])) ++ contents (wbuf d).
Proof.
  intros P d0 tr d HB Hh HQ. pose proof (s8_built_fresh _ HB) as (_ & _ & F1 & _ & _ & _ & _ & _ & _ & F2 & _ & F3 & _).
  apply (write_history _ _ _ _ _ (s8_contract P) eq_refl d0 tr d Hh); auto. rewrite F1. reflexivity.
Qed.
Example C53_sim8_case : s8_then ([call (OpWrite (bs "0123456789abcdefghij") 20)] ++ s8_fill 90 ++ runs_ 1 ++
     dialog [bs ">"; crlf (bs "0, SEND OK")] ++ runs_ 1 ++ dialog [bs ">"; crlf (bs "0, SEND OK")]) =
  Ok ([DCount 20; DBool true; DCount 90],
      [string_of_list_ascii (repeat "x"%char 90); "AT+CIPSEND=0,16"; "0123456789abcdef"; "AT+CIPSEND=0,4"; "ghij"]%string).
Proof. vm_compute. reflexivity. Qed.
(** If the transmit interrupt empties the serial buffer between two looks at
    the space left, more is announced and sent than was ever written. *)
Definition s8_tx_race (k : nat) : @script simop :=
  [call (OpWrite (bs "0123456789abcdefghij") 20)] ++ s8_fill 90 ++ [(OpRun true, repeat [] k ++ [repeat (Transfer None true) 90])] ++ dialog [bs ">"].
Definition s8_announced (r : res (list dobs * list string)) : option (list string * list nat) :=
  match r with Ok (_, _ :: a :: p) => Some ([a], map String.length p) | _ => None end.
Theorem C53_sim8_interrupt_refuted : exists k, s8_announced (s8_then (s8_tx_race k)) = Some (["AT+CIPSEND=0,106"%string], [106]).
Proof. exists 4. vm_compute. reflexivity. Qed.

(** ** C46: the serial lock *)
Theorem C46_sim8_locked : forall P d e d' tr d2, s8_step P d e d' -> e_op e = OpX SerialLock -> e_out e = DBool true ->
  s8_hist P d' tr d2 -> Forall (fun e => ~ unlocks e) tr ->
  Forall (fun e => ~ raw_access e -> taken (e_ev e) = [] /\ put (e_ev e) = []) tr.
Proof. intros P d e d' tr d2 Hs Eo Ee Hh Hu. destruct (s8_lock P d e d' Hs Eo Ee) as [Hl _]. apply (s8_locked_history P d' tr d2 Hh Hl Hu). Qed.
Theorem C46_sim8_quiet : forall P d e d', s8_step P d e d' -> e_op e = OpX SerialLock -> e_out e = DBool true -> ~ awaiting r8_ok d.
Proof. intros P d e d' Hs Eo Ee. apply (s8_lock P d e d' Hs Eo Ee). Qed.
Theorem C46_sim8_unlocked : forall P d e d', s8_step P d e d' -> raw_access e -> fLock (fl d) = false ->
  (e_out e = DCount 0 \/ e_out e = DData [] 0) /\ taken (e_ev e) = [] /\ put (e_ev e) = [] /\ d' = set_io (io d') d.
Proof. exact s8_unlocked_raw. Qed.
Example C46_sim8_case : s8_then ([call (OpSerialWrite (PStr (bs "x"))); call (OpX SerialLock); call (OpSerialWrite (PStr (bs "y")))] ++ [call OpRequestRSSI] ++
    dialog [crlf (bs "abc")] ++ [call (OpSerialRead 9); call (OpX SerialUnlock); call (OpSerialWrite (PStr (bs "z")))] ++ runs_ 1) =
  Ok ([DCount 0; DBool true; DCount 1; DData (crlf (bs "abc")) 5; DCount 0], ["y"; "AT+CSQ"]%string).
Proof. vm_compute. reflexivity. Qed.

(** ** C47: commands and replies stay paired *)
Theorem C47_sim8_paired : forall P d0 tr d, s8_built d0 -> s8_hist P d0 tr d -> s8_awaited tr <> None.
Proof. intros P d0 tr d HB Hh E. destruct (s8_pair_history P d0 tr d (s8_built_fresh _ HB) Hh) as (w & H & _). congruence. Qed.
(** The waiting may also end by a close notice; then the late reply to the
    first command is taken for the reply to the second. *)
Theorem C47_sim8_close_refuted : s8_then ([call OpRequestRSSI] ++ runs_ 1 ++ [call (OpX (RequestID idImei))] ++
     dialog [crlf (bs "+CSQ: 31,99"); crlf (bs "0, CLOSED1"); crlf (bs "OK")] ++ [call (OpX GetID)]) =
  Ok ([DStr (Some (bs "OK"))], ["AT+CSQ"; "AT+CGSN"]%string).
Proof. vm_compute. reflexivity. Qed.

(** ** C48: the state diagram *)
Theorem C48_sim8_edges : forall P d e d', s8_step P d e d' ->
  match e_op e with
  | OpRun oo =>
      (isopen d = false /\ sst d' = (if oo then sst d else S8SerialError)) \/
      (fLock (fl d) = true /\ sst d' = sst d) \/
      (isopen d = true /\ fLock (fl d) = false /\
       exists s0 s, s0 = (if fReset (fl d) then s8_reset_state (sst d) else sst d) /\
                 (s = s0 \/ In (s0, s) (s8_diagram ++ s8_giveup ++ s8_revival)) /\
                 (sst d' = s \/ In (s, sst d') (s8_diagram ++ s8_undocumented)))
  | OpResetStates => sst d' = S8NotConnected
  | _ => sst d' = sst d
  end.
Proof. exact s8_edges. Qed.
(** The transitions the diagram lacks do occur. *)
Theorem C48_sim8_undocumented : ~ In (S8Connected, S8SendCipshut) s8_diagram /\ ~ In (S8FinalizeConnect, S8SendCipshut) s8_diagram /\
  s8_end sst (s8_connected ++ dialog [crlf (bs "0, CLOSED")]) = Ok S8SendCipshut /\
  s8_end sst (s8_start ++ s8_until_dns ++ dialog [s8_dns_line (bs "1.2.3.4"); crlf (bs "OK")] ++ [call OpDisconnect]) = Ok S8FinalizeConnect /\
  s8_end sst (s8_start ++ s8_until_dns ++ dialog [s8_dns_line (bs "1.2.3.4"); crlf (bs "OK")] ++ [call OpDisconnect] ++ dialog [crlf (bs "OK")]) = Ok S8SendCipshut.
Proof.
  split; [|split; [|split; [|split]; vm_compute; reflexivity]];
    unfold s8_diagram; cbn [In]; intro H; repeat destruct H as [H|H]; try discriminate; exact H.
Qed.

(** ** C49: the commands *)
Theorem C49_sim8_commands : forall P d0 tr d e d' cmd q, s8_built d0 -> s8_hist P d0 tr d -> s8_step P d e d' -> In (aCommand cmd q) (e_acts e) ->
  (cmd = bs "AT+CSQ" ++ [CR; LF] \/
   (exists t c, id_command s8_iccid_command t = Some c /\ cmd = c ++ [CR; LF]) \/
   (exists s ipb c, s8_command s (apn (ext d)) (host d) ipb (typ d) (port d) = Some c /\ cmd = c ++ [CR; LF]) \/
   (exists n, (0 <= n <= 1460)%Z /\ cmd = bs "AT+CIPRXGET=2,0," ++ dec n ++ [CR; LF])) /\
  (txav (io d) + length cmd <= txsz (io d) -> q = cmd).
Proof.
  intros P d0 tr d e d' cmd q HB Hh Hs Hin. pose proof (s8_maxrx P d0 tr d HB Hh) as Hm.
  destruct (s8_commands P d e d' cmd q Hs Hin) as (K & _ & F). split; [|exact F].
  destruct K as [K|[K|[K|(n & K1 & _ & K2)]]]; auto. right. right. right. exists n. split; [lia|exact K2].
Qed.
(** A command longer than the space left is cut, although 20 bytes were free. *)
Definition s8_stalled (s : bytes) : dop simop * list (list isr) := (OpIdle, [map (fun c => Transfer (Some c) false) s]).
Definition s8_stalled_dialog (l : list bytes) : @script simop := flat_map (fun s => [s8_stalled s; call (OpRun true)]) l.
Theorem C49_sim8_cut_refuted : s8_seen (firstn 4 s8_start ++ s8_fill 18 ++ runs_ 1 ++ s8_stalled_dialog [crlf (bs "OK"); crlf (bs "OK"); crlf (bs "OK"); crlf (bs "OK"); crlf (bs "OK"); crlf (bs "10.0.0.1");
     s8_dns_line (bs "1.2.3.4"); crlf (bs "OK")]) =
  Ok ([DBool true; DBool true; DCount 18],
     [string_of_list_ascii (repeat "x"%char 18); "ATE0"; "AT+CIPRXGET=1"; "AT+CIPMUX=1"; "AT+CSTT=""net"""; "AT+CIICR";
      "AT+CIFSR"; "AT+CDNSGIP=""host"""; "AT+CIPSTART=0,""TCP"",""1"]%string).
Proof. vm_compute. reflexivity. Qed.

(** ** C50: connected only when confirmed *)
Theorem C50_sim8_confirmed : forall P d0 tr d, s8_built d0 -> s8_hist P d0 tr d -> ip_is_connected d = true -> s8_confirmed tr = true.
Proof. exact s8_connected_confirmed. Qed.
Example C50_sim8_case : s8_seen (s8_start ++ s8_until_dns ++ dialog [s8_dns_line (bs "1.2.3.4"); crlf (bs "OK")] ++ [call OpIsConnected] ++
   dialog [crlf (bs "ERROR")] ++ runs_ 2 ++ [call OpIsConnected]) =
  match s8_seen s8_connected with Ok (_, b) => Ok ([DBool true; DBool false; DBool false], b ++ ["AT+CIPSHUT"%string]) | UB u => UB u end.
Proof. vm_compute. reflexivity. Qed.

(** ** C56: a failed opening of the serial port *)
Theorem C56_sim8_refuted : forall P d0 e d1 tr d, s8_built d0 -> isopen d0 = false -> s8_step P d0 e d1 -> e_op e = OpRun false ->
  s8_hist P d1 tr d -> Forall (fun e => ~ s8_rescue e) tr ->
  sst d = S8SerialError /\ ip_is_connected d = false /\ Forall (fun e => raw_access e \/ put (e_ev e) = []) tr.
Proof. exact s8_failed_open. Qed.
Definition s8_ex_closed : res dv := s8_new ser64 false (repeat NUL 32) (repeat NUL 32) (repeat NUL 61) (repeat NUL 16) (repeat NUL 24) 1%Z.
Example C56_sim8_case : seen (s8_driver PA) s8_ex_closed ([call (OpRun false)] ++ s8_start ++ s8_until_dns ++ [call OpIsConnected]) =
    Ok ([DBool true; DBool false], []) /\
  seen (s8_driver PA) s8_ex_closed (runs_ 1 ++ s8_connected ++ [call OpIsConnected]) = s8_seen (s8_connected ++ [call OpIsConnected]).
Proof. split; vm_compute; reflexivity. Qed.

(** ** C57: the peer closes *)

(** With nothing to send and nothing to fetch, the run() that reads the notice
    and the next one end the connection. *)
Theorem C57_sim8_closed : forall P d e d' e2 d2, s8_step P d e d' -> s8_at_rest d -> s8_notice_run d e ->
  s8_step P d' e2 d2 -> s8_plain_run d' e2 ->
  ip_is_connected d2 = false /\ exists q, In (aCommand (bs "AT+CIPSHUT" ++ [CR; LF]) q) (e_acts e2).
Proof. exact s8_peer_close. Qed.
Example C57_sim8_case :
  s8_then (dialog [crlf (bs "0, CLOSED")] ++ [call OpIsConnected] ++ runs_ 1 ++ [call OpIsConnected]) =
    Ok ([DBool true; DBool false], ["AT+CIPSHUT"%string]) /\
  s8_end (fun d => (isopen d, fReset (fl d), fLock (fl d), sst d, rst d, fData (fl d), avail (wbuf d), rssi d, nth_error (idbuf (ext d)) 1)) s8_connected =
    Ok (true, false, false, S8Connected, R8Ok, false, 0, 99%Z, Some (id_code idNone)).
Proof. split; vm_compute; reflexivity. Qed.
(** With data still to be fetched it takes longer: the data is asked for first. *)
Example C57_sim8_data :
  s8_then (dialog [crlf (bs "+CIPRXGET: 1,0"); crlf (bs "0, CLOSED"); crlf (bs "+CIPRXGET: 4,0,5"); crlf (bs "OK"); crlf (bs "+CIPRXGET: 2,0,5"); bs "world"; crlf (bs "OK")] ++
     runs_ 2 ++ dialog [crlf (bs "+CIPRXGET: 4,0,0"); crlf (bs "OK")] ++ runs_ 2 ++ [call OpBytesAvailable; call OpIsConnected; call OpIsIdle]) =
  Ok ([DCount 5; DBool false; DBool false], ["AT+CIPRXGET=4,0"; "AT+CIPRXGET=2,0,5"; "AT+CIPRXGET=4,0"]%string).
Proof. vm_compute. reflexivity. Qed.

(** ** C69: SSL *)
Theorem C69_sim8_refuted : forall P d0 tr d e d' cmd q, s8_built d0 -> s8_hist P d0 tr d -> s8_step P d e d' ->
  In (aCommand cmd q) (e_acts e) -> prefixb (bs "AT+CIPSTART=") cmd = true -> typ d = SSL ->
  prefixb (bs "AT+CIPSTART=0," ++ quoted (bs "TCP") ++ bs ",") cmd = true.
Proof.
  intros P d0 tr d e d' cmd q HB Hh Hs Hin Hp Ht.
  destruct (C36_sim8_open P d0 tr d e d' cmd q HB Hh Hs Hin Hp) as (a & _ & ->). rewrite Ht.
  apply prefixb_spec. eexists. unfold quoted. rewrite <- !app_assoc. reflexivity.
Qed.

(** ** Assumptions *)
Print Assumptions C51_sim8_safe.
Print Assumptions C51_sim8_histories.
Print Assumptions C51_sim8_actions.
Print Assumptions C37_sim8_refuted.
Print Assumptions C36_sim8_open.
Print Assumptions C38_sim8_refuted.
Print Assumptions C32_sim8_not_before_reply.
Print Assumptions C32_sim8_unsent.
Print Assumptions C32_sim8_refuted.
Print Assumptions C33_sim8_kept.
Print Assumptions C33_sim8_idle.
Print Assumptions C33_sim8_refuted.
Print Assumptions C34_sim8_line_buffer.
Print Assumptions C35_sim8_lines.
Print Assumptions C39_sim8_rssi.
Print Assumptions C39_sim8_refuted.
Print Assumptions C40_sim8_id.
Print Assumptions C41_sim8_bounded.
Print Assumptions C42_sim8_refuted.
Print Assumptions C59_sim8_refuted.
Print Assumptions C59_sim8_request.
Print Assumptions C59_sim8_session.
Print Assumptions C43_sim8_request.
Print Assumptions C43_sim8_interrupt_refuted.
Print Assumptions C54_sim8_received.
Print Assumptions C55_sim8_overrun_refuted.
Print Assumptions C55_sim8_starve_refuted.
Print Assumptions C44_sim8_payload.
Print Assumptions C45_sim8_announce.
Print Assumptions C45_sim8_zero_refuted.
Print Assumptions C53_sim8_sent.
Print Assumptions C53_sim8_interrupt_refuted.
Print Assumptions C46_sim8_locked.
Print Assumptions C46_sim8_quiet.
Print Assumptions C46_sim8_unlocked.
Print Assumptions C47_sim8_paired.
Print Assumptions C47_sim8_close_refuted.
Print Assumptions C48_sim8_edges.
Print Assumptions C48_sim8_undocumented.
Print Assumptions C49_sim8_commands.
Print Assumptions C49_sim8_cut_refuted.
Print Assumptions C50_sim8_confirmed.
Print Assumptions C56_sim8_refuted.
Print Assumptions C57_sim8_closed.
Print Assumptions C69_sim8_refuted.
