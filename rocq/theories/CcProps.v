(** The CC1352P7 driver: what is proved of C32-C35, C39, C43-C51, C53-C59 and C69
    for it.

    [sc_built d0]: [d0] is a driver as the constructor leaves it.  [sc_hist P d0
    tr d]: the calls [tr], with interrupts at any point, lead from [d0] to [d];
    by [C51_cc_histories] every sequence of valid calls that does not end in
    undefined behaviour is such a history.  The entries of [tr] say what call was
    made, what it returned, which serial events it caused and, for run(), how the
    bytes moved belong together (actions); the bytes of the actions are the bytes
    moved ([C51_cc_actions]). *)
From Coq Require Import String Ascii ZArith List Bool Arith Lia ZifyBool ZifyNat.
From Verif Require Import Base QueueSpec LineSpec SerialSpec Ring RingProofs LineRing LineRingProofs Serial SerialProofs
  SerStep TaskMacros CStr CStrProofs Dev DevProofs SimDev SimProofs SimSpec SimParse Sym DrvStep DrvCommon DrvRun DrvHist DrvActs DrvStuck DrvRecv SimLog
  Espressif Cc1352 CcSpec CcProofs CcCtl CcCtlIn CcRun AtLine CcHist CcThms CcMore CcLine CcReq CcRest CcStuck CcAck CcRecv Session.
Import ListNotations.
Local Open Scope nat_scope.
Local Notation dv := (dev ccsend ccreply ccx).
Local Notation ent := (@entry ccop).

(** ** The sessions of the examples *)

(** Plain char signed (x86) and unsigned (ARM), there with 32 bit long. *)
Definition PS : plat := mkPlat true true.
Definition PU : plat := mkPlat false false.
Definition sc_ex : res dv := sc_new ser64 true (repeat NUL 32) (repeat NUL 32) (repeat NUL 61) (repeat NUL 24) 1%Z.
Definition sc_start : @script ccop :=
  [call (OpSetHostPort (PStr (bs "host")) 80%Z 1%Z); call OpConnect; call (OpRun true); call (OpRun true)].
Definition sc_open : @script ccop := dialog [crlf (bs "OK"); crlf (bs "OK")].
Definition sc_connected_ : @script ccop := sc_start ++ sc_open.
Definition sc_seen (h : @script ccop) := seen (sc_driver PU) sc_ex h.
(** The same after the connection was opened. *)
Definition sc_then (h : @script ccop) : res (list dobs * list string) :=
  match sc_seen (sc_connected_ ++ h) with Ok (a, b) => Ok (skipn 1 a, skipn 2 b) | UB u => UB u end.
Definition sc_end {A} (f : dv -> A) (h : @script ccop) : res A := ends (sc_driver PU) f sc_ex h.

Example sc_ex_built : exists d, sc_ex = Ok d /\ sc_built d.
Proof.
  assert (W : serial_wf ser64).
  { repeat split; cbn; try lia; intro; discriminate. }
  destruct (sc_new_ok False ser64 true (repeat NUL 32) (repeat NUL 32) (repeat NUL 61) (repeat NUL 24) 1%Z) as (d & E & _);
    try exact W; try discriminate; try (unfold fits; cbn; lia); try reflexivity; try contradiction.
  exists d. split; [exact E|]. unfold sc_built. do 7 eexists. repeat (split; [shelve|]). exact E.
  Unshelve. all: try exact W; try discriminate; try (unfold fits; cbn; lia); try reflexivity.
Qed.

(** The whole opening dialogue: the commands and the final state. *)
Example sc_session : sc_seen (sc_connected_ ++ [call OpIsConnected]) =
  Ok ([DBool true; DBool true], ["ATE0"; "AT+CIPSTART=""TCP"",""host"",80"])%string.
Proof. vm_compute. reflexivity. Qed.

(** ** C51: memory safety *)

(** Undefined behaviour is reached only by getMac() without any requestMac()
    before it, on a buffer that happens to hold no NUL. *)
Theorem C51_cc_safe : forall P d0 h u, sc_built d0 -> sc_valid h -> d_run (sc_driver P) d0 h = UB u ->
  exists h1 sch h2 d1 outs, h = h1 ++ (OpX CGetMac, sch) :: h2 /\ d_run (sc_driver P) d0 h1 = Ok (d1, outs) /\
    ~ In NUL (cmac (ext d1)) /\ (forall sch', ~ In (OpX CRequestMac, sch') h1).
Proof. exact sc_safe. Qed.
(** And it is reached. *)
Theorem C51_cc_refuted :
  seen (sc_driver PU) (sc_new ser64 true (repeat NUL 32) (repeat NUL 32) (repeat NUL 61) (repeat "x"%char 24) 1%Z) [call (OpX CGetMac)] = UB OutOfBounds.
Proof. vm_compute. reflexivity. Qed.

Theorem C51_cc_histories : forall P d0 h d outs, sc_built d0 -> sc_valid h -> d_run (sc_driver P) d0 h = Ok (d, outs) ->
  exists tr, sc_hist P d0 tr d /\ map (fun e => (e_op e, e_sch e)) tr = h /\ map (fun e => (e_out e, e_ev e)) tr = outs.
Proof. exact sc_every_run. Qed.

Theorem C51_cc_actions : forall P d e d' oo, sc_step P d e d' -> e_op e = OpRun oo ->
  taken (e_ev e) = concat (map act_taken (e_acts e)) /\ put (e_ev e) = concat (map act_put (e_acts e)).
Proof. intros P d e d' oo (_ & _ & _ & _ & _ & _ & H & _) E. rewrite E in H. exact H. Qed.

(** ** C32: writeBufferProcessed() *)

(** From the announcement of a block until the reply to it, it is false. *)
Theorem C32_cc_not_before_reply : forall P d0 tr d, sc_built d0 -> sc_hist P d0 tr d -> tx_log sc_acks sc_nacks tr <> txNone ->
  ip_write_buffer_processed d = false.
Proof.
  intros P d0 tr d HB Hh Ht. pose proof (sc_tx_history P d0 tr d (sc_built_fresh _ HB) Hh) as H.
  unfold ip_write_buffer_processed. destruct (tx_log sc_acks sc_nacks tr); [contradiction Ht; reflexivity| |]; destruct H as [-> _]; apply andb_false_r.
Qed.
(** Nor while there are accepted bytes that were not handed to the modem (see
    also C53). *)
Theorem C32_cc_unsent : forall d : dv, ring_ok (wbuf d) -> contents (wbuf d) <> [] -> ip_write_buffer_processed d = false.
Proof.
  intros d Hok H. unfold ip_write_buffer_processed. destruct (avail (wbuf d)) eqn:E; [|reflexivity].
  contradiction H. unfold contents. rewrite E. reflexivity.
Qed.
Definition sc_hello : @script ccop := [call (OpWrite (bs "hello") 5)] ++ runs_ 1 ++ dialog [bs ">"].
Example C32_cc_case : sc_then (sc_hello ++ [call OpWriteBufferProcessed] ++ dialog [crlf (bs "OK")] ++ [call OpWriteBufferProcessed]) =
  Ok ([DCount 5; DBool false; DBool true], ["AT+CIPSEND=5"; "hello"])%string.
Proof. vm_compute. reflexivity. Qed.
(** An error reply also makes it true. *)
Theorem C32_cc_refuted : sc_then (sc_hello ++ [call OpWriteBufferProcessed] ++ dialog [crlf (bs "SEND FAIL")] ++ [call OpWriteBufferProcessed]) =
  Ok ([DCount 5; DBool false; DBool true], ["AT+CIPSEND=5"; "hello"])%string.
Proof. vm_compute. reflexivity. Qed.

(** ** C33: disconnect() *)
Theorem C33_cc_kept : forall P d0 tr d e d', sc_built d0 -> sc_hist P d0 tr d -> sc_step P d e d' -> fDisc (fl d) = true ->
  fDisc (fl d') = true \/ sst d' = SCSendCipclose \/ sst d' = SCFinalizeDisconnect \/ e_op e = OpResetStates.
Proof. intros P d0 tr d e d' HB Hh Hs. apply (sc_disc_kept P d e d' Hs (sc_unlocked P d0 tr d HB Hh)). Qed.
Theorem C33_cc_idle : forall P d e d', sc_step P d e d' -> e_op e = OpDisconnect ->
  fDisc (fl d') = (if ip_is_idle d then fDisc (fl d) else true) /\ fConnect (fl d') = fConnect (fl d) /\ sst d' = sst d.
Proof. exact sc_disc_idle. Qed.
(** Called right after connect(), it is ignored. *)
Theorem C33_cc_refuted :
  sc_seen (firstn 2 sc_start ++ [call OpDisconnect] ++ skipn 2 sc_start ++ sc_open ++ [call OpIsConnected]) =
  sc_seen (sc_connected_ ++ [call OpIsConnected]).
Proof. vm_compute. reflexivity. Qed.

(** ** C34, C35: reply lines *)
Theorem C34_cc_line_buffer : forall P d0 tr d, sc_built d0 -> sc_hist P d0 tr d -> length (lbuf d) = 61 /\ lbfill d < 60.
Proof.
  intros P d0 tr d HB Hh. assert (HI : sc_all False d) by (apply (hist_inv _ _ _ _ _ _ _ Hh), (sc_built_fresh _ HB)).
  destruct HI as (((_ & _ & _ & _ & _ & _ & _ & _ & Hl & _) & _) & _). unfold line_ok in Hl. destruct Hl as (H1 & H2 & _). split; lia.
Qed.
Theorem C35_cc_lines : forall P d0 tr d, sc_built d0 -> sc_hist P d0 tr d ->
  fst (fold_left line_log tr ([], [])) = concat (snd (fold_left line_log tr ([], []))) ++ pending d /\
  Forall whole_line (snd (fold_left line_log tr ([], []))) /\ partial_line (pending d).
Proof.
  intros P d0 tr d HB Hh. pose proof (sc_built_fresh _ HB) as HF.
  destruct (line_history _ _ _ _ _ (sc_contract False P) whole_line (fun _ _ H => H) d0 tr d Hh) as [A B]; [apply HF|]. split; [exact A|]. split; [exact B|].
  assert (HI : sc_all False d) by (apply (hist_inv _ _ _ _ _ _ _ Hh), HF).
  destruct HI as (((_ & _ & _ & _ & _ & _ & _ & _ & Hl & _) & _) & _). unfold line_ok in Hl. apply Hl.
Qed.
(** A line in three pieces over five calls. *)
Example C35_cc_case : sc_end (fun d => (lbfill d, rssi d))
   ([call OpRequestRSSI] ++ runs_ 1 ++ dialog [bs "+CS"; bs "Q:-6"; []] ) = Ok (7, INT16_MAX) /\
  sc_end (fun d => (lbfill d, rssi d)) ([call OpRequestRSSI] ++ runs_ 1 ++ dialog [bs "+CS"; bs "Q:-6"; []; crlf (bs "7")]) = Ok (0, (-67)%Z).
Proof. split; vm_compute; reflexivity. Qed.

(** ** C39: signal strength *)

(** The number of the reply is reported as it is, cut to 16 bits. *)
Theorem C39_cc_rssi : forall P d0 tr d e d' n, sc_built d0 -> sc_hist P d0 tr d -> sc_step P d e d' -> e_op e = OpGetRSSI -> e_out e = DNum n ->
  rc_stray (rssiC_log P tr) = false -> n = rc_value (rssiC_log P tr).
Proof.
  intros P d0 tr d e d' n HB Hh Hs Eo Ee Hr. destruct (sc_rssi_history P d0 tr d (sc_built_fresh _ HB) Hh) as [_ K]. destruct (K Hr) as [<- _].
  destruct (sc_cases P d e d' Hs) as (d1 & _ & _ & [(oo & E & _)|(_ & _ & _ & Hc)]); [congruence|].
  rewrite Eo, Ee in Hc. destruct Hc as [_ Hc]. injection Hc as <- _. reflexivity.
Qed.
(** No conversion to dBm, and the number of the reply may be the one that means
    "requested": then the query is repeated. *)
Theorem C39_cc_refuted :
  sc_seen ([call OpRequestRSSI] ++ runs_ 1 ++ dialog [crlf (bs "+CSQ:31"); crlf (bs "OK")] ++ [call OpGetRSSI]) = Ok ([DNum 31], ["AT+CSQ"%string]) /\
  sc_seen ([call OpRequestRSSI] ++ runs_ 1 ++ dialog [crlf (bs "+CSQ:32767"); crlf (bs "OK")] ++ [call OpGetRSSI]) = Ok ([DNum 32767], ["AT+CSQ"; "AT+CSQ"]%string).
Proof. split; vm_compute; reflexivity. Qed.

(** ** C58: the MAC address *)

(** Where plain char is signed the query is never sent. *)
Theorem C58_cc_refuted : forall P d0 tr d e d' cmd q, char_signed P = true -> sc_built d0 -> sc_hist P d0 tr d -> sc_step P d e d' ->
  In (aCommand cmd q) (e_acts e) -> prefixb (bs "AT+CIPSTAMAC") cmd = false.
Proof. intros P d0 tr d e d' cmd q HP HB Hh Hs. apply (sc_mac_signed P d e d' cmd q HP Hs (sc_unlocked P d0 tr d HB Hh)). Qed.
(** Where it is unsigned, the request waits for the query to be sent (or for an
    address that arrives without it), and it is sent by the next run() that has
    nothing else to do. *)
Theorem C58_cc_request : forall P d e d', sc_step P d e d' -> e_op e = OpX CRequestMac ->
  mac_request P (cmac (ext d')) = negb (char_signed P).
Proof.
  intros P d e d' Hs Eo. destruct (sc_cases P d e d' Hs) as (d1 & Ed & HA & [(oo & E & _)|(_ & _ & _ & Hc)]); [congruence|].
  rewrite Eo in Hc. destruct Hc as (_ & _ & Hc). cbn [drv_x sc_driver sc_x] in Hc. rewrite Ed. cbn [ext set_io].
  unfold sc_request_mac, wr in Hc. change (ext (during (e_sch e) d)) with (ext d) in Hc.
  destruct (cmac (ext d)) as [|c0 [|c1 t]]; cbn [nth_error bind list_set] in Hc; try discriminate Hc.
  apply (f_equal (fun r => match r with Ok (_, x) => cmac (ext x) | UB _ => [] end)) in Hc. cbn in Hc. rewrite <- Hc.
  unfold mac_request. cbn [nth_error]. destruct (char_signed P); reflexivity.
Qed.
Theorem C58_cc_kept : forall P d0 tr d e d', sc_built d0 -> sc_hist P d0 tr d -> sc_step P d e d' -> mac_request P (cmac (ext d)) = true ->
  mac_request P (cmac (ext d')) = true \/ (exists q, In (aCommand (bs "AT+CIPSTAMAC" ++ [CR; LF]) q) (e_acts e)) \/
  (exists tk L, In (aLine tk L) (e_acts e) /\ prefixb (bs "+CIPSTAMAC:" ++ [DQ]) L = true).
Proof. intros P d0 tr d e d' HB Hh Hs. apply (sc_mac_kept P d e d' Hs (sc_unlocked P d0 tr d HB Hh)). Qed.
Theorem C58_cc_sent : forall P d0 tr d e d' oo, sc_built d0 -> sc_hist P d0 tr d -> sc_step P d e d' -> e_op e = OpRun oo -> mac_request P (cmac (ext d)) = true ->
  isopen d = true -> fReset (fl d) = false -> wait d = None -> rst d = RCOk -> rssi d <> INT16_MAX -> fLine (fl d) = true ->
  e_sch e = [] -> txav (io d) + 20 <= txsz (io d) -> (forall tk L, ~ In (aLine tk L) (e_acts e)) ->
  exists q, In (aCommand (bs "AT+CIPSTAMAC" ++ [CR; LF]) q) (e_acts e).
Proof. intros P d0 tr d e d' oo HB Hh Hs Eo. apply (sc_mac_sent P d e d' oo Hs Eo (sc_unlocked P d0 tr d HB Hh)). Qed.
(** What getMac() returns after requestMac() was received since. *)
Theorem C58_cc_answer : forall P d0 tr d e d' s, sc_built d0 -> sc_hist P d0 tr d -> sc_step P d e d' ->
  e_op e = OpX CGetMac -> e_out e = DStr (Some s) -> ml_req (macC_log tr) = true ->
  exists L, In L (ml_lines (macC_log tr)) /\ prefixb (bs "+CIPSTAMAC:" ++ [DQ]) L = true /\ s = firstn 23 (upto DQ (cbody (skipn 12 L))).
Proof. exact sc_mac_answer. Qed.
Definition sc_ask_mac : @script ccop := [call (OpX CRequestMac)] ++ runs_ 1 ++ dialog [crlf (bs "+CIPSTAMAC:" ++ [DQ] ++ bs "00:12:4b:aa" ++ [DQ]); crlf (bs "OK")] ++ [call (OpX CGetMac)].
Example C58_cc_case : seen (sc_driver PU) sc_ex sc_ask_mac = Ok ([DStr (Some (bs "00:12:4b:aa"))], ["AT+CIPSTAMAC"%string]) /\
  seen (sc_driver PS) sc_ex sc_ask_mac = Ok ([DStr None], []).
Proof. split; vm_compute; reflexivity. Qed.

(** ** C59: a line read while the answer to AT+CSQ is expected *)

(** It may replace the stored MAC address. *)
Theorem C59_cc_refuted : forall P d ret d' L, sc_handles P d ret d' L -> whole_line L -> rst d = RCCsq -> sc_refused d L = false ->
  prefixb (bs "+CIPSTAMAC:" ++ [DQ]) L = true -> str_body (cmac (ext d')) = firstn 23 (upto DQ (cbody (skipn 12 L))).
Proof.
  intros P d ret d' L H Hw Hr Hf Hp. destruct (sc_line_effect P d ret d' L H Hw) as [He _]. unfold sc_effect in He. rewrite Hf in He.
  destruct He as (_ & _ & _ & He & _). unfold sc_takes_mac in He. rewrite Hr in He. change mac_lit with (bs "+CIPSTAMAC:" ++ [DQ]) in He. rewrite Hp in He. exact He.
Qed.
(** No other line does. *)
Theorem C59_cc_kept : forall P d ret d' L, sc_handles P d ret d' L -> whole_line L -> prefixb (bs "+CIPSTAMAC:" ++ [DQ]) L = false -> ext d' = ext d.
Proof.
  intros P d ret d' L H Hw Hp. destruct (sc_line_effect P d ret d' L H Hw) as [He _]. unfold sc_effect in He. destruct (sc_refused d L); [apply He|].
  destruct He as (_ & _ & _ & He & _). unfold sc_takes_mac in He. change mac_lit with (bs "+CIPSTAMAC:" ++ [DQ]) in He. rewrite Hp in He. destruct (rst d); exact He.
Qed.
Example C59_cc_case : sc_seen (sc_ask_mac ++ [call OpRequestRSSI] ++ runs_ 1 ++ dialog [crlf (bs "+CIPSTAMAC:" ++ [DQ] ++ bs "other" ++ [DQ]); crlf (bs "OK"); crlf (bs "+CSQ:-60"); crlf (bs "OK")] ++ [call (OpX CGetMac)]) =
  Ok ([DStr (Some (bs "00:12:4b:aa")); DStr (Some (bs "other"))], ["AT+CIPSTAMAC"; "AT+CSQ"; "AT+CSQ"]%string).
Proof. vm_compute. reflexivity. Qed.

(** ** C43, C54, C55: receiving *)
Theorem C43_cc_request : forall P d0 tr d e d' cmd q, sc_built d0 -> sc_hist P d0 tr d -> sc_step P d e d' ->
  In (aCommand cmd q) (e_acts e) -> prefixb (bs "AT+CIPRECVDATA=") cmd = true ->
  exists n, cmd = bs "AT+CIPRECVDATA=" ++ dec n ++ [CR; LF] /\ (0 <= n <= 1220)%Z /\
    (n <= Z.of_nat (ring_space (rbuf d)))%Z /\ (n <= toReceive d')%Z /\ (exists w, In w (xw_waiting (rxC_log P (tr ++ [e]))) /\ (n <= w)%Z) /\
    (e_sch e = [] -> (0 < n)%Z /\ (n + 30 + Z.of_nat (rxav (io d)) <= Z.of_nat (rxsz (io d)) + Z.of_nat (length (taken (e_ev e))))%Z).
Proof. exact sc_request. Qed.
(** Once connected, a notice sets the number exactly. *)
Theorem C43_cc_notice : forall P d ret d' L, sc_handles P d ret d' L -> whole_line L -> 5 <= sc_rank (sst d) -> rst d <> RCParseCiprecvdata ->
  prefixb (bs "+IPD") L = true -> toReceive d' = u64 (number P (skipn 5 L)) /\ fData (fl d') = true.
Proof.
  intros P d ret d' L H Hw Hs Hr Hp. destruct (sc_line_effect P d ret d' L H Hw) as [He _]. unfold sc_effect in He.
  assert (Hf : sc_refused d L = false).
  { unfold sc_refused. apply prefixb_spec in Hp as [t ->]. cbn [prefixb bs list_ascii_of_string app aeqb Ascii.eqb Bool.eqb andb orb]. apply andb_false_r. }
  assert (Hd : sc_data d L = false) by (unfold sc_data; destruct (rst d); reflexivity || contradiction).
  rewrite Hf in He. rewrite Hd in He. destruct He as (E1 & _ & _ & _ & _ & E2 & E3 & _). rewrite E1, Hp in E2, E3.
  apply Nat.leb_le in Hs. rewrite Hs in E2, E3. cbn [andb] in E2, E3. auto.
Qed.
Definition sc_notice_ (n : bytes) : @script ccop := dialog [crlf (bs "+IPD," ++ n)] ++ runs_ 1.
Example C43_cc_case : sc_then (sc_notice_ (bs "50")) = Ok ([], ["AT+CIPRECVDATA=32"]%string).
Proof. vm_compute. reflexivity. Qed.
(** Under interrupts the request may even be for 0 bytes. *)
Definition sc_rx_race (k : nat) : @script ccop :=
  dialog [crlf (bs "+IPD,5")] ++ [(OpRun true, repeat [] k ++ [map (fun c => Transfer (Some c) true) (repeat "x"%char 98)])].
Theorem C43_cc_interrupt_refuted : exists k, sc_then (sc_rx_race k) = Ok ([], ["AT+CIPRECVDATA=0"]%string).
Proof. exists 3. vm_compute. reflexivity. Qed.

Theorem C54_cc_received : forall P d0 tr d, sc_built d0 -> sc_hist P d0 tr d ->
  let acc := r_log (rxC_req P) (rxC_rep P) tr in
  r_ok acc = true -> r_in acc = r_out acc ++ contents (rbuf d).
Proof. intros P d0 tr d HB Hh acc H. apply (sc_received P d0 tr d (sc_built_fresh _ HB) Hh H). Qed.
Definition sc_receive_ (m : bytes) (data : bytes) : @script ccop :=
  sc_notice_ (bs "5") ++ dialog [crlf (bs "+CIPRECVDATA:" ++ m); data].
Example C54_cc_case : sc_then (sc_receive_ (bs "5") (bs "world") ++ [call OpBytesAvailable; call (OpRead 40)]) =
  Ok ([DCount 5; DData (bs "world") 5], ["AT+CIPRECVDATA=5"]%string).
Proof. vm_compute. reflexivity. Qed.
(** What happens otherwise: data is lost, or the driver waits for ever. *)
Theorem C55_cc_overrun_refuted :
  sc_then (sc_receive_ (bs "40") (bs "abcdefghij" ++ repeat "x"%char 30) ++ [call OpBytesAvailable; call (OpRead 40)]) =
  Ok ([DCount 32; DData (repeat "x"%char 8 ++ bs "ij" ++ repeat "x"%char 22) 32], ["AT+CIPRECVDATA=5"]%string).
Proof. vm_compute. reflexivity. Qed.
Theorem C55_cc_starve_refuted : forall P d tr d', sc_hist P d tr d' -> sc_starves (rxsz (io d)) d -> Forall (fun e => ~ sc_helps e) tr ->
  sc_starves (rxsz (io d)) d' /\ Forall silent tr.
Proof. exact sc_starve. Qed.
Example C55_cc_case : sc_end (fun d => (sst d, rst d, wait d, fLine (fl d), toRead d)) (sc_connected_ ++ sc_receive_ (bs "-1") []) =
  Ok (SCReceiving, RCOk, None, false, 18446744073709551615%Z).
Proof. vm_compute. reflexivity. Qed.

(** ** C44, C45, C53: sending *)
Theorem C44_cc_payload : forall P d0 tr d e d' q, sc_built d0 -> sc_hist P d0 tr d -> sc_step P d e d' -> In (aPayload q) (e_acts e) ->
  exists n, fold_left announce_log tr None = Some n /\ length q <= Z.to_nat n /\ (clean (e_ev e) -> length q = Z.to_nat n).
Proof.
  intros P d0 tr d e d' q HB Hh Hs Hin.
  destruct (payload_announced _ _ _ _ _ (sc_contract False P) eq_refl d0 tr d e d' q Hh) as (n & A & _ & B); auto.
  - pose proof (sc_built_fresh _ HB) as HF. destruct HF as (_ & _ & -> & _). reflexivity.
  - exists n. auto.
Qed.
(** The announced number without interrupts, and in general. *)
Theorem C45_cc_announce : forall P d0 tr d e d' n q, sc_built d0 -> sc_hist P d0 tr d -> sc_step P d e d' -> In (aAnnounce n q) (e_acts e) ->
  0 < avail (wbuf d) /\ (0 <= n <= Z.of_nat (txsz (io d)) - 22)%Z /\
  (e_sch e = [] -> exists k, k <= txav (io d) /\ n = Z.min (Z.of_nat (avail (wbuf d))) (Z.of_nat (txsz (io d)) - Z.of_nat k - 22)).
Proof.
  intros P d0 tr d e d' n q HB Hh Hs Hin.
  destruct (sc_sent P d e d' _ Hs (sc_unlocked P d0 tr d HB Hh) Hin eq_refl) as (l & dp & a & dm & d1 & r & Ea & Hp & Hl & Hx & Ho & Hox & Hd' & Hk & (evx & Hev) & Htx).
  assert (Hw : wbuf dm = wbuf d) by (destruct Hk as (_ & _ & Hk & _); exact Hk).
  assert (Hsz : txsz (io dm) = txsz (io d)) by (apply sstep_caps in Hev; destruct d; apply Hev).
  inversion Ho as [| |y n' q' Aw Io1 Io2 Hlen Hfull Hk1 Hk2 Hav Htw H0 Hsp Hsch| |]; subst n' q'.
  assert (txsz y = txsz (io dm)) by (destruct (ioeff_caps _ _ _ _ Io1); assumption).
  rewrite <- Hw. split; [exact Hav|]. split; [lia|]. intro Es. exists (txav (io dm)). split; [exact Htx|].
  assert (Hsd : sched (io dm) = []).
  { destruct Hev as (_ & _ & _ & _ & _ & _ & Hev). apply Hev. rewrite Es. destruct d; reflexivity. }
  rewrite <- Hsz. apply Hsch, Hsd.
Qed.
(** A serial write buffer of 22 bytes makes every announcement one of 0 bytes. *)
Theorem C45_cc_zero_refuted : forall P d0 tr d e d' n q, sc_built d0 -> sc_hist P d0 tr d -> sc_step P d e d' -> In (aAnnounce n q) (e_acts e) -> txsz (io d) = 22 -> n = 0%Z.
Proof. intros P d0 tr d e d' n q HB Hh Hs Hin E. destruct (C45_cc_announce P d0 tr d e d' n q HB Hh Hs Hin) as (_ & H & _). rewrite E in H. lia. Qed.
(** A connected session over a port with a transmit buffer of 22 bytes. *)
Definition sc_ex22 : res dv :=
  sc_new (mkSerial (lring_new (repeat NUL 128)) (lring_new (repeat NUL 22))) true (repeat NUL 32) (repeat NUL 32) (repeat NUL 61) (repeat NUL 24) 1%Z.
Example C45_cc_zero_case : seen (sc_driver PU) sc_ex22 ([call (OpSetHostPort (PStr (bs "h")) 8%Z 1%Z)] ++ skipn 1 sc_start ++ sc_open ++ [call (OpWrite (bs "hello") 5)] ++ runs_ 1) =
  Ok ([DBool true; DCount 5], ["ATE0"; "AT+CIPSTART=""TCP"",""h"","; "AT+CIPSEND=0"]%string).
Proof. vm_compute. reflexivity. Qed.

Theorem C53_cc_sent : forall P d0 tr d, sc_built d0 -> sc_hist P d0 tr d ->
  Forall (fun e => clean (e_ev e) /\ (announces (e_acts e) = true -> e_sch e = [])) tr ->
  fst (fold_left write_log tr ([], [])) = snd (fold_left write_log tr ([], [])) ++ contents (wbuf d).
Proof.
  intros P d0 tr d HB Hh HQ. pose proof (sc_built_fresh _ HB) as (_ & _ & F1 & _ & _ & _ & _ & _ & _ & F2 & _ & F3 & _).
  apply (write_history _ _ _ _ _ (sc_contract False P) eq_refl d0 tr d Hh); auto. rewrite F1. reflexivity.
Qed.
(** A transmit buffer of 40 bytes. *)
Definition sc_ex40 : res dv :=
  sc_new (mkSerial (lring_new (repeat NUL 128)) (lring_new (repeat NUL 40))) true (repeat NUL 32) (repeat NUL 32) (repeat NUL 61) (repeat NUL 24) 1%Z.
Example C53_cc_case : seen (sc_driver PU) sc_ex40 (sc_connected_ ++ [call (OpWrite (bs "0123456789abcdefghijklmn") 24)] ++ runs_ 1 ++
     dialog [bs ">"; crlf (bs "OK")] ++ runs_ 1 ++ dialog [bs ">"; crlf (bs "OK")]) =
  Ok ([DBool true; DCount 24],
      ["ATE0"; "AT+CIPSTART=""TCP"",""host"",80"; "AT+CIPSEND=18"; "0123456789abcdefgh"; "AT+CIPSEND=6"; "ijklmn"]%string).
Proof. vm_compute. reflexivity. Qed.
(** If the transmit interrupt empties the serial buffer between two looks at
    the space left, more is announced and sent than was ever written. *)
Definition sc_ex64 : res dv :=
  sc_new (mkSerial (lring_new (repeat NUL 128)) (lring_new (repeat NUL 64))) true (repeat NUL 32) (repeat NUL 32) (repeat NUL 61) (repeat NUL 24) 1%Z.
Definition sc_stalled (s : bytes) : dop ccop * list (list isr) := (OpIdle, [map (fun c => Transfer (Some c) false) s]).
Definition sc_tx_race (k : nat) : @script ccop :=
  sc_start ++ dialog [crlf (bs "OK")] ++ [sc_stalled (crlf (bs "OK")); call (OpRun true)] ++ [call (OpWrite (bs "0123456789abcdefghijklmn") 24)] ++
  [(OpRun true, repeat [] k ++ [repeat (Transfer None true) 64])] ++ dialog [bs ">"].
Definition sc_announced (r : res (list dobs * list string)) : option (list string * list nat) :=
  match r with Ok (_, _ :: _ :: a :: p) => Some ([a], map String.length p) | _ => None end.
Theorem C53_cc_interrupt_refuted : exists k, sc_announced (seen (sc_driver PU) sc_ex64 (sc_tx_race k)) = Some (["AT+CIPSEND=42"%string], [42]).
Proof. exists 4. vm_compute. reflexivity. Qed.

(** ** C46: the serial lock *)

(** This driver has no serialLock(); the raw access functions never do
    anything. *)
Theorem C46_cc_unlocked : forall P d0 tr d e d', sc_built d0 -> sc_hist P d0 tr d -> sc_step P d e d' -> raw_access e ->
  (e_out e = DCount 0 \/ e_out e = DData [] 0) /\ taken (e_ev e) = [] /\ put (e_ev e) = [] /\ d' = set_io (io d') d.
Proof. exact sc_unlocked_raw. Qed.
Example C46_cc_case : sc_then ([call (OpSerialWrite (PStr (bs "x"))); modem (crlf (bs "abc")); call (OpSerialRead 9)] ++ runs_ 1) =
  Ok ([DCount 0; DData [] 0], []).
Proof. vm_compute. reflexivity. Qed.

(** ** C47: commands and replies stay paired *)
Theorem C47_cc_paired : forall P d0 tr d, sc_built d0 -> sc_hist P d0 tr d -> sc_awaited tr <> None.
Proof. intros P d0 tr d HB Hh E. destruct (sc_pair_history P d0 tr d (sc_built_fresh _ HB) Hh) as (w & H & _). congruence. Qed.

(** ** C48: the state diagram *)
Theorem C48_cc_edges : forall P d0 tr d e d', sc_built d0 -> sc_hist P d0 tr d -> sc_step P d e d' ->
  match e_op e with
  | OpRun oo =>
      (isopen d = false /\ sst d' = (if oo then sst d else SCSerialError)) \/
      (isopen d = true /\
       exists s0 s, s0 = (if fReset (fl d) then SCSendCipclose else sst d) /\
                 (s = s0 \/ In (s0, s) (sc_diagram ++ sc_revival)) /\
                 (sst d' = s \/ In (s, sst d') (sc_diagram ++ sc_undocumented)))
  | OpResetStates => sst d' = SCNotConnected
  | _ => sst d' = sst d
  end.
Proof. intros P d0 tr d e d' HB Hh Hs. apply (sc_edges P d e d' Hs (sc_unlocked P d0 tr d HB Hh)). Qed.
(** The transition the diagram lacks does occur. *)
Theorem C48_cc_undocumented : ~ In (SCConnected, SCFinalizeDisconnect) sc_diagram /\
  sc_end sst (sc_connected_ ++ dialog [crlf (bs "CLOSED")]) = Ok SCFinalizeDisconnect.
Proof.
  split; [|vm_compute; reflexivity]. unfold sc_diagram; cbn [In]; intro H; repeat destruct H as [H|H]; try discriminate; exact H.
Qed.

(** ** C49: the commands *)
Theorem C49_cc_commands : forall P d0 tr d e d' cmd q, sc_built d0 -> sc_hist P d0 tr d -> sc_step P d e d' -> In (aCommand cmd q) (e_acts e) ->
  (cmd = bs "AT+CSQ" ++ [CR; LF] \/
   (char_signed P = false /\ cmd = bs "AT+CIPSTAMAC" ++ [CR; LF]) \/
   (exists s c, sc_command s (host d) (typ d) (port d) = Some c /\ cmd = c ++ [CR; LF]) \/
   (exists n, (0 <= n <= 1220)%Z /\ cmd = bs "AT+CIPRECVDATA=" ++ dec n ++ [CR; LF])) /\
  (txav (io d) + length cmd <= txsz (io d) -> q = cmd).
Proof.
  intros P d0 tr d e d' cmd q HB Hh Hs Hin.
  destruct (sc_commands P d e d' cmd q Hs (sc_unlocked P d0 tr d HB Hh) Hin) as (K & _ & F). split; [|exact F].
  destruct K as [K|[K|[K|(n & K1 & _ & K2)]]]; auto. right. right. right. exists n. split; [lia|exact K2].
Qed.
(** A command longer than the space left is cut, although 20 bytes were free. *)
Theorem C49_cc_cut_refuted : seen (sc_driver PU) sc_ex22 ([call (OpSetHostPort (PStr (bs "h")) 8%Z 1%Z)] ++ skipn 1 sc_start ++ dialog [crlf (bs "OK")]) =
  Ok ([DBool true], ["ATE0"; "AT+CIPSTART=""TCP"",""h"","]%string).
Proof. vm_compute. reflexivity. Qed.

(** ** C50: connected only when confirmed *)
Theorem C50_cc_confirmed : forall P d0 tr d, sc_built d0 -> sc_hist P d0 tr d -> ip_is_connected d = true -> sc_confirmed tr = true.
Proof. exact sc_connected_confirmed. Qed.
Example C50_cc_case : sc_seen (sc_start ++ dialog [crlf (bs "OK")] ++ [call OpIsConnected] ++ dialog [crlf (bs "ERROR")] ++ runs_ 2 ++ [call OpIsConnected]) =
  Ok ([DBool true; DBool false; DBool false], ["ATE0"; "AT+CIPSTART=""TCP"",""host"",80"; "AT+CIPCLOSE"])%string.
Proof. vm_compute. reflexivity. Qed.

(** ** C56: a failed opening of the serial port *)
Theorem C56_cc_refuted : forall P d0 e d1 tr d, sc_built d0 -> isopen d0 = false -> mac_request P (cmac (ext d0)) = false ->
  sc_step P d0 e d1 -> e_op e = OpRun false ->
  sc_hist P d1 tr d -> Forall (fun e => ~ sc_rescue e) tr ->
  sst d = SCSerialError /\ ip_is_connected d = false /\ Forall (fun e => put (e_ev e) = []) tr.
Proof. exact sc_failed_open. Qed.
Definition sc_ex_closed : res dv := sc_new ser64 false (repeat NUL 32) (repeat NUL 32) (repeat NUL 61) (repeat NUL 24) 1%Z.
Example C56_cc_case : seen (sc_driver PU) sc_ex_closed ([call (OpRun false)] ++ sc_start ++ sc_open ++ [call OpIsConnected]) =
    Ok ([DBool true; DBool false], []) /\
  seen (sc_driver PU) sc_ex_closed (runs_ 1 ++ sc_connected_ ++ [call OpIsConnected]) = sc_seen (sc_connected_ ++ [call OpIsConnected]).
Proof. split; vm_compute; reflexivity. Qed.

(** ** C57: the peer closes *)

(** With nothing to send and nothing to fetch, the run() that reads the notice
    and the next one end the connection. *)
Theorem C57_cc_closed : forall P d e d' e2 d2, sc_step P d e d' -> sc_at_rest P d -> sc_notice_run d e ->
  sc_step P d' e2 d2 -> sc_plain_run d' e2 ->
  ip_is_connected d2 = false /\ cst d2 = csNotConnected /\ sst d2 = SCNotConnected /\ put (e_ev e2) = [].
Proof. exact sc_peer_close. Qed.
Example C57_cc_case :
  sc_then (dialog [crlf (bs "CLOSED")] ++ [call OpIsConnected] ++ runs_ 1 ++ [call OpIsConnected; call OpIsIdle]) =
    Ok ([DBool true; DBool false; DBool true], []) /\
  sc_end (fun d => (isopen d, fReset (fl d), fLock (fl d), sst d, rst d, wait d, fData (fl d), avail (wbuf d), rssi d, mac_request PU (cmac (ext d)))) sc_connected_ =
    Ok (true, false, false, SCConnected, RCOk, None, false, 0, 255%Z, false).
Proof. split; vm_compute; reflexivity. Qed.

(** ** C69: SSL *)
Theorem C69_cc_refuted : forall P d0 tr d e d' cmd q, sc_built d0 -> sc_hist P d0 tr d -> sc_step P d e d' ->
  In (aCommand cmd q) (e_acts e) -> prefixb (bs "AT+CIPSTART=") cmd = true -> typ d = SSL ->
  prefixb (bs "AT+CIPSTART=" ++ quoted (bs "TCP") ++ bs ",") cmd = true.
Proof.
  intros P d0 tr d e d' cmd q HB Hh Hs Hin Hp Ht.
  rewrite (sc_open_command P d e d' cmd q Hs (sc_unlocked P d0 tr d HB Hh) Hin Hp), Ht.
  apply prefixb_spec. eexists. unfold quoted. rewrite <- !app_assoc. reflexivity.
Qed.

(** ** Assumptions *)
Print Assumptions C51_cc_safe.
Print Assumptions C51_cc_refuted.
Print Assumptions C51_cc_histories.
Print Assumptions C51_cc_actions.
Print Assumptions C32_cc_not_before_reply.
Print Assumptions C32_cc_unsent.
Print Assumptions C32_cc_refuted.
Print Assumptions C33_cc_kept.
Print Assumptions C33_cc_idle.
Print Assumptions C33_cc_refuted.
Print Assumptions C34_cc_line_buffer.
Print Assumptions C35_cc_lines.
Print Assumptions C39_cc_rssi.
Print Assumptions C39_cc_refuted.
Print Assumptions C58_cc_refuted.
Print Assumptions C58_cc_request.
Print Assumptions C58_cc_kept.
Print Assumptions C58_cc_sent.
Print Assumptions C58_cc_answer.
Print Assumptions C59_cc_refuted.
Print Assumptions C59_cc_kept.
Print Assumptions C43_cc_request.
Print Assumptions C43_cc_notice.
Print Assumptions C43_cc_interrupt_refuted.
Print Assumptions C54_cc_received.
Print Assumptions C55_cc_overrun_refuted.
Print Assumptions C55_cc_starve_refuted.
Print Assumptions C44_cc_payload.
Print Assumptions C45_cc_announce.
Print Assumptions C45_cc_zero_refuted.
Print Assumptions C53_cc_sent.
Print Assumptions C53_cc_interrupt_refuted.
Print Assumptions C46_cc_unlocked.
Print Assumptions C47_cc_paired.
Print Assumptions C48_cc_edges.
Print Assumptions C48_cc_undocumented.
Print Assumptions C49_cc_commands.
Print Assumptions C49_cc_cut_refuted.
Print Assumptions C50_cc_confirmed.
Print Assumptions C56_cc_refuted.
Print Assumptions C57_cc_closed.
Print Assumptions C69_cc_refuted.
