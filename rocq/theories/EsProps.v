(** The Espressif (ESP32/ESP8266) driver: what is proved of C32-C35, C39,
    C43-C51, C53-C59 and C69 for it.

    [se_built d0]: [d0] is a driver as the constructor leaves it.  [se_hist P d0
    tr d]: the calls [tr], with interrupts at any point, lead from [d0] to [d];
    by [C51_esp_histories] every sequence of valid calls that does not end in
    undefined behaviour is such a history.  The entries of [tr] say what call was
    made, what it returned, which serial events it caused and, for run(), how the
    bytes moved belong together (actions); the bytes of the actions are the bytes
    moved ([C51_esp_actions]). *)
From Coq Require Import String Ascii ZArith List Bool Arith Lia ZifyBool ZifyNat.
From Verif Require Import Base QueueSpec LineSpec SerialSpec Ring RingProofs LineRing LineRingProofs Serial SerialProofs
  SerStep TaskMacros CStr CStrProofs Dev DevProofs SimDev SimProofs SimSpec SimParse Sym DrvStep DrvCommon DrvRun DrvHist DrvActs DrvStuck DrvRecv SimLog
  Espressif EsSpec EsFill EsProofs EsCtl EsCtlIn EsRun AtLine EsHist EsThms EsMore EsLine EsReq EsRest EsStuck EsAck EsRecv Session.
Import ListNotations.
Local Open Scope nat_scope.
Local Notation dv := (dev essend esreply espx).
Local Notation ent := (@entry esop).

(** ** The sessions of the examples *)

(** Plain char signed (x86) and unsigned (ARM), there with 32 bit long. *)
Definition PS : plat := mkPlat true true.
Definition PU : plat := mkPlat false false.
Definition se_port (s : serial) (opened : bool) : res dv := se_new s opened (repeat NUL 32) (repeat NUL 32) (repeat NUL 61) (repeat NUL 18) 1%Z.
Definition se_ex : res dv := se_port ser64 true.
Definition se_names : @script esop := [call (OpX (SetSSID (PStr (bs "net")))); call (OpX (SetPassword (PStr (bs "pw"))))].
Definition se_start (t : Z) : @script esop :=
  se_names ++ [call (OpSetHostPort (PStr (bs "host")) 80%Z t); call OpConnect; call (OpRun true); call (OpRun true)].
Definition se_opens : @script esop := dialog (repeat (crlf (bs "OK")) 7).
Definition se_connected_ (t : Z) : @script esop := se_start t ++ se_opens.
Definition se_seen (h : @script esop) := seen (se_driver PU) se_ex h.
(** The same after the connection was opened. *)
Definition se_then (t : Z) (h : @script esop) : res (list dobs * list string) :=
  match se_seen (se_connected_ t ++ h) with Ok (a, b) => Ok (skipn 1 a, skipn 7 b) | UB u => UB u end.
Definition se_end {A} (f : dv -> A) (h : @script esop) : res A := ends (se_driver PU) f se_ex h.

Example se_ex_built : exists d, se_ex = Ok d /\ se_built d.
Proof.
  assert (W : serial_wf ser64).
  { repeat split; cbn; try lia; intro; discriminate. }
  destruct (se_new_ok False ser64 true (repeat NUL 32) (repeat NUL 32) (repeat NUL 61) (repeat NUL 18) 1%Z) as (d & E & _);
    try exact W; try discriminate; try (unfold fits; cbn; lia); try reflexivity; try contradiction.
  exists d. split; [exact E|]. unfold se_built. do 7 eexists. repeat (split; [shelve|]). exact E.
  Unshelve. all: try exact W; try discriminate; try (unfold fits; cbn; lia); try reflexivity.
Qed.

(** The whole opening dialogue: the commands and the final state. *)
Example se_session : se_seen (se_connected_ TCP ++ runs_ 1 ++ [call OpIsConnected]) =
  Ok ([DBool true; DBool true],
      ["ATE0"; "AT+CWMODE=1"; "AT+CWJAP=""net"",""pw"""; "AT+CIPMUX=0"; "AT+CIPRECVMODE=1"; "AT+CIPMODE=0"; "AT+CIPSTART=""TCP"",""host"",80"])%string.
Proof. vm_compute. reflexivity. Qed.

(** ** C51: memory safety *)

(** Undefined behaviour is reached only by connect() before both setSSID() and
    setPassword() were called, and by getMac() without any requestMac() before it,
    on a buffer that happens to hold no NUL. *)
Theorem C51_esp_safe : forall P d0 h u, se_built d0 -> se_valid h -> d_run (se_driver P) d0 h = UB u ->
  exists h1 o sch h2 d1 outs, h = h1 ++ (o, sch) :: h2 /\ d_run (se_driver P) d0 h1 = Ok (d1, outs) /\
    ((o = OpConnect /\ ((forall p sch', ~ In (OpX (SetSSID p), sch') h1) \/ (forall p sch', ~ In (OpX (SetPassword p), sch') h1))) \/
     (o = OpX GetMac /\ ~ In NUL (emac (ext d1)) /\ (forall sch', ~ In (OpX RequestMac, sch') h1))).
Proof. exact se_safe. Qed.
(** And it is reached. *)
Theorem C51_esp_refuted :
  (exists u, se_seen [call OpConnect] = UB u) /\
  seen (se_driver PU) (se_new ser64 true (repeat NUL 32) (repeat NUL 32) (repeat NUL 61) (repeat "x"%char 18) 1%Z) [call (OpX GetMac)] = UB OutOfBounds.
Proof. split; [eexists|]; vm_compute; reflexivity. Qed.

Theorem C51_esp_histories : forall P d0 h d outs, se_built d0 -> se_valid h -> d_run (se_driver P) d0 h = Ok (d, outs) ->
  exists tr, se_hist P d0 tr d /\ map (fun e => (e_op e, e_sch e)) tr = h /\ map (fun e => (e_out e, e_ev e)) tr = outs.
Proof. exact se_every_run. Qed.

Theorem C51_esp_actions : forall P d e d' oo, se_step P d e d' -> e_op e = OpRun oo ->
  taken (e_ev e) = concat (map act_taken (e_acts e)) /\ put (e_ev e) = concat (map act_put (e_acts e)).
Proof. intros P d e d' oo (_ & _ & _ & _ & _ & _ & H & _) E. rewrite E in H. exact H. Qed.

(** ** C32: writeBufferProcessed() *)

(** From the announcement of a block until the reply to it, it is false. *)
Theorem C32_esp_not_before_reply : forall P d0 tr d, se_built d0 -> se_hist P d0 tr d -> tx_log se_acks se_nacks tr <> txNone ->
  ip_write_buffer_processed d = false.
Proof.
  intros P d0 tr d HB Hh Ht. pose proof (se_tx_history P d0 tr d (se_built_fresh _ HB) Hh) as H.
  unfold ip_write_buffer_processed. destruct (tx_log se_acks se_nacks tr); [contradiction Ht; reflexivity| |]; destruct H as [-> _]; apply andb_false_r.
Qed.
(** Nor while there are accepted bytes that were not handed to the modem (see
    also C53). *)
Theorem C32_esp_unsent : forall d : dv, ring_ok (wbuf d) -> contents (wbuf d) <> [] -> ip_write_buffer_processed d = false.
Proof.
  intros d Hok H. unfold ip_write_buffer_processed. destruct (avail (wbuf d)) eqn:E; [|reflexivity].
  contradiction H. unfold contents. rewrite E. reflexivity.
Qed.
Definition se_hello : @script esop := [call (OpWrite (bs "hello") 5)] ++ runs_ 1 ++ dialog [bs ">"].
Example C32_esp_case : se_then TCP (se_hello ++ [call OpWriteBufferProcessed] ++ dialog [crlf (bs "CLOSED")] ++ [call OpWriteBufferProcessed] ++ dialog [crlf (bs "SEND OK")] ++ [call OpWriteBufferProcessed]) =
  Ok ([DCount 5; DBool false; DBool false; DBool true], ["AT+CIPSEND=5"; "hello"])%string.
Proof. vm_compute. reflexivity. Qed.
(** An error reply also makes it true. *)
Theorem C32_esp_refuted : se_then TCP (se_hello ++ [call OpWriteBufferProcessed] ++ dialog [crlf (bs "SEND FAIL")] ++ [call OpWriteBufferProcessed]) =
  Ok ([DCount 5; DBool false; DBool true], ["AT+CIPSEND=5"; "hello"])%string.
Proof. vm_compute. reflexivity. Qed.

(** ** C33: disconnect() *)
Theorem C33_esp_kept : forall P d0 tr d e d', se_built d0 -> se_hist P d0 tr d -> se_step P d e d' -> fDisc (fl d) = true ->
  fDisc (fl d') = true \/ sst d' = SESendCipclose \/ sst d' = SESendCwqap \/ e_op e = OpResetStates \/ (fReset (fl d) = true /\ sst d' = SENotConnected).
Proof. intros P d0 tr d e d' HB Hh Hs. apply (se_disc_kept P d e d' Hs (se_unlocked P d0 tr d HB Hh)). Qed.
Theorem C33_esp_idle : forall P d e d', se_step P d e d' -> e_op e = OpDisconnect ->
  fDisc (fl d') = (if ip_is_idle d then fDisc (fl d) else true) /\ fConnect (fl d') = fConnect (fl d) /\ sst d' = sst d.
Proof. exact se_disc_idle. Qed.
(** Called right after connect(), it is ignored. *)
Theorem C33_esp_refuted :
  se_seen (firstn 4 (se_start TCP) ++ [call OpDisconnect] ++ skipn 4 (se_start TCP) ++ se_opens ++ runs_ 1 ++ [call OpIsConnected]) =
  se_seen (se_connected_ TCP ++ runs_ 1 ++ [call OpIsConnected]).
Proof. vm_compute. reflexivity. Qed.

(** ** C34, C35: reply lines *)
Theorem C34_esp_line_buffer : forall P d0 tr d, se_built d0 -> se_hist P d0 tr d -> length (lbuf d) = 61 /\ lbfill d < 60.
Proof.
  intros P d0 tr d HB Hh. assert (HI : se_all False d) by (apply (hist_inv _ _ _ _ _ _ _ Hh), (se_built_fresh _ HB)).
  destruct HI as (((_ & _ & _ & _ & _ & _ & _ & _ & Hl & _) & _) & _). unfold line_ok in Hl. destruct Hl as (H1 & H2 & _). split; lia.
Qed.
(** Which bytes end a line depends on the type of the connection and the reply
    expected ([se_ends]). *)
Definition se_complete (L : bytes) : Prop := exists t r n, se_whole_at t r n L.
Theorem C35_esp_lines : forall P d0 tr d, se_built d0 -> se_hist P d0 tr d ->
  fst (fold_left line_log tr ([], [])) = concat (snd (fold_left line_log tr ([], []))) ++ pending d /\
  Forall se_complete (snd (fold_left line_log tr ([], []))) /\ partial_line (pending d).
Proof.
  intros P d0 tr d HB Hh. pose proof (se_built_fresh _ HB) as HF.
  destruct (line_history _ _ _ _ _ (se_contract False P) se_complete (fun x L H => ex_intro _ (typ x) (ex_intro _ (rst x) (ex_intro _ (lbfill x) H))) d0 tr d Hh) as [A B]; [apply HF|]. split; [exact A|]. split; [exact B|].
  assert (HI : se_all False d) by (apply (hist_inv _ _ _ _ _ _ _ Hh), HF).
  destruct HI as (((_ & _ & _ & _ & _ & _ & _ & _ & Hl & _) & _) & _). unfold line_ok in Hl. apply Hl.
Qed.
(** A line is handled by the run() that reads its last byte, and not before. *)
Theorem C35_esp_end : forall P d0 tr d e d' tk L, se_built d0 -> se_hist P d0 tr d -> se_step P d e d' -> In (aLine tk L) (e_acts e) ->
  L = pending d ++ tk /\ exists body c, L = body ++ [c] /\ length (pending d) <= length body /\
    se_ends (typ d) (rst d) L = true /\ (forall a b, body = a ++ b -> length (pending d) < length a -> se_ends (typ d) (rst d) a = false).
Proof.
  intros P d0 tr d e d' tk L HB Hh Hs Hin. pose proof (se_unlocked P d0 tr d HB Hh) as HL.
  assert (Hlen : length (pending d) = lbfill d).
  { destruct (C34_esp_line_buffer P d0 tr d HB Hh) as [H1 H2]. unfold pending. rewrite firstn_length. lia. }
  assert (Eo : exists oo, e_op e = OpRun oo).
  { destruct (se_cases P d e d' Hs) as (d1 & _ & _ & [(oo & E & _)|(_ & E & _)]); [eauto|]. rewrite E in Hin. destruct Hin. }
  destruct Eo as [oo Eo].
  destruct (se_parts P d e d' oo Hs Eo HL) as (d1 & _ & [(E & _)|[(_ & _ & q & E & _)|(_ & _ & a & d2 & r & Hi & _ & Hr)]]).
  { rewrite E in Hin. destruct Hin. }
  { rewrite E in Hin. destruct Hin as [E2|[]]. discriminate E2. }
  assert (Ha : a = aLine tk L).
  { destruct Hr as [(E & _)|(b & _ & E & Ho & _)]; rewrite E in Hin; destruct Hin as [Hin|Hin]; try exact Hin; [destruct Hin|]. destruct Hin as [Hin|[]]. subst b. inversion Ho. }
  subst a. assert (Hw : se_whole (during (e_sch e) d) L /\ L = pending (during (e_sch e) d) ++ tk) by (inversion Hi; split; assumption).
  destruct Hw as [(body & c & A1 & A2 & _ & A3 & A4) A5]. split; [exact A5|]. exists body, c. rewrite Hlen. splits; auto.
Qed.
(** A line in three pieces over five calls. *)
Definition se_answer_ : bytes := bs "WJAP:" ++ [DQ] ++ bs "net" ++ [DQ] ++ bs "," ++ [DQ] ++ bs "a1:b2" ++ [DQ] ++ bs ",6,-6".
Example C35_esp_case : se_end (fun d => (lbfill d, rssi d))
   ([call OpRequestRSSI] ++ runs_ 1 ++ dialog [bs "+C"; se_answer_; []] ) = Ok (25, INT16_MAX) /\
  se_end (fun d => (lbfill d, rssi d)) ([call OpRequestRSSI] ++ runs_ 1 ++ dialog [bs "+C"; se_answer_; []; crlf (bs "7")]) = Ok (0, (-67)%Z).
Proof. split; vm_compute; reflexivity. Qed.

(** ** C39: signal strength *)

(** The number behind the third comma of the reply, cut to 16 bits. *)
Theorem C39_esp_rssi : forall P d0 tr d e d' n, se_built d0 -> se_hist P d0 tr d -> se_step P d e d' -> e_op e = OpGetRSSI -> e_out e = DNum n ->
  n = rE_value (rssiE_log P tr).
Proof.
  intros P d0 tr d e d' n HB Hh Hs Eo Ee. destruct (se_rssi_history P d0 tr d (se_built_fresh _ HB) Hh) as [<- _].
  destruct (se_cases P d e d' Hs) as (d1 & _ & _ & [(oo & E & _)|(_ & _ & _ & Hc)]); [congruence|].
  rewrite Eo, Ee in Hc. destruct Hc as [_ Hc]. injection Hc as <- _. reflexivity.
Qed.
Lemma behind_word : forall w n t, Forall (fun c => c <> ","%char /\ c <> NUL) w ->
  behind_commas n (w ++ bs "," ++ t) = match n with S (S m) => behind_commas (S m) t | _ => Some t end.
Proof.
  induction w as [|c w IH]; intros n t H; [reflexivity|]. inversion H as [|c' w' [H1 H2] H3]; subst. cbn [app behind_commas].
  destruct (Ascii.eqb_spec c NUL); [contradiction|]. destruct (Ascii.eqb_spec c ","); [contradiction|]. apply IH, H3.
Qed.
(** That is the signal strength in the reply +CWJAP:name,address,channel,strength
    if there is no comma in the name. *)
Theorem C39_esp_value : forall P name mac ch t old, Forall (fun c => c <> ","%char /\ c <> NUL) (name ++ mac ++ ch) ->
  se_rssi_text P (bs "+CWJAP:" ++ name ++ bs "," ++ mac ++ bs "," ++ ch ++ bs "," ++ t) old = i16 (number P t).
Proof.
  intros P name mac ch t old H. apply Forall_app in H as [H1 H]. apply Forall_app in H as [H2 H3].
  unfold se_rssi_text. change (skipn 7 (bs "+CWJAP:" ++ name ++ bs "," ++ mac ++ bs "," ++ ch ++ bs "," ++ t)) with (name ++ bs "," ++ mac ++ bs "," ++ ch ++ bs "," ++ t).
  rewrite !behind_word by assumption. reflexivity.
Qed.
Definition se_ask_rssi (l : bytes) : @script esop := [call OpRequestRSSI] ++ runs_ 1 ++ dialog [l; crlf (bs "OK")] ++ [call OpGetRSSI].
Definition cwjap (ss rest : string) : bytes := crlf (bs "+CWJAP:" ++ [DQ] ++ bs ss ++ [DQ] ++ bs "," ++ [DQ] ++ bs "aa:bb:cc:dd:ee:ff" ++ [DQ] ++ bs rest).
Example C39_esp_case : se_seen (se_ask_rssi (cwjap "net" ",6,-58")) = Ok ([DNum (-58)], ["AT+CWJAP?"%string]) /\
  se_seen (se_ask_rssi (crlf (bs "No AP"))) = Ok ([DNum 99], ["AT+CWJAP?"%string]).
Proof. split; vm_compute; reflexivity. Qed.
(** A comma in the name of the network gives another number; a long name, for
    which the reply exceeds the line buffer, gives none, and the query is repeated. *)
Theorem C39_esp_refuted :
  se_seen (se_ask_rssi (cwjap "a,b" ",6,-58")) = Ok ([DNum 6], ["AT+CWJAP?"%string]) /\
  se_seen (se_ask_rssi (cwjap "0123456789abcdef0123456789abcdef" ",6,-58") ++ runs_ 2) = Ok ([DNum 32767], ["AT+CWJAP?"; "AT+CWJAP?"]%string).
Proof. split; vm_compute; reflexivity. Qed.

(** ** C58: the MAC address *)

(** Where plain char is signed the query is never sent. *)
Theorem C58_esp_refuted : forall P d0 tr d e d' cmd q, char_signed P = true -> se_built d0 -> se_hist P d0 tr d -> se_step P d e d' ->
  In (aCommand cmd q) (e_acts e) -> prefixb (bs "AT+CIPSTAMAC?") cmd = false.
Proof. intros P d0 tr d e d' cmd q HP HB Hh Hs. apply (se_mac_signed P d e d' cmd q HP Hs (se_unlocked P d0 tr d HB Hh)). Qed.
(** Where it is unsigned, the request waits for the query to be sent (or for an
    address that arrives without it), and it is sent by the next run() that has
    nothing else to do. *)
Theorem C58_esp_request : forall P d e d', se_step P d e d' -> e_op e = OpX RequestMac ->
  se_mac_request P (emac (ext d')) = negb (char_signed P).
Proof.
  intros P d e d' Hs Eo. destruct (se_cases P d e d' Hs) as (d1 & Ed & HA & [(oo & E & _)|(_ & _ & _ & Hc)]); [congruence|].
  rewrite Eo in Hc. destruct Hc as (_ & _ & Hc). cbn [drv_x se_driver se_x] in Hc. rewrite Ed. cbn [ext set_io].
  unfold se_request_mac, wr in Hc. change (ext (during (e_sch e) d)) with (ext d) in Hc.
  destruct (emac (ext d)) as [|c0 [|c1 t]]; cbn [nth_error bind list_set] in Hc; try discriminate Hc.
  apply (f_equal (fun r => match r with Ok (_, x) => emac (ext x) | UB _ => [] end)) in Hc. cbn in Hc. rewrite <- Hc.
  unfold se_mac_request. cbn [nth_error]. destruct (char_signed P); reflexivity.
Qed.
Theorem C58_esp_kept : forall P d0 tr d e d', se_built d0 -> se_hist P d0 tr d -> se_step P d e d' -> se_mac_request P (emac (ext d)) = true ->
  se_mac_request P (emac (ext d')) = true \/ (exists q, In (aCommand (bs "AT+CIPSTAMAC?" ++ [CR; LF]) q) (e_acts e)) \/
  (exists tk L, In (aLine tk L) (e_acts e) /\ prefixb (bs "+CIPSTAMAC:" ++ [DQ]) L = true).
Proof. intros P d0 tr d e d' HB Hh Hs. apply (se_mac_kept P d e d' Hs (se_unlocked P d0 tr d HB Hh)). Qed.
Theorem C58_esp_sent : forall P d0 tr d e d' oo, se_built d0 -> se_hist P d0 tr d -> se_step P d e d' -> e_op e = OpRun oo -> se_mac_request P (emac (ext d)) = true ->
  isopen d = true -> fReset (fl d) = false -> wait d = None -> rst d = REOk -> rssi d <> INT16_MAX -> fLine (fl d) = true ->
  e_sch e = [] -> txav (io d) + 20 <= txsz (io d) -> (forall tk L, ~ In (aLine tk L) (e_acts e)) ->
  exists q, In (aCommand (bs "AT+CIPSTAMAC?" ++ [CR; LF]) q) (e_acts e).
Proof. intros P d0 tr d e d' oo HB Hh Hs Eo. apply (se_mac_sent P d e d' oo Hs Eo (se_unlocked P d0 tr d HB Hh)). Qed.
(** What getMac() returns after requestMac() was received since. *)
Theorem C58_esp_answer : forall P d0 tr d e d' s, se_built d0 -> se_hist P d0 tr d -> se_step P d e d' ->
  e_op e = OpX GetMac -> e_out e = DStr (Some s) -> ml_req (macE_log tr) = true ->
  exists L, In L (ml_lines (macE_log tr)) /\ prefixb (bs "+CIPSTAMAC:" ++ [DQ]) L = true /\ s = firstn 17 (upto DQ (cbody (skipn 12 L))).
Proof. exact se_mac_answer. Qed.
Definition se_ask_mac : @script esop := [call (OpX RequestMac)] ++ runs_ 1 ++ dialog [crlf (bs "+CIPSTAMAC:" ++ [DQ] ++ bs "24:6f:28:aa:bb:cc" ++ [DQ]); crlf (bs "OK")] ++ [call (OpX GetMac)].
Example C58_esp_case : seen (se_driver PU) se_ex se_ask_mac = Ok ([DStr (Some (bs "24:6f:28:aa:bb:cc"))], ["AT+CIPSTAMAC?"%string]) /\
  seen (se_driver PS) se_ex se_ask_mac = Ok ([DStr None], []).
Proof. split; vm_compute; reflexivity. Qed.

(** ** C59: a line read while the signal strength is expected *)

(** It does not touch the MAC address: only an answer to AT+CIPSTAMAC? does. *)
Theorem C59_esp_kept : forall P d ret d' L, se_handles P d ret d' L -> se_whole d L -> rst d <> REParseCiprecvdata ->
  rst d <> REReqMac \/ prefixb (bs "+CIPSTAMAC:" ++ [DQ]) L = false -> emac (ext d') = emac (ext d).
Proof.
  intros P d ret d' L H Hw Hn Hp. destruct (se_line_effect P d ret d' L Hn Hw H) as [(_ & _ & He) _]. destruct (se_is_error L); [apply He|].
  destruct He as (_ & _ & _ & He & _). unfold se_takes_mac in He. change mac_lit with (bs "+CIPSTAMAC:" ++ [DQ]) in He.
  destruct (rst d); try exact He. destruct Hp as [Hp|Hp]; [contradiction Hp; reflexivity|]. rewrite Hp in He. exact He.
Qed.
Example C59_esp_case : se_seen (se_ask_mac ++ [call OpRequestRSSI] ++ runs_ 1 ++ dialog [crlf (bs "+CIPSTAMAC:" ++ [DQ] ++ bs "other" ++ [DQ]); cwjap "net" ",6,-60"; crlf (bs "OK")] ++ [call (OpX GetMac); call OpGetRSSI]) =
  Ok ([DStr (Some (bs "24:6f:28:aa:bb:cc")); DStr (Some (bs "24:6f:28:aa:bb:cc")); DNum (-60)], ["AT+CIPSTAMAC?"; "AT+CWJAP?"]%string).
Proof. vm_compute. reflexivity. Qed.

(** ** C43, C54, C55: receiving *)
Theorem C43_esp_request : forall P d0 tr d e d' cmd q, se_built d0 -> se_hist P d0 tr d -> se_step P d e d' ->
  In (aCommand cmd q) (e_acts e) -> prefixb (bs "AT+CIPRECVDATA=") cmd = true ->
  exists n, cmd = bs "AT+CIPRECVDATA=" ++ dec n ++ [CR; LF] /\ (0 <= n <= 2048)%Z /\
    (n <= Z.of_nat (ring_space (rbuf d)))%Z /\ (n <= toReceive d')%Z /\ (exists w u, In (w, u) (xe_may (rxE_log P (tr ++ [e]))) /\ (n <= w)%Z) /\
    (e_sch e = [] -> (0 < n)%Z /\ (n + 30 + Z.of_nat (rxav (io d)) <= Z.of_nat (rxsz (io d)) + Z.of_nat (length (taken (e_ev e))))%Z).
Proof. exact se_request. Qed.
(** Once connected, a notice sets the number exactly (TCP), or adds to the bytes
    to be read (otherwise). *)
Theorem C43_esp_notice : forall P d ret d' L, se_handles P d ret d' L -> se_whole d L -> rst d <> REParseCiprecvdata -> 10 <= se_rank (sst d) ->
  prefixb (bs "+IPD") L = true -> fData (fl d') = true /\
  (typ d = TCP -> toReceive d' = u64 (i32 (number P (skipn 5 L))) /\ toRead d' = toRead d /\ fLine (fl d') = fLine (fl d)) /\
  (typ d <> TCP -> toReceive d' = toReceive d /\ toRead d' = u64 (toRead d + i32 (number P (skipn 5 L))) /\ fLine (fl d') = false).
Proof.
  intros P d ret d' L H Hw Hn Hs Hp. destruct (se_line_effect P d ret d' L Hn Hw H) as [(_ & _ & He) _].
  assert (Hf : se_is_error L = false) by (pose proof Hp as Hp'; apply prefixb_spec in Hp' as [t ->]; reflexivity).
  assert (Hd : se_data (rst d) L = false).
  { destruct (se_data (rst d) L) eqn:E; [|reflexivity]. unfold se_data in E. apply andb_true_iff in E as [_ E]. apply se_header_prefix in E.
    pose proof Hp as Hp'. apply prefixb_spec in Hp' as [t ->]. discriminate E. }
  rewrite Hf in He. rewrite Hd, Hp in He. apply Nat.leb_le in Hs. rewrite Hs in He. cbn [andb orb] in He.
  destruct He as (_ & _ & _ & _ & E2 & E3 & E4 & E5 & _). split; [exact E5|].
  split; intro Ht; (destruct (Z.eqb_spec (typ d) TCP) as [E|E]; [|]); try contradiction; cbn [negb] in *; auto.
Qed.
Definition se_notice_ (n : bytes) : @script esop := dialog [crlf (bs "+IPD," ++ n)] ++ runs_ 1.
Example C43_esp_case : se_then TCP (se_notice_ (bs "50")) = Ok ([], ["AT+CIPRECVDATA=32"]%string).
Proof. vm_compute. reflexivity. Qed.
(** Under interrupts the request may even be for 0 bytes. *)
Definition se_rx_race (k : nat) : @script esop :=
  dialog [crlf (bs "+IPD,5")] ++ [(OpRun true, repeat [] k ++ [map (fun c => Transfer (Some c) true) (repeat "x"%char 98)])].
Theorem C43_esp_interrupt_refuted : exists k, se_then TCP (se_rx_race k) = Ok ([], ["AT+CIPRECVDATA=0"]%string).
Proof. exists 3. vm_compute. reflexivity. Qed.

(** TCP connections: what read() returned and what is held is what was read from
    the port if no reply announced more than was asked for. *)
Theorem C54_esp_received : forall P d0 e0 h p d1 tr d, se_built d0 -> se_step P d0 e0 d1 -> e_op e0 = OpSetHostPort h p TCP -> se_hist P d1 tr d ->
  Forall (fun e => forall h p t, e_op e = OpSetHostPort h p t -> t = TCP) tr ->
  let acc := r_log (rxE_req P) (rxE_rep P) tr in
  r_ok acc = true -> r_in acc = r_out acc ++ contents (rbuf d).
Proof. intros P d0 e0 h p d1 tr d HB Hs Eo Hh HT acc H. apply (se_received P d0 e0 h p d1 tr d HB Hs Eo Hh HT H). Qed.
(** Connections of any type: the same if everything announced fitted the space
    left in the read buffer. *)
Theorem C54_esp_received_any : forall P d0 tr d, se_built d0 -> se_hist P d0 tr d ->
  let acc := el_log P (rsize (rbuf d0)) tr in
  el_ok acc = true -> el_in acc = el_out acc ++ contents (rbuf d).
Proof.
  intros P d0 tr d HB Hh acc H. destruct (se_received_any P d0 tr d (se_built_fresh _ HB) Hh) as (_ & _ & _ & _ & K). destruct (K H) as (_ & K1 & _). exact K1.
Qed.
Definition se_receive_ (m : bytes) (data : bytes) : @script esop :=
  se_notice_ (bs "5") ++ dialog [bs "+CIPRECVDATA," ++ m ++ bs ":"; data].
Example C54_esp_case : se_then TCP (se_receive_ (bs "5") (bs "world") ++ [call OpBytesAvailable; call (OpRead 40)]) =
    Ok ([DCount 5; DData (bs "world") 5], ["AT+CIPRECVDATA=5"]%string) /\
  se_then UDP (dialog [bs "+IPD,5:"; bs "world"] ++ runs_ 1 ++ [call OpBytesAvailable; call (OpRead 40)]) = Ok ([DCount 5; DData (bs "world") 5], []).
Proof. split; vm_compute; reflexivity. Qed.
(** What happens otherwise: data is lost, or the driver waits for ever.  Over UDP
    the driver has no say in how much arrives. *)
Theorem C55_esp_overrun_refuted :
  se_then TCP (se_receive_ (bs "40") (bs "abcdefghij" ++ repeat "x"%char 30) ++ [call OpBytesAvailable; call (OpRead 40)]) =
    Ok ([DCount 32; DData (repeat "x"%char 8 ++ bs "ij" ++ repeat "x"%char 22) 32], ["AT+CIPRECVDATA=5"]%string) /\
  se_then UDP (dialog [bs "+IPD,40:"; bs "abcdefghij" ++ repeat "x"%char 30] ++ runs_ 1 ++ [call OpBytesAvailable; call (OpRead 40)]) =
    Ok ([DCount 32; DData (repeat "x"%char 8 ++ bs "ij" ++ repeat "x"%char 22) 32], []).
Proof. split; vm_compute; reflexivity. Qed.
Theorem C55_esp_starve_refuted : forall P d tr d', se_hist P d tr d' -> se_starves (rxsz (io d)) d -> Forall (fun e => ~ se_helps e) tr ->
  se_starves (rxsz (io d)) d' /\ Forall silent tr.
Proof. exact se_starve. Qed.
Example C55_esp_case : se_end (fun d => (sst d, rst d, wait d, fLine (fl d), toRead d)) (se_connected_ TCP ++ se_receive_ (bs "-1") []) =
  Ok (SEReceiving, REOk, None, false, 18446744073709551615%Z).
Proof. vm_compute. reflexivity. Qed.
(** A datagram that arrives while a reply is awaited: the reply is not read any
    more, and nothing is ever sent or received again. *)
Theorem C55_esp_deaf_refuted : forall P d tr d', se_hist P d tr d' ->
  isopen d = true -> fReset (fl d) = false -> fDisc (fl d) = false -> fLine (fl d) = false -> wait d <> None \/ re_ok (rst d) = false ->
  Forall (fun e => ~ se_helps e) tr -> Forall silent tr.
Proof. intros P d tr d' Hh H1 H2 H3 H4 H5 HF. apply (se_deaf_ever P d tr d' Hh); [unfold se_deaf; splits; assumption|exact HF]. Qed.
Example C55_esp_deaf_case :
  se_end (fun d => (isopen d, fReset (fl d), fDisc (fl d), fLine (fl d), wait d)) (se_connected_ UDP ++ se_hello ++ dialog [bs "+IPD,5:"]) =
    Ok (true, false, false, false, Some (bs "SEND OK")) /\
  se_then UDP (se_hello ++ dialog [bs "+IPD,5:"; bs "world"; crlf (bs "SEND OK")] ++ runs_ 9 ++ [call OpBytesAvailable; call OpWriteBufferProcessed]) =
    Ok ([DCount 5; DCount 0; DBool false], ["AT+CIPSEND=5"; "hello"]%string).
Proof. split; vm_compute; reflexivity. Qed.

(** ** C44, C45, C53: sending *)
Theorem C44_esp_payload : forall P d0 tr d e d' q, se_built d0 -> se_hist P d0 tr d -> se_step P d e d' -> In (aPayload q) (e_acts e) ->
  exists n, fold_left announce_log tr None = Some n /\ length q <= Z.to_nat n /\ (clean (e_ev e) -> length q = Z.to_nat n).
Proof.
  intros P d0 tr d e d' q HB Hh Hs Hin.
  destruct (payload_announced _ _ _ _ _ (se_contract False P) eq_refl d0 tr d e d' q Hh) as (n & A & _ & B); auto.
  - pose proof (se_built_fresh _ HB) as HF. destruct HF as (_ & _ & -> & _). reflexivity.
  - exists n. auto.
Qed.
(** The announced number without interrupts, and in general. *)
Theorem C45_esp_announce : forall P d0 tr d e d' n q, se_built d0 -> se_hist P d0 tr d -> se_step P d e d' -> In (aAnnounce n q) (e_acts e) ->
  0 < avail (wbuf d) /\ (0 <= n <= Z.of_nat (txsz (io d)) - 22)%Z /\
  (e_sch e = [] -> exists k, k <= txav (io d) /\ n = Z.min (Z.of_nat (avail (wbuf d))) (Z.of_nat (txsz (io d)) - Z.of_nat k - 22)).
Proof.
  intros P d0 tr d e d' n q HB Hh Hs Hin.
  destruct (se_sent P d e d' _ Hs (se_unlocked P d0 tr d HB Hh) Hin eq_refl) as (a & dm & d1 & Ea & Hl & Hx & Ho & Hox & Hd' & Hk & _ & (evx & Hev) & Htx).
  assert (Hw : wbuf dm = wbuf d) by (destruct Hk as (_ & _ & Hk & _); exact Hk).
  assert (Hsz : txsz (io dm) = txsz (io d)) by (apply sstep_caps in Hev; destruct d; apply Hev).
  inversion Ho as [| |y n' q' Aw Io1 Io2 Hlen Hfull Hk1 Hk2 Hav Htw H0 Hsp Hsch| |]; subst n' q'.
  assert (txsz y = txsz (io dm)) by (destruct (ioeff_caps _ _ _ _ Io1); assumption).
  rewrite <- Hw. split; [exact Hav|]. split; [lia|]. intro Es. exists (txav (io dm)). split; [exact Htx|].
  assert (Hsd : sched (io dm) = []).
  { destruct Hev as (_ & _ & _ & _ & _ & _ & Hev). apply Hev. rewrite Es. destruct d; reflexivity. }
  rewrite <- Hsz. apply Hsch, Hsd.
Qed.
(** A serial write buffer of 22 bytes makes every announcement one of 0 bytes. *)
Theorem C45_esp_zero_refuted : forall P d0 tr d e d' n q, se_built d0 -> se_hist P d0 tr d -> se_step P d e d' -> In (aAnnounce n q) (e_acts e) -> txsz (io d) = 22 -> n = 0%Z.
Proof. intros P d0 tr d e d' n q HB Hh Hs Hin E. destruct (C45_esp_announce P d0 tr d e d' n q HB Hh Hs Hin) as (_ & H & _). rewrite E in H. lia. Qed.
(** A connected session over a port with a transmit buffer of [n] bytes. *)
Definition se_exn (n : nat) : res dv := se_port (mkSerial (lring_new (repeat NUL 128)) (lring_new (repeat NUL n))) true.
Example C45_esp_zero_case : seen (se_driver PU) (se_exn 22) (se_connected_ TCP ++ [call (OpWrite (bs "hello") 5)] ++ runs_ 1) =
  Ok ([DBool true; DCount 5], ["ATE0"; "AT+CWMODE=1"; "AT+CWJAP=""net"",""pw"""; "AT+CIPMUX=0"; "AT+CIPRECVMODE=1"; "AT+CIPMODE=0";
    "AT+CIPSTART=""TCP"",""hos"; "AT+CIPSEND=0"]%string).
Proof. vm_compute. reflexivity. Qed.

Theorem C53_esp_sent : forall P d0 tr d, se_built d0 -> se_hist P d0 tr d ->
  Forall (fun e => clean (e_ev e) /\ (announces (e_acts e) = true -> e_sch e = [])) tr ->
  fst (fold_left write_log tr ([], [])) = snd (fold_left write_log tr ([], [])) ++ contents (wbuf d).
Proof.
  intros P d0 tr d HB Hh HQ. pose proof (se_built_fresh _ HB) as (_ & _ & F1 & _ & _ & _ & _ & _ & _ & F2 & _ & F3 & _).
  apply (write_history _ _ _ _ _ (se_contract False P) eq_refl d0 tr d Hh); auto. rewrite F1. reflexivity.
Qed.
(** A transmit buffer of 40 bytes. *)
Example C53_esp_case : seen (se_driver PU) (se_exn 40) (se_connected_ TCP ++ [call (OpWrite (bs "0123456789abcdefghijklmn") 24)] ++ runs_ 1 ++
     dialog [bs ">"; crlf (bs "SEND OK")] ++ runs_ 1 ++ dialog [bs ">"; crlf (bs "SEND OK")]) =
  Ok ([DBool true; DCount 24],
      ["ATE0"; "AT+CWMODE=1"; "AT+CWJAP=""net"",""pw"""; "AT+CIPMUX=0"; "AT+CIPRECVMODE=1"; "AT+CIPMODE=0"; "AT+CIPSTART=""TCP"",""host"",80";
       "AT+CIPSEND=18"; "0123456789abcdefgh"; "AT+CIPSEND=6"; "ijklmn"]%string).
Proof. vm_compute. reflexivity. Qed.
(** If the transmit interrupt empties the serial buffer between two looks at
    the space left, more is announced and sent than was ever written. *)
Definition se_stalled (s : bytes) : dop esop * list (list isr) := (OpIdle, [map (fun c => Transfer (Some c) false) s]).
Definition se_tx_race (k : nat) : @script esop :=
  se_start TCP ++ dialog (repeat (crlf (bs "OK")) 6) ++ [se_stalled (crlf (bs "OK")); call (OpRun true); call (OpRun true)] ++ [call (OpWrite (bs "0123456789abcdefghijklmn") 24)] ++
  [(OpRun true, repeat [] k ++ [repeat (Transfer None true) 64])] ++ dialog [bs ">"].
Definition se_announced (r : res (list dobs * list string)) : option (list string * list nat) :=
  match r with Ok (_, l) => match skipn 7 l with a :: p => Some ([a], map String.length p) | _ => None end | _ => None end.
Theorem C53_esp_interrupt_refuted : exists k, se_announced (seen (se_driver PU) (se_exn 64) (se_tx_race k)) = Some (["AT+CIPSEND=42"%string], [42]).
Proof. exists 4. vm_compute. reflexivity. Qed.

(** ** C46: the serial lock *)

(** This driver has no serialLock(); the raw access functions never do
    anything. *)
Theorem C46_esp_unlocked : forall P d0 tr d e d', se_built d0 -> se_hist P d0 tr d -> se_step P d e d' -> raw_access e ->
  (e_out e = DCount 0 \/ e_out e = DData [] 0) /\ taken (e_ev e) = [] /\ put (e_ev e) = [] /\ d' = set_io (io d') d.
Proof. exact se_unlocked_raw. Qed.
Example C46_esp_case : se_then TCP ([call (OpSerialWrite (PStr (bs "x"))); modem (crlf (bs "abc")); call (OpSerialRead 9)] ++ runs_ 1) =
  Ok ([DCount 0; DData [] 0], []).
Proof. vm_compute. reflexivity. Qed.

(** ** C47: commands and replies stay paired *)
Theorem C47_esp_paired : forall P d0 tr d, se_built d0 -> se_hist P d0 tr d -> se_awaited tr <> None.
Proof. intros P d0 tr d HB Hh E. pose proof (se_pair_history P d0 tr d (se_built_fresh _ HB) Hh) as (w & H & _). congruence. Qed.

(** ** C48: the state diagram *)
Theorem C48_esp_edges : forall P d0 tr d e d', se_built d0 -> se_hist P d0 tr d -> se_step P d e d' ->
  match e_op e with
  | OpRun oo =>
      (isopen d = false /\ sst d' = (if oo then sst d else SESerialError)) \/
      (isopen d = true /\ fReset (fl d) = true /\ sst d' = se_reset_state d) \/
      (isopen d = true /\ fReset (fl d) = false /\
       exists s, (s = sst d \/ In (sst d, s) (se_diagram ++ se_wifi_lost ++ se_revival)) /\
                 (sst d' = s \/ In (s, sst d') (se_diagram ++ se_undocumented)))
  | OpResetStates => sst d' = SENotConnected
  | _ => sst d' = sst d
  end.
Proof. intros P d0 tr d e d' HB Hh Hs. apply (se_edges P d e d' Hs (se_unlocked P d0 tr d HB Hh)). Qed.
(** Transitions the diagram lacks do occur. *)
Theorem C48_esp_undocumented : ~ In (SEConnecting, SESendCwmode) se_diagram /\ ~ In (SESendCwjap, SESendCipmux) se_diagram /\
  se_end sst (se_start TCP) = Ok SESendCwmode /\ se_end sst (se_start TCP ++ dialog (repeat (crlf (bs "OK")) 2)) = Ok SESendCipmux /\
  se_end sst (se_connected_ TCP ++ se_notice_ (bs "5") ++ dialog [crlf (bs "WIFI DISCONNECT")]) = Ok SEFinalizeDisconnect.
Proof.
  splits; try (vm_compute; reflexivity); unfold se_diagram; cbn [In]; intro H; repeat destruct H as [H|H]; try discriminate; exact H.
Qed.

(** ** C49: the commands *)
Theorem C49_esp_commands : forall P d0 tr d e d' cmd q, se_built d0 -> se_hist P d0 tr d -> se_step P d e d' -> In (aCommand cmd q) (e_acts e) ->
  (cmd = bs "AT+CWJAP?" ++ [CR; LF] \/
   (char_signed P = false /\ cmd = bs "AT+CIPSTAMAC?" ++ [CR; LF]) \/
   (exists s c, se_command s (ssid (ext d)) (passwd (ext d)) (host d) (typ d) (port d) = Some c /\ cmd = c ++ [CR; LF]) \/
   (exists n, (0 <= n <= 2048)%Z /\ cmd = bs "AT+CIPRECVDATA=" ++ dec n ++ [CR; LF])) /\
  (txav (io d) + length cmd <= txsz (io d) -> q = cmd).
Proof.
  intros P d0 tr d e d' cmd q HB Hh Hs Hin.
  destruct (se_commands P d e d' cmd q Hs (se_unlocked P d0 tr d HB Hh) Hin) as (K & _ & F). split; [|exact F].
  destruct K as [K|[K|[K|(n & K1 & _ & K2)]]]; auto. right. right. right. exists n. split; [lia|exact K2].
Qed.
(** The network named and the password used are the ones last set. *)
Theorem C49_esp_join : forall P d0 tr d e d' cmd q, se_built d0 -> se_hist P d0 tr d -> se_step P d e d' -> In (aCommand cmd q) (e_acts e) ->
  prefixb (bs "AT+CWJAP=") cmd = true -> cmd = bs "AT+CWJAP=" ++ quoted (text (ssid (ext d))) ++ bs "," ++ quoted (text (passwd (ext d))) ++ [CR; LF].
Proof. intros P d0 tr d e d' cmd q HB Hh Hs. apply (se_join_command P d e d' cmd q Hs (se_unlocked P d0 tr d HB Hh)). Qed.
Theorem C49_esp_names : forall P d e d', se_step P d e d' ->
  ssid (ext d') = (match e_op e with OpX (SetSSID p) => p | _ => ssid (ext d) end) /\
  passwd (ext d') = (match e_op e with OpX (SetPassword p) => p | _ => passwd (ext d) end).
Proof. intros P d e d' Hs. destruct (se_names_step P d e d' Hs) as (H1 & H2 & _). auto. Qed.
(** A command longer than the space left is cut, although 20 bytes were free. *)
Theorem C49_esp_cut_refuted : seen (se_driver PU) (se_exn 22) (se_start TCP ++ dialog (repeat (crlf (bs "OK")) 6)) =
  Ok ([DBool true], ["ATE0"; "AT+CWMODE=1"; "AT+CWJAP=""net"",""pw"""; "AT+CIPMUX=0"; "AT+CIPRECVMODE=1"; "AT+CIPMODE=0"; "AT+CIPSTART=""TCP"",""hos"]%string).
Proof. vm_compute. reflexivity. Qed.

(** ** C50: connected only when confirmed *)
Theorem C50_esp_confirmed : forall P d0 tr d, se_built d0 -> se_hist P d0 tr d -> ip_is_connected d = true -> se_confirmed tr = true.
Proof. exact se_connected_confirmed. Qed.
Example C50_esp_case : se_seen (se_start TCP ++ dialog (repeat (crlf (bs "OK")) 6) ++ [call OpIsConnected] ++ dialog [crlf (bs "ERROR")] ++ runs_ 2 ++ [call OpIsConnected]) =
  Ok ([DBool true; DBool false; DBool false], ["ATE0"; "AT+CWMODE=1"; "AT+CWJAP=""net"",""pw"""; "AT+CIPMUX=0"; "AT+CIPRECVMODE=1"; "AT+CIPMODE=0"; "AT+CIPSTART=""TCP"",""host"",80"; "AT+RST"])%string.
Proof. vm_compute. reflexivity. Qed.

(** ** C56: a failed opening of the serial port *)
Theorem C56_esp_refuted : forall P d0 e d1 tr d, se_built d0 -> isopen d0 = false -> se_mac_request P (emac (ext d0)) = false ->
  se_step P d0 e d1 -> e_op e = OpRun false ->
  se_hist P d1 tr d -> Forall (fun e => ~ se_rescue e) tr ->
  sst d = SESerialError /\ ip_is_connected d = false /\ Forall (fun e => put (e_ev e) = []) tr.
Proof. exact se_failed_open. Qed.
Definition se_ex_closed : res dv := se_port ser64 false.
Example C56_esp_case : seen (se_driver PU) se_ex_closed ([call (OpRun false)] ++ se_start TCP ++ se_opens ++ runs_ 1 ++ [call OpIsConnected]) =
    Ok ([DBool true; DBool false], []) /\
  seen (se_driver PU) se_ex_closed (runs_ 1 ++ se_connected_ TCP ++ runs_ 1 ++ [call OpIsConnected]) = se_seen (se_connected_ TCP ++ runs_ 1 ++ [call OpIsConnected]).
Proof. split; vm_compute; reflexivity. Qed.

(** ** C57: the peer closes *)

(** With nothing to send and nothing to fetch, the run() that reads the notice
    and the next one leave the connection and the network. *)
Theorem C57_esp_closed : forall P d e d' e2 d2, se_step P d e d' -> se_at_rest P d -> se_notice_run d e ->
  se_step P d' e2 d2 -> se_plain_run d' e2 ->
  ip_is_connected d2 = false /\ sst d2 = SEFinalizeDisconnect /\ wait d2 = Some (bs "WIFI DISCONNECT") /\ put (e_ev e2) = bs "AT+CWQAP" ++ [CR; LF].
Proof. exact se_peer_close. Qed.
Example C57_esp_case :
  se_then TCP (dialog [crlf (bs "CLOSED")] ++ [call OpIsConnected] ++ runs_ 1 ++ [call OpIsConnected] ++ dialog [crlf (bs "OK"); crlf (bs "WIFI DISCONNECT")] ++ runs_ 1 ++ [call OpIsIdle]) =
    Ok ([DBool true; DBool false; DBool true], ["AT+CWQAP"%string]) /\
  se_end (fun d => (isopen d, fReset (fl d), fLock (fl d), sst d, rst d, wait d, fData (fl d), avail (wbuf d), rssi d, se_mac_request PU (emac (ext d)))) (se_connected_ TCP) =
    Ok (true, false, false, SEConnected, REOk, None, false, 0, 99%Z, false).
Proof. split; vm_compute; reflexivity. Qed.

(** ** C69: SSL *)

(** Here SSL is asked for. *)
Theorem C69_esp_type : forall P d0 tr d e d' cmd q, se_built d0 -> se_hist P d0 tr d -> se_step P d e d' ->
  In (aCommand cmd q) (e_acts e) -> prefixb (bs "AT+CIPSTART") cmd = true -> typ d = TCP \/ typ d = UDP \/ typ d = SSL ->
  cmd = bs "AT+CIPSTART=" ++ quoted (if (typ d =? TCP)%Z then bs "TCP" else if (typ d =? UDP)%Z then bs "UDP" else bs "SSL") ++ bs "," ++
    quoted (text (host d)) ++ bs "," ++ dec (port d) ++ [CR; LF].
Proof. intros P d0 tr d e d' cmd q HB Hh Hs. apply (se_open_command P d e d' cmd q Hs (se_unlocked P d0 tr d HB Hh)). Qed.
Example C69_esp_case : se_seen (se_connected_ SSL) =
  Ok ([DBool true], ["ATE0"; "AT+CWMODE=1"; "AT+CWJAP=""net"",""pw"""; "AT+CIPMUX=0"; "AT+CIPRECVMODE=0"; "AT+CIPMODE=0"; "AT+CIPSTART=""SSL"",""host"",80"])%string.
Proof. vm_compute. reflexivity. Qed.

(** ** Assumptions *)
Print Assumptions C51_esp_safe.
Print Assumptions C51_esp_refuted.
Print Assumptions C51_esp_histories.
Print Assumptions C51_esp_actions.
Print Assumptions C32_esp_not_before_reply.
Print Assumptions C32_esp_unsent.
Print Assumptions C32_esp_refuted.
Print Assumptions C33_esp_kept.
Print Assumptions C33_esp_idle.
Print Assumptions C33_esp_refuted.
Print Assumptions C34_esp_line_buffer.
Print Assumptions C35_esp_lines.
Print Assumptions C35_esp_end.
Print Assumptions C39_esp_rssi.
Print Assumptions C39_esp_value.
Print Assumptions C39_esp_refuted.
Print Assumptions C58_esp_refuted.
Print Assumptions C58_esp_request.
Print Assumptions C58_esp_kept.
Print Assumptions C58_esp_sent.
Print Assumptions C58_esp_answer.
Print Assumptions C59_esp_kept.
Print Assumptions C43_esp_request.
Print Assumptions C43_esp_notice.
Print Assumptions C43_esp_interrupt_refuted.
Print Assumptions C54_esp_received.
Print Assumptions C54_esp_received_any.
Print Assumptions C55_esp_overrun_refuted.
Print Assumptions C55_esp_starve_refuted.
Print Assumptions C55_esp_deaf_refuted.
Print Assumptions C44_esp_payload.
Print Assumptions C45_esp_announce.
Print Assumptions C45_esp_zero_refuted.
Print Assumptions C53_esp_sent.
Print Assumptions C53_esp_interrupt_refuted.
Print Assumptions C46_esp_unlocked.
Print Assumptions C47_esp_paired.
Print Assumptions C48_esp_edges.
Print Assumptions C48_esp_undocumented.
Print Assumptions C49_esp_commands.
Print Assumptions C49_esp_join.
Print Assumptions C49_esp_names.
Print Assumptions C49_esp_cut_refuted.
Print Assumptions C50_esp_confirmed.
Print Assumptions C56_esp_refuted.
Print Assumptions C57_esp_closed.
Print Assumptions C69_esp_type.
