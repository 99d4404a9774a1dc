(** The Espressif driver: what calls in the wrong moment lead to (C71, C72), that a
    connection is opened only on request (C73), and what an ERROR reply does (C74). *)
From Coq Require Import String Ascii ZArith List Bool Arith Lia ZifyBool ZifyNat.
From Verif Require Import Base QueueSpec LineSpec SerialSpec Ring RingProofs LineRing LineRingProofs Serial SerialProofs
  SerStep TaskMacros CStr CStrProofs Dev DevProofs SimDev SimProofs SimSpec SimParse SimLog Sym DrvStep DrvCommon DrvRun DrvHist DrvActs DrvRest DrvStuck DrvHand DrvSend DrvTalk HandCheck DevProps Session
  Espressif EsSpec EsFill EsProofs EsCtl EsCtlIn EsRun AtLine EsHist EsThms EsMore EsLine EsReq EsRest EsStuck EsHand EsSend EsProps EsHandProps EsSendProps.
Import ListNotations.
Local Open Scope nat_scope.
Local Notation dv := (dev essend esreply espx).
Local Notation ent := (@entry esop).
Local Notation olabE P := (olab re_ok (se_says P) se_tail se_insend false).

(** ** C71 *)
(** A query goes first. *)
Lemma se_query_output : forall P (x x1 : dv), se_inv x -> se_output P x = Ok x1 -> wait x = None -> rst x = REOk -> rssi x = INT16_MAX -> fLine (fl x) = true ->
  txav (io x) + 20 <= txsz (io x) -> ioeff (io x) (io x1) [] (bs "AT+CWJAP?" ++ [CR; LF]) /\ x1 = set_wait (Some (bs "OK")) (set_rst RERssi (set_io (io x1) x)).
Proof.
  intros P x x1 HI Hx K5 K6 K11 K12 Ht. pose proof HI as ((Hw & _) & _).
  unfold se_output in Hx. rewrite K5, K6 in Hx. cbn [re_ok negb] in Hx. unfold d_space in Hx.
  destruct (s_space_q (io x) Hw) as (y & E1 & Q). rewrite E1 in Hx. cbn [bind] in Hx. apply quiet_ioeff in Q.
  pose proof (ioeff_av _ _ _ _ Q) as [_ A]. pose proof (ioeff_txsz _ _ _ _ Q) as A2. cbn [length] in A.
  destruct (Nat.ltb_spec (txsz y - txav y) 20) as [Hlt|Hge]; [lia|].
  change (rssi (set_io y x)) with (rssi x) in Hx. change (fl (set_io y x)) with (fl x) in Hx. rewrite K11, K12 in Hx. cbn [Z.eqb Pos.eqb andb INT16_MAX] in Hx.
  set (x0 := set_wait (Some okStr) (set_rst RERssi (set_io y x))) in *.
  assert (H : wp False (at_send_command (bs "AT+CWJAP?") x0) (fun z => ioeff (io x) (io z) [] (bs "AT+CWJAP?" ++ [CR; LF]) /\ z = set_wait (Some (bs "OK")) (set_rst RERssi (set_io (io z) x)))).
  { apply wp_send_command; [exact (ioeff_wf _ _ _ _ Q)|]. intros z Hz. change (io x0) with y in Hz. destruct Hz as (q & I1 & _ & I2).
    rewrite I2 in I1 by (cbn; lia). split; [exact (ioeff_trans _ _ _ _ _ _ _ Q I1)|reflexivity]. }
  rewrite Hx in H. exact H.
Qed.

(** The prompt arrives while a query is pending. *)
Lemma se_displaces : forall P N d e d', se_step P d e d' -> roomy N d e -> hears (reply (bs ">")) e -> se_awake d -> 20 <= N ->
  wait d = Some (bs ">") -> rst d = REOk -> rssi d = INT16_MAX ->
  put (e_ev e) = bs "AT+CWJAP?" ++ [CR; LF] /\ wbuf d' = wbuf d /\ toWrite d' = toWrite d /\ sst d' = sst d /\ wait d' = Some (bs "OK").
Proof.
  intros P N d e d' Hs Hr Hh Hg HN Hw Hrst Hrs.
  assert (Hne : forall L, prefixb (bs ">") L = true -> se_is_error L = false /\ prefixb (bs "+IPD") L = false /\ prefixb (bs "SEND FAIL") L = false /\ prefixb (bs "WIFI DISCONNECT") L = false)
    by (intros L HL; apply prefixb_spec in HL as [t ->]; splits; reflexivity).
  destruct (se_awake_line P N d e d' _ Hs Hr Hh (fun L HL => proj1 (Hne L HL)) Hg) as (dm & d1 & a & b & L & HI & HL & Hx & _ & ((K1 & K2 & K3 & K4 & K5 & K6) & K7) & Ht & Ea & Hpa & Hol & Eo & Ed).
  destruct (Hne L HL) as (F1 & F2 & F3 & F4). destruct Hx as (_ & _ & Hx). rewrite F1 in Hx. unfold se_data, se_takes_rssi, se_takes_mac, se_nosend in Hx. rewrite Hrst, Hw, F2, F3, F4, HL in Hx.
  rewrite !andb_false_r in Hx. cbn [orb andb se_header] in Hx. destruct Hx as (S1 & S2 & S3 & _ & _ & _ & Sl & _ & _ & S9 & _).
  destruct Hr as ((oo & Eop) & Hroom).
  assert (Hl : fLine (fl dm) = true). { rewrite Sl. destruct Hh as (tk & L' & Hin & _). exact (line_on _ _ _ _ _ (se_contract False P) d e d' oo tk L' Hs Eop (proj1 (proj2 Hg)) Hin). }
  destruct (se_query_output P dm d1 HI Eo S9 S2 ltac:(congruence) Hl ltac:(lia)) as [Q1 Q2].
  split.
  - destruct Hs as (_ & _ & _ & _ & _ & _ & Hio & _). unfold call_io in Hio. rewrite Eop in Hio. destruct Hio as [_ ->].
    rewrite Ea. unfold acts_put. cbn [map concat]. rewrite Hpa, app_nil_r. cbn [app].
    refine (olab_put _ _ _ _ _ _ _ _ dm d1 b [] _ _ Hol Q1). intros z Hz. destruct (olab_io (se_shape P) _ _ _ Hz) as (ev & T1 & _ & T2 & _). eauto.
  - rewrite Ed. set (y := io d1) in *. clearbody y. subst d1. splits; auto; cbn [wbuf set_io set_wait set_rst toWrite sst]; congruence.
Qed.

(** write(), the announcement, requestRSSI(), and the prompt: the query is sent
    in place of the payload, whatever was written. *)
Theorem C71_es_refuted : forall P N d e d1 tr d2 eq d3 ep d4 data n k, se_at_ease P d -> fDisc (fl d) = false -> fData (fl d) = false ->
  ring_ok (wbuf d) -> contents (wbuf d) = [] ->
  se_step P d e d1 -> e_op e = OpWrite data n -> n <= length data -> e_out e = DCount k -> 0 < k ->
  dialogue (se_step P) se_noise N [None] d1 tr d2 ->
  22 + k <= N -> (Z.of_nat k < 100000)%Z -> length (announcement false k [CR; LF]) <= N ->
  se_step P d2 eq d3 -> e_op eq = OpRequestRSSI -> se_step P d3 ep d4 -> roomy N d3 ep -> hears (reply (bs ">")) ep ->
  sent (e :: tr ++ [eq; ep]) = announcement false k [CR; LF] ++ bs "AT+CWJAP?" ++ [CR; LF] /\
  contents (wbuf d4) = firstn k data.
Proof.
  intros P N d e d1 tr d2 eq d3 ep d4 data n k (R1 & R2 & R3 & R4 & R5) F1 F2 Hok Hct Hs Eo Hn Eout Hk Hd HN H5 Hlen Hq Eq Hp Hrp Hhp.
  pose proof Hs as (_ & _ & _ & E & _ & _ & Hio & _). rewrite Eo in E, Hio.
  destruct (C31_write _ _ _ _ _ _ _ _ _ _ _ _ Hok Hn E) as (Ek & Ec & Eok & Ed). rewrite Eout in Ek. injection Ek as Ek. rewrite <- Ek, Hct in Ec. cbn [app] in Ec.
  assert (Hl : length (firstn k data) = k) by (apply firstn_length_le; destruct (cst d); lia).
  pose proof (contents_length _ (proj1 Eok)) as Hcl. rewrite Ec, Hl in Hcl.
  assert (Hpe : put (e_ev e) = []) by (destruct Hio; assumption). clear Hio.
  set (w := wbuf d1) in *. set (y := io d1) in *. clearbody w y. subst d1. set (d1 := set_wbuf w (set_io y d)) in *.
  assert (Hg : se_going P d1) by exact R1.
  destruct (se_meet P N _ _ d1 tr d2 Hd Hg R5) as (x0 & e0 & d0 & tr0 & E0 & J1 & J2 & J3 & J4 & J12 & (_ & J5 & J6 & J7 & J8) & Hs0 & Hr0 & Hh0 & Hd0).
  assert (Jw : wbuf x0 = w) by (injection J8; auto).
  destruct (se_announces P N _ x0 e0 d0 Hs0 Hr0 Hh0 J1 J12) as (A1 & A2 & A3 & A4 & A6 & A8 & A9 & A10 & A11 & A12); rewrite ?J2, ?Jw, <- ?Hcl; try assumption.
  rewrite Jw, <- Hcl in A1.
  destruct (dialogue_end (se_step P) se_noise N d0 tr0 d2 (fun x => x = set_io (io x) d0)) as [B1 B2]; [|exact Hd0|destruct d0; reflexivity|].
  { apply se_look_keeps. intros z x ->. reflexivity. }
  assert (Hd3 : d3 = set_rssi INT16_MAX (set_io (io d3) d2) /\ put (e_ev eq) = []).
  { destruct Hq as (_ & _ & _ & E1 & _ & _ & Hio & _). rewrite Eq in E1, Hio. destruct Hio as [_ Hpq]. split; [|exact Hpq]. clear - E1.
    unfold d_step in E1. cbn [d_call bind] in E1. destruct (run_isrs _ _) as [[s ev]|]; [|discriminate]. cbn [bind] in E1. apply ok_inj in E1. injection E1 as _ _ E1. subst d3. reflexivity. }
  destruct Hd3 as [Hd3 Hpq]. set (yq := io d3) in *. clearbody yq. set (y2 := io d2) in *. clearbody y2. subst d2. subst d3.
  destruct (se_displaces P N _ ep d4 Hp Hrp Hhp) as (C1 & C2 & _); cbn [wait rst rssi set_rssi set_io]; try assumption; try reflexivity; try lia.
  { destruct A2 as (G1 & G2 & G3 & _). exact (conj G1 (conj G2 G3)). }
  { destruct A2 as (_ & _ & _ & G4 & _). exact G4. }
  split.
  - rewrite sent_cons, sent_app, !sent_cons, Hpe, E0, B1, Hpq, C1, A1. cbn [app sent map concat]. rewrite !app_nil_r. reflexivity.
  - rewrite C2. cbn [wbuf set_rssi set_io]. rewrite A11, Jw. exact Ec.
Qed.

Example C71_es_session : se_then TCP ([call (OpWrite (bs "hello") 5)] ++ runs_ 1 ++ [call OpRequestRSSI] ++ dialog [bs ">"]) =
  Ok ([DCount 5], ["AT+CIPSEND=5"; "AT+CWJAP?"]%string).
Proof. vm_compute. reflexivity. Qed.

(** ** C72 *)
(** A second disconnect() while the connection is being closed stays pending: the
    next connect() is accepted, but the connection is closed at once. *)
Definition se_twice : @script esop :=
  [call OpDisconnect] ++ runs_ 2 ++ [call OpDisconnect] ++ dialog [crlf (bs "OK"); crlf (bs "WIFI DISCONNECT")] ++ runs_ 1 ++
  [call OpIsIdle; call OpConnect] ++ runs_ 2 ++ dialog (repeat (crlf (bs "OK")) 7) ++ runs_ 5 ++ [call OpIsIdle; call OpIsConnected].
Theorem C72_es_refuted : se_then TCP se_twice = Ok ([DBool true; DBool true; DBool false; DBool false],
  ["AT+CIPCLOSE"; "AT+CWQAP"; "ATE0"; "AT+CWMODE=1"; "AT+CWJAP=""net"",""pw"""; "AT+CIPMUX=0"; "AT+CIPRECVMODE=1"; "AT+CIPMODE=0";
   "AT+CIPSTART=""TCP"",""host"",80"; "AT+CIPCLOSE"]%string).
Proof. vm_compute. reflexivity. Qed.

(** ** C73 *)
(** connect() was called and accepted. *)
Definition asks (e : ent) : Prop := e_op e = OpConnect /\ e_out e = DBool true.
(** No connection, none being opened or closed, none asked for. *)
Definition se_unconnected (d : dv) : Prop :=
  ip_is_connected d = false /\ fConnect (fl d) = false /\ se_rank (sst d) <= 1 /\ se_receipt (rst d) = false.
(** What may be sent then: the queries for the signal strength and the MAC
    address, the reset command; and no payload is sent or received. *)
Definition se_query (a : act) : Prop :=
  match a with
  | aCommand c _ => c = bs "AT+CWJAP?" ++ [CR; LF] \/ c = bs "AT+CIPSTAMAC?" ++ [CR; LF]
  | aAnnounce _ _ | aPayload _ | aReceive _ => False
  | _ => True
  end.

Lemma se_output_rest : forall P (U : Prop) d, se_inv d -> se_rank (sst d) <= 1 -> wp U (se_output P d) (fun d' => toRead d' = toRead d).
Proof.
  intros P U d H HR. unfold se_output. destruct (wait d) eqn:Ew.
  { cbn [wp]. auto. }
  destruct (rst d) eqn:Er; cbn [re_ok negb wp]; try reflexivity.
  open_inv d H. subst. syms.
  all: try (match goal with |- wp _ (se_machine _) _ =>
       unfold se_machine, at_handle_connect, at_handle_disconnect; gs; destruct ss0; cbn [se_rank] in HR; try lia; gs; syms end).
  all: clear Hwf Hr Ht Hrw Hrs Hww Hws Hwf2 Hl Hw; cases; gs.
  all: try reflexivity.
Qed.

Lemma se_rest_cfg : forall d, se_unconnected d <-> ip_is_connected d = false /\ ~ se_cfg d.
Proof.
  intro d. unfold se_unconnected, se_cfg. split.
  - intros (A1 & A2 & A3 & A4). split; [exact A1|]. rewrite A2, A4. intros [?|[?|?]]; [lia|discriminate|discriminate].
  - intros (A1 & A2). splits; auto.
    + destruct (fConnect (fl d)); auto. contradiction A2. auto.
    + destruct (le_lt_dec (se_rank (sst d)) 1); auto. contradiction A2. left. lia.
    + destruct (se_receipt (rst d)); auto. contradiction A2. auto.
Qed.

Lemma se_rest_conf : forall d, se_unconnected d -> se_conf False d.
Proof.
  intros d (A1 & A2 & A3 & A4). unfold se_conf. splits.
  - intro E. rewrite E in A3. cbn in A3. lia.
  - intros [?|?]; [lia|congruence].
  - congruence.
  - auto.
Qed.

(** Until connect() is called, no connection is opened, whatever the module sends
    and whatever else is called. *)
Theorem C73_es_unasked : forall P d tr d', se_unconnected d -> se_hist P d tr d' -> (forall e, In e tr -> ~ asks e) ->
  se_unconnected d' /\ forall e a, In e tr -> In a (e_acts e) -> se_query a.
Proof.
  intros P d tr d' HK Hh HQ. apply Forall_forall in HQ.
  cut (se_unconnected d' /\ Forall (fun e => Forall se_query (e_acts e)) tr).
  { intros [A B]. split; [exact A|]. intros e a I1 I2. rewrite Forall_forall in B. specialize (B e I1). rewrite Forall_forall in B. auto. }
  refine (rest _ _ _ _ _ (se_contract False P) se_unconnected se_query (fun e => ~ asks e) _ _ _ _ _ _ _ _ d tr d' Hh HQ HK); clear.
  - auto.
  - auto.
  - intros d (A1 & A2 & A3 & A4). unfold se_unconnected. cbn. splits; auto.
  - intros d q d' (A1 & A2 & A3 & A4) Hr (_ & _ & _ & _ & _ & _ & _ & Hc & _) (R1 & R2 & R3 & R4 & _). split; [|exact I].
    unfold se_unconnected, ip_is_connected. rewrite R1, R2, R4, Hc. unfold se_reset_state. change (se_rank SEConnecting) with 2. replace (2 <=? se_rank (sst d)) with false by lia. cbn. splits; auto.
  - intros d r d' b HK Hl [_ [_ Hx]]. assert (G : se_query b) by (destruct Hl; exact I). split; [|exact G]. destruct Hl.
    1,2: destruct Hx as (A1 & A2 & A3 & A4 & A5 & A6 & A7 & A8 & A9 & A10 & A11 & A12); revert HK; unfold se_unconnected, ip_is_connected;
         rewrite ?A1, ?A2, ?A3, ?A4, ?A5, ?A6, ?A7, ?A8; tauto.
    destruct Hx as [(_ & X1 & _ & X2 & _ & _ & X3 & _) _]. pose proof HK as HK0. apply se_rest_cfg in HK as [K1 K2]. apply se_rest_cfg. split; [|tauto].
    unfold ip_is_connected in *. destruct X3 as [->|[-> _]]; auto.
  - intros d d' b HK Hl (HI & Hx & Ho). destruct Hx as (X0 & X1 & _ & _ & _ & _ & _ & X2 & _).
    pose proof (X2 False (se_rest_conf d HK)) as (_ & _ & X3 & _).
    assert (Hc : ip_is_connected d' = false) by (destruct (ip_is_connected d'); tauto).
    pose proof (se_output_rest P True d HI) as Hr. rewrite Ho in Hr. cbn [wp] in Hr.
    pose proof HK as (_ & _ & HK3 & _). specialize (Hr HK3).
    split; [apply se_rest_cfg; apply se_rest_cfg in HK as [K1 K2]; tauto|].
    destruct Hl; cbn [se_query]; auto.
    + match goal with H : sh_says _ _ _ _ |- _ => destruct H as [(_ & -> & _)|[(_ & -> & _)|[(c & Hs & -> & _)|(Hs & _)]]] end; auto.
      * unfold se_command in Hs. destruct (sst d); try discriminate Hs; cbn in HK3; lia.
      * rewrite Hs in HK3. cbn in HK3. lia.
    + unfold ip_is_connected in Hc. match goal with H : cst d' = csTransmitting |- _ => rewrite H in Hc end. discriminate.
    + match goal with H : sh_insend _ _ = true |- _ => cbn [sh_insend se_shape] in H; unfold se_insend in H end. destruct (sst d); try discriminate; cbn in HK3; lia.
    + lia.
  - intros e d d' HQ HI HK _ Hf E1 E2 E3 E4. destruct HK as (A1 & A2 & A3 & A4). unfold se_unconnected, ip_is_connected in *. rewrite E1, E2, E4. splits; auto.
    destruct Hf as (_ & _ & [Hf|(Hf1 & Hf2 & _)] & _); [congruence|]. contradiction HQ. split; assumption.
  - intros d d' HI _ _ E. destruct (se_reset_exact False P d d' HI E) as (y & -> & _). unfold se_unconnected, ip_is_connected. cbn. splits; auto; discriminate.
Qed.

Lemma se_built_rest : forall d, se_built d -> se_unconnected d.
Proof.
  intros d Hb. apply se_built_fresh in Hb. destruct Hb as (_ & _ & F1 & F2 & F3 & F4 & F5 & _). unfold se_unconnected, ip_is_connected. rewrite F1, F2, F4, F5. cbn. splits; auto; discriminate.
Qed.

(** In particular from the beginning. *)
Theorem C73_es_never : forall P d0 tr d, se_built d0 -> se_hist P d0 tr d -> (forall e, In e tr -> ~ asks e) ->
  ip_is_connected d = false /\ forall e a, In e tr -> In a (e_acts e) -> se_query a.
Proof.
  intros P d0 tr d Hb Hh HQ. destruct (C73_es_unasked P d0 tr d (se_built_rest d0 Hb) Hh HQ) as [(A & _) B]. auto.
Qed.

(** Queries, an error, chatter of the module and setters do not open a connection. *)
Definition se_unasked_script : @script esop :=
  [call (OpX (SetSSID (PStr (bs "wlan")))); call (OpX (SetPassword (PStr (bs "pw")))); call (OpSetHostPort (PStr (bs "host")) 80%Z 1%Z); call OpDisconnect; call OpRequestRSSI] ++ runs_ 2 ++
  dialog [crlf (bs "ERROR"); crlf (bs "ready")] ++ runs_ 2 ++ dialog [crlf (bs "ready"); crlf (bs "No AP"); crlf (bs "OK"); crlf (bs "CONNECT"); crlf (bs "+IPD,5")] ++ runs_ 2 ++
  [call (OpX RequestMac)] ++ runs_ 3 ++ [call OpIsConnected].
Example C73_es_case : se_seen se_unasked_script = Ok ([DBool false], ["AT+CWJAP?"; "AT+RST"; "AT+CWJAP?"; "AT+CIPSTAMAC?"]%string) /\
  forallb (fun o => match fst o with OpConnect => false | _ => true end) se_unasked_script = true.
Proof. vm_compute. split; reflexivity. Qed.

(** ** C74 *)
(** An error line: the connection is reported as lost, nothing is sent, and the
    next run() resets the module. *)
Theorem C74_es_error : forall P d e d', se_step P d e d' -> fLock (fl d) = false ->
  hears (Some (fun L => prefixb (bs "ERROR") L = true \/ prefixb (bs "FAIL") L = true)) e ->
  put (e_ev e) = [] /\ ip_is_connected d' = false /\
  forall e2 d2 oo, se_step P d' e2 d2 -> e_op e2 = OpRun oo -> isopen d' = true -> txav (io d') + 8 <= txsz (io d') ->
    put (e_ev e2) = bs "AT+RST" ++ [CR; LF] /\ wait d2 = Some (bs "ready").
Proof.
  intros P d e d' Hs Hlk (tk & L & Hin & HE).
  destruct (heard _ _ _ _ _ (se_contract False P) d e d' tk L Hs Hin) as (oo & l & x1 & x2 & r & d1 & Eo & Ho & _ & Hl & Hp & Hi & Hx & Hd & Hput & Hc).
  specialize (Hl eq_refl). subst l. destruct Hp as [(_ & _ & ->)|(_ & q & F & _)]; [|discriminate F].
  apply se_error_dec in HE. destruct Hx as [HI [_ [(_ & _ & (_ & _ & X5) & _) Hx]]].
  assert (Hwl : se_whole (during (e_sch e) d) L) by (inversion Hi; assumption). apply se_line_effect in Hx; [|apply HI|exact Hwl]. destruct Hx as [(_ & _ & Y) Er]. rewrite HE in Y, Er. subst r.
  destruct Y as (_ & _ & _ & _ & _ & _ & _ & _ & _ & X3 & X1 & X2).
  destruct Hc as [(_ & Ea & ->)|(F & _)]; [|discriminate F].
  set (y := io d') in *. clearbody y. subst d'. splits.
  - rewrite Hput, Ea. reflexivity.
  - unfold ip_is_connected. change (cst (set_io y x2)) with (cst x2). rewrite X2. reflexivity.
  - intros e2 d2 o2 Hs2 Eo2 Ho2 Ht.
    destruct (resetting _ _ _ _ _ (se_contract False P) (set_io y x2) e2 d2 o2 Hs2 Eo2 eq_refl Ho2) as (Hq & q & x & _ & Hr & Hd2).
    + change (fLock (fl x2) = false). rewrite X5. exact Hlk.
    + exact X1.
    + exact Ht.
    + split; [exact Hq|]. rewrite Hd2. change (wait (set_io (io d2) x)) with (wait x). apply Hr.
Qed.

(** A session: the data is refused; the driver resets the module. *)
Example C74_es_session : se_then TCP ([call (OpWrite (bs "hello") 5)] ++ runs_ 1 ++ dialog [crlf (bs "ERROR")] ++ [call OpIsConnected] ++ runs_ 1) =
  Ok ([DCount 5; DBool false], ["AT+CIPSEND=5"; "AT+RST"]%string).
Proof. vm_compute. reflexivity. Qed.

(** ** C55 *)
(** Asked for the 5 bytes it reported, the modem delivers 7: the count of bytes still to
    fetch wraps, and the driver asks for 25 more, which nobody reported. *)
Theorem C55_esp_wrap_refuted : se_then TCP (se_receive_ (bs "7") (bs "abcdefg") ++ dialog [crlf (bs ""); crlf (bs "OK")] ++ runs_ 4 ++
    [call OpBytesAvailable; call (OpRead 40)] ++ runs_ 2) =
  Ok ([DCount 7; DData (bs "abcdefg") 7], ["AT+CIPRECVDATA=5"; "AT+CIPRECVDATA=25"]%string).
Proof. vm_compute. reflexivity. Qed.

(** ** Assumptions *)
Print Assumptions C55_esp_wrap_refuted.
Print Assumptions C71_es_refuted.
Print Assumptions C72_es_refuted.
Print Assumptions C73_es_unasked.
Print Assumptions C73_es_never.
Print Assumptions C74_es_error.
