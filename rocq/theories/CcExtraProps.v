(** The CC1352P7 driver: what calls in the wrong moment lead to (C71, C72), that an
    error can open a connection nobody asked for (C73), and what an ERROR reply does (C74). *)
From Coq Require Import String Ascii ZArith List Bool Arith Lia ZifyBool ZifyNat.
From Verif Require Import Base QueueSpec LineSpec SerialSpec Ring RingProofs LineRing LineRingProofs Serial SerialProofs
  SerStep TaskMacros CStr CStrProofs Dev DevProofs SimDev SimProofs SimSpec SimParse SimLog Sym DrvStep DrvCommon DrvRun DrvHist DrvActs DrvRest DrvStuck DrvHand DrvSend DrvTalk HandCheck DevProps Session
  Espressif Cc1352 CcSpec CcProofs CcCtl CcCtlIn CcRun AtLine CcHist CcThms CcMore CcLine CcReq CcRest CcStuck CcHand CcSend CcProps CcHandProps CcSendProps.
Import ListNotations.
Local Open Scope nat_scope.
Local Notation dv := (dev ccsend ccreply ccx).
Local Notation ent := (@entry ccop).
Local Notation olabC P := (olab rc_ok (sc_says P) sc_tail sc_insend false).

(** ** C71 *)
(** A query goes first. *)
Lemma sc_query_output : forall P (x x1 : dv), sc_inv x -> sc_output P x = Ok x1 -> wait x = None -> rst x = RCOk -> rssi x = INT16_MAX -> fLine (fl x) = true ->
  txav (io x) + 20 <= txsz (io x) -> ioeff (io x) (io x1) [] (bs "AT+CSQ" ++ [CR; LF]) /\ x1 = set_wait (Some (bs "OK")) (set_rst RCCsq (set_io (io x1) x)).
Proof.
  intros P x x1 HI Hx K5 K6 K11 K12 Ht. pose proof HI as ((Hw & _) & _).
  unfold sc_output in Hx. rewrite K5, K6 in Hx. cbn [rc_ok negb] in Hx. unfold d_space in Hx.
  destruct (s_space_q (io x) Hw) as (y & E1 & Q). rewrite E1 in Hx. cbn [bind] in Hx. apply quiet_ioeff in Q.
  pose proof (ioeff_av _ _ _ _ Q) as [_ A]. pose proof (ioeff_txsz _ _ _ _ Q) as A2. cbn [length] in A.
  destruct (Nat.ltb_spec (txsz y - txav y) 20) as [Hlt|Hge]; [lia|].
  change (rssi (set_io y x)) with (rssi x) in Hx. change (fl (set_io y x)) with (fl x) in Hx. rewrite K11, K12 in Hx. cbn [Z.eqb Pos.eqb andb INT16_MAX] in Hx.
  set (x0 := set_wait (Some okStr) (set_rst RCCsq (set_io y x))) in *.
  assert (H : wp False (at_send_command (bs "AT+CSQ") x0) (fun z => ioeff (io x) (io z) [] (bs "AT+CSQ" ++ [CR; LF]) /\ z = set_wait (Some (bs "OK")) (set_rst RCCsq (set_io (io z) x)))).
  { apply wp_send_command; [exact (ioeff_wf _ _ _ _ Q)|]. intros z Hz. change (io x0) with y in Hz. destruct Hz as (q & I1 & _ & I2).
    rewrite I2 in I1 by (cbn; lia). split; [exact (ioeff_trans _ _ _ _ _ _ _ Q I1)|reflexivity]. }
  rewrite Hx in H. exact H.
Qed.

(** With no special reply expected, a line leaves line reading on. *)
Lemma sc_line_stays : forall P d ret d' L, sc_handles P d ret d' L -> rst d = RCOk -> fLine (fl d') = fLine (fl d).
Proof.
  intros P d ret d' L (r & y & _ & _ & _ & H) Hr. set (x := line_at L r y d) in *.
  change (fLine (fl d)) with (fLine (fl x)). change (rst d) with (rst x) in Hr. clearbody x. clear y d. rename x into d.
  unfold sc_parse in H. destruct (Cc1352.sc_is_error d) as [[|]|]; cbn [bind] in H; [apply ok_inj in H; injection H as _ <-; reflexivity| |discriminate].
  assert (G : exists d1, sc_standard_reply d = Ok d1 /\ fl d1 = fl d /\ rst d1 = rst d).
  { unfold sc_standard_reply in *. destruct (wait d); [|eauto]. destruct (lmatch _ _ _) as [[|]|]; cbn [bind] in *; [eexists; splits; reflexivity|eexists; splits; reflexivity|discriminate]. }
  destruct G as (d1 & G1 & G2 & G3). rewrite G1 in H. cbn [bind] in H. unfold sc_special_reply in H. rewrite G3, Hr in H. cbn [bind] in H. rewrite <- G2.
  destruct (_ <=? _); [|apply ok_inj in H; injection H as _ <-; reflexivity].
  unfold sc_unsolicited in H. destruct (lmatch _ _ _) as [[|]|]; cbn [bind] in H; [| |discriminate].
  - destruct (strtol _ _); cbn [bind] in H; [|discriminate]. apply ok_inj in H. injection H as _ <-. reflexivity.
  - destruct (lstarts _ _) as [[|]|]; cbn [bind] in H; [| |discriminate]; apply ok_inj in H; injection H as _ <-; reflexivity.
Qed.

(** The prompt arrives while a query is pending. *)
Lemma sc_displaces : forall P N d e d', sc_step P d e d' -> roomy N d e -> hears (reply (bs ">")) e -> sc_awake d -> 20 <= N ->
  wait d = Some (bs ">") -> rst d = RCOk -> rssi d = INT16_MAX ->
  put (e_ev e) = bs "AT+CSQ" ++ [CR; LF] /\ wbuf d' = wbuf d /\ toWrite d' = toWrite d /\ sst d' = sst d /\ wait d' = Some (bs "OK").
Proof.
  intros P N d e d' Hs Hr Hh (H1 & H2 & H3) HN Hw Hrst Hrs. destruct Hr as ((oo & Eop) & Hroom). destruct Hh as (tk & L & Hin & HL).
  destruct (heard _ _ _ _ _ (sc_contract False P) d e d' tk L Hs Hin) as (oo' & l & x1 & dm & r & d1 & Eo & _ & _ & _ & Hp & Hi & Hx & Ed & Hput & Hc).
  destruct Hp as [(_ & -> & ->)|(F & _)]; [|change (fReset (fl d) = true) in F; congruence].
  assert (Hq : sc_is_error L = false) by (apply prefixb_spec in HL as [t ->]; reflexivity).
  assert (Htx : txav (io dm) <= txav (io d)) by exact (ilab_tx (sc_shape P) _ _ _ _ Hi).
  destruct (ilab_io (sc_shape P) _ _ _ _ Hi) as (ev & Hst & _).
  assert (Hk : keepw (during (e_sch e) d) dm) by exact (ilab_keepw _ _ _ (sc_shape P) _ _ _ _ Hi). destruct Hk as ((K1 & K2 & K3 & K4 & K5 & K6) & K7).
  assert (Hwl : whole_line L /\ fLine (fl d) = true) by (inversion Hi; split; assumption). destruct Hwl as [Hwl Hl].
  destruct Hx as [_ [_ Hx]]. pose proof (sc_line_stays _ _ _ _ _ Hx Hrst) as Hl2. apply sc_line_effect in Hx; [|exact Hwl]. destruct Hx as [Hx Er].
  rewrite (sc_not_refused _ L Hq) in Er. subst r. destruct Hc as [(F & _)|(_ & b & Ea & Hol & (HI & _ & Eq))]; [discriminate|].
  unfold sc_effect in Hx. rewrite (sc_not_refused _ L Hq) in Hx. unfold sc_data, sc_takes_rssi, sc_takes_mac in Hx.
  change (rst (during (e_sch e) d)) with (rst d) in Hx. change (wait (during (e_sch e) d)) with (wait d) in Hx. rewrite Hrst, Hw, HL in Hx. cbn [orb] in Hx.
  destruct Hx as (S1 & S2 & S3 & S4 & S5 & S6 & S7 & S8 & S9 & S10 & S11). change (sst (during (e_sch e) d)) with (sst d) in S1. change (rssi (during (e_sch e) d)) with (rssi d) in S3.
  assert (Ht : txav (io dm) + N <= txsz (io dm)) by (rewrite (sstep_txsz _ _ _ Hst); change (txsz (io (during (e_sch e) d))) with (txsz (io d)); lia).
  destruct (sc_query_output P dm d1 HI Eq S9 S2 ltac:(congruence) ltac:(rewrite Hl2; exact Hl) ltac:(lia)) as [Q1 Q2].
  split.
  - rewrite Hput, Ea. unfold acts_put. cbn [app map concat act_put]. rewrite app_nil_r.
    refine (olab_put _ _ _ _ _ _ _ _ dm d1 b [] _ _ Hol Q1). intros z Hz. destruct (olab_io (sc_shape P) _ _ _ Hz) as (ev2 & T1 & _ & T2 & _). eauto.
  - rewrite Ed. set (y := io d1) in *. clearbody y. subst d1. splits; auto; cbn [wbuf set_io set_wait set_rst toWrite sst]; congruence.
Qed.

(** write(), the announcement, requestRSSI(), and the prompt: the query is sent
    in place of the payload, whatever was written. *)
Theorem C71_cc_refuted : forall P N d e d1 tr d2 eq d3 ep d4 data n k, sc_at_ease P d -> fDisc (fl d) = false -> fData (fl d) = false ->
  ring_ok (wbuf d) -> contents (wbuf d) = [] ->
  sc_step P d e d1 -> e_op e = OpWrite data n -> n <= length data -> e_out e = DCount k -> 0 < k ->
  dialogue (sc_step P) sc_noise N [None] d1 tr d2 ->
  22 + k <= N -> (Z.of_nat k < 100000)%Z -> length (announcement false k [CR; LF]) <= N ->
  sc_step P d2 eq d3 -> e_op eq = OpRequestRSSI -> sc_step P d3 ep d4 -> roomy N d3 ep -> hears (reply (bs ">")) ep ->
  sent (e :: tr ++ [eq; ep]) = announcement false k [CR; LF] ++ bs "AT+CSQ" ++ [CR; LF] /\
  contents (wbuf d4) = firstn k data.
Proof.
  intros P N d e d1 tr d2 eq d3 ep d4 data n k (R1 & R2 & R3 & R4 & R5) F1 F2 Hok Hct Hs Eo Hn Eout Hk Hd HN H5 Hlen Hq Eq Hp Hrp Hhp.
  pose proof Hs as (_ & _ & _ & E & _ & _ & Hio & _). rewrite Eo in E, Hio.
  destruct (C31_write _ _ _ _ _ _ _ _ _ _ _ _ Hok Hn E) as (Ek & Ec & Eok & Ed). rewrite Eout in Ek. injection Ek as Ek. rewrite <- Ek, Hct in Ec. cbn [app] in Ec.
  assert (Hl : length (firstn k data) = k) by (apply firstn_length_le; destruct (cst d); lia).
  pose proof (contents_length _ (proj1 Eok)) as Hcl. rewrite Ec, Hl in Hcl.
  assert (Hpe : put (e_ev e) = []) by (destruct Hio; assumption). clear Hio.
  set (w := wbuf d1) in *. set (y := io d1) in *. clearbody w y. subst d1. set (d1 := set_wbuf w (set_io y d)) in *.
  assert (Hg : sc_going P d1) by exact R1.
  destruct (sc_meet P N _ _ d1 tr d2 Hd Hg R5) as (x0 & e0 & d0 & tr0 & E0 & J1 & J2 & J3 & J4 & J12 & (_ & J5 & J6 & J7 & J8) & Hs0 & Hr0 & Hh0 & Hd0).
  assert (Jw : wbuf x0 = w) by (injection J8; auto).
  destruct (sc_announces P N _ x0 e0 d0 Hs0 Hr0 Hh0 J1 J12) as (A1 & A2 & A3 & A4 & A6 & A8 & A9 & A10 & A11 & A12); rewrite ?J2, ?Jw, <- ?Hcl; try assumption.
  rewrite Jw, <- Hcl in A1.
  destruct (dialogue_end (sc_step P) sc_noise N d0 tr0 d2 (fun x => x = set_io (io x) d0)) as [B1 B2]; [|exact Hd0|destruct d0; reflexivity|].
  { apply sc_look_keeps. intros z x ->. reflexivity. }
  assert (Hd3 : d3 = set_rssi INT16_MAX (set_io (io d3) d2) /\ put (e_ev eq) = []).
  { destruct Hq as (_ & _ & _ & E1 & _ & _ & Hio & _). rewrite Eq in E1, Hio. destruct Hio as [_ Hpq]. split; [|exact Hpq]. clear - E1.
    unfold d_step in E1. cbn [d_call bind] in E1. destruct (run_isrs _ _) as [[s ev]|]; [|discriminate]. cbn [bind] in E1. apply ok_inj in E1. injection E1 as _ _ E1. subst d3. reflexivity. }
  destruct Hd3 as [Hd3 Hpq]. set (yq := io d3) in *. clearbody yq. set (y2 := io d2) in *. clearbody y2. subst d2. subst d3.
  destruct (sc_displaces P N _ ep d4 Hp Hrp Hhp) as (C1 & C2 & _); cbn [wait rst rssi set_rssi set_io]; try assumption; try reflexivity; try lia.
  { destruct A2 as (G1 & G2 & G3 & _). exact (conj G1 (conj G2 G3)). }
  { destruct A2 as (_ & _ & _ & G4 & _). exact G4. }
  split.
  - rewrite sent_cons, sent_app, !sent_cons, Hpe, E0, B1, Hpq, C1, A1. cbn [app sent map concat]. rewrite !app_nil_r. reflexivity.
  - rewrite C2. cbn [wbuf set_rssi set_io]. rewrite A11, Jw. exact Ec.
Qed.

Example C71_cc_session : sc_then ([call (OpWrite (bs "hello") 5)] ++ runs_ 1 ++ [call OpRequestRSSI] ++ dialog [bs ">"]) =
  Ok ([DCount 5], ["AT+CIPSEND=5"; "AT+CSQ"]%string).
Proof. vm_compute. reflexivity. Qed.

(** ** C72 *)
(** A second disconnect() while the connection is being closed stays pending: the
    next connect() is accepted, but the connection is closed at once. *)
Definition sc_twice : @script ccop :=
  [call OpDisconnect] ++ runs_ 2 ++ [call OpDisconnect] ++ dialog [crlf (bs "OK")] ++ runs_ 1 ++
  [call OpIsIdle; call OpConnect] ++ runs_ 2 ++ dialog (repeat (crlf (bs "OK")) 5) ++ runs_ 5 ++ [call OpIsIdle; call OpIsConnected].
Theorem C72_cc_refuted : sc_then sc_twice = Ok ([DBool true; DBool true; DBool true; DBool false],
  ["AT+CIPCLOSE"; "ATE0"; "AT+CIPSTART=""TCP"",""host"",80"; "AT+CIPCLOSE"]%string).
Proof. vm_compute. reflexivity. Qed.

(** ** C73 *)
(** No connect() is called, but the module says ERROR: a connection is opened. *)
Definition sc_unasked_script : @script ccop :=
  [call (OpSetHostPort (PStr (bs "host")) 80%Z 1%Z)] ++ runs_ 2 ++ dialog [crlf (bs "ERROR")] ++ runs_ 2 ++
  dialog [crlf (bs "OK"); crlf (bs "OK"); crlf (bs "OK"); crlf (bs "OK"); crlf (bs "CONNECT"); crlf (bs "OK")] ++ runs_ 2 ++ [call OpIsConnected].
Theorem C73_cc_refuted : forallb (fun o => match fst o with OpConnect => false | _ => true end) sc_unasked_script = true /\
  sc_seen sc_unasked_script = Ok ([DBool true], ["AT+CIPCLOSE"; "ATE0"; "AT+CIPSTART=""TCP"",""host"",80"]%string).
Proof. vm_compute. split; reflexivity. Qed.

(** connect() was called and accepted. *)
Definition asks (e : ent) : Prop := e_op e = OpConnect /\ e_out e = DBool true.
(** The module reported an error. *)
Definition sc_fails (e : ent) : Prop := exists tk L, In (aLine tk L) (e_acts e) /\ prefixb (bs "ERROR") L = true.
(** No connection, none being opened or closed, none asked for, no reset due. *)
Definition sc_at_rest (d : dv) : Prop :=
  ip_is_connected d = false /\ fConnect (fl d) = false /\ sc_rank (sst d) <= 1 /\ rst d <> RCParseCiprecvdata /\ fReset (fl d) = false.
(** What may be sent then: the queries for the signal strength and the MAC
    address; and no payload is sent or received. *)
Definition sc_query (a : act) : Prop :=
  match a with
  | aCommand c _ => c = bs "AT+CSQ" ++ [CR; LF] \/ c = bs "AT+CIPSTAMAC" ++ [CR; LF]
  | aReset _ | aAnnounce _ _ | aPayload _ | aReceive _ => False
  | _ => True
  end.

Lemma sc_output_rest : forall P (U : Prop) d, sc_inv d -> sc_rank (sst d) <= 1 -> wp U (sc_output P d) (fun d' => toRead d' = toRead d).
Proof.
  intros P U d H HR. unfold sc_output. destruct (wait d) eqn:Ew.
  { cbn [wp]. auto. }
  destruct (rst d) eqn:Er; cbn [rc_ok negb wp]; try reflexivity.
  open_inv d H. subst. syms.
  all: try (match goal with |- wp _ (sc_machine _) _ =>
       unfold sc_machine, at_handle_connect, at_handle_disconnect; gs; destruct ss0; cbn [sc_rank] in HR; try lia; gs; syms end).
  all: clear Hwf Hr Ht Hrw Hrs Hww Hws Hwf2 Hl Hw; cases; gs.
  all: try reflexivity.
Qed.

Lemma sc_rest_conf : forall d, sc_at_rest d -> sc_conf False d.
Proof.
  intros d (A1 & A2 & A3 & A4 & A5). unfold sc_conf. splits.
  - intro E. rewrite E in A3. cbn in A3. lia.
  - intros [?|?]; [lia|auto].
  - congruence.
  - auto.
Qed.

(** Otherwise, until connect() is called, no connection is opened, whatever else
    the module sends and whatever else is called. *)
Theorem C73_cc_unasked : forall P d tr d', sc_at_rest d -> sc_hist P d tr d' -> (forall e, In e tr -> ~ asks e /\ ~ sc_fails e) ->
  sc_at_rest d' /\ forall e a, In e tr -> In a (e_acts e) -> sc_query a.
Proof.
  intros P d tr d' HK Hh HQ.
  assert (HQ1 : Forall (fun e => ~ asks e) tr) by (apply Forall_forall; intros e He; apply HQ; exact He).
  assert (HQ2 : Forall (fun e => Forall (fun a => match a with aLine _ L => prefixb (bs "ERROR") L = false | _ => True end) (e_acts e)) tr).
  { apply Forall_forall. intros e He. apply Forall_forall. intros a Ha. destruct a; auto. apply not_true_is_false. intro F. destruct (HQ e He) as [_ N]. apply N.
    do 2 eexists. split; [exact Ha|exact F]. }
  cut (sc_at_rest d' /\ Forall (fun e => Forall sc_query (e_acts e)) tr).
  { intros [A B]. split; [exact A|]. intros e a I1 I2. rewrite Forall_forall in B. specialize (B e I1). rewrite Forall_forall in B. auto. }
  refine (rest_if _ _ _ _ _ (sc_contract False P) sc_at_rest sc_query _ (fun e => ~ asks e) _ _ _ _ _ _ _ _ d tr d' Hh HQ1 HQ2 HK); clear.
  - auto.
  - auto.
  - intros d (A1 & A2 & A3 & A4). unfold sc_at_rest. cbn. splits; auto; tauto.
  - intros d q d' (A1 & A2 & A3 & A4 & A5) Hr. congruence.
  - intros d r d' b HK HR Hl [_ Hx]. assert (G : sc_query b) by (destruct Hl; exact I). split; [|exact G]. pose proof HK as (B1 & B2 & B3 & B4 & B5). destruct Hl.
    1,2: destruct Hx as (A1 & A2 & A3 & A4 & A5 & A6 & A7 & A8 & A9 & A10 & A11 & A12); revert HK; unfold sc_at_rest, ip_is_connected;
         rewrite ?A1, ?A2, ?A3, ?A4, ?A5, ?A6, ?A7, ?A8; tauto.
    destruct Hx as [(_ & _ & (X1 & _) & _ & _ & _ & X3 & X4 & _ & _ & _ & _ & _ & X5) Hx].
    match goal with H : sh_whole _ _ _ |- _ => cbn [sh_whole sc_shape] in H; destruct (sc_line_effect _ _ _ _ _ Hx H) as [Y _] end.
    unfold sc_at_rest, ip_is_connected in *. splits.
    + destruct X3 as [->| ->]; auto.
    + congruence.
    + unfold sc_effect, sc_data in Y. destruct (sc_refused d L); [destruct Y as (_ & _ & _ & -> & _); exact B3|].
      destruct Y as (-> & _). destruct (rst d); try exact B3. contradiction B4; reflexivity.
    + destruct X5 as [->| ->]; [exact B4|discriminate].
    + destruct X4 as [->|[_ X4]]; [exact B5|]. exfalso. destruct X4 as [X4|[X4 _]]; [congruence|lia].
  - intros d d' b HK Hl (HI & Hx & Ho). destruct Hx as (X0 & X1 & _ & _ & _ & XR & _ & X2 & _).
    pose proof (X2 False (sc_rest_conf d HK)) as (C1 & C2 & C3 & C4).
    assert (Hc : ip_is_connected d' = false) by (destruct (ip_is_connected d'); tauto).
    pose proof (sc_output_rest P True d HI) as Hr. rewrite Ho in Hr. cbn [wp] in Hr.
    pose proof HK as (_ & HK2 & HK3 & HK4 & HK5). specialize (Hr HK3).
    assert (Hn : ~ sc_cfg d') by (intro F; apply X1 in F; unfold sc_cfg in F; rewrite HK2 in F; destruct F; [lia|discriminate]).
    split.
    { unfold sc_at_rest. splits; auto.
      - destruct (fConnect (fl d')) eqn:E; [|reflexivity]. contradiction Hn. right. exact E.
      - destruct X0 as [->|[X0|X0]]; [exact HK3| |].
        + unfold sc_diagram in X0. cbn [In] in X0. revert X0 HK3 Hn. unfold sc_cfg. destruct (sst d), (sst d'); cbn [sc_rank]; intros X0 HK3 Hn; first [lia|exfalso; first [apply Hn; left; lia|clear - X0; repeat destruct X0 as [X0|X0]; discriminate X0 || contradiction]].
        + exfalso. cbn [In sc_undocumented] in X0. destruct X0 as [X0|[]]. injection X0 as X0 _. rewrite <- X0 in HK3. cbn in HK3. lia.
      - congruence. }
    destruct Hl; cbn [sc_query]; auto.
    + match goal with H : sh_says _ _ _ _ |- _ => destruct H as [(_ & -> & _)|[(_ & -> & _)|[(c & Hs & -> & _)|(Hs & _)]]] end; auto.
      * unfold sc_command in Hs. destruct (sst d); try discriminate Hs; cbn in HK3; lia.
      * rewrite Hs in HK3. cbn in HK3. lia.
    + unfold ip_is_connected in Hc. match goal with H : cst d' = csTransmitting |- _ => rewrite H in Hc end. discriminate.
    + match goal with H : sh_insend _ _ = true |- _ => cbn [sh_insend sc_shape] in H; unfold sc_insend in H end. destruct (sst d); try discriminate; cbn in HK3; lia.
    + lia.
  - intros e d d' HQ HI HK _ Hf E1 E2 E3 E4. destruct HK as (A1 & A2 & A3 & A4 & A5). unfold sc_at_rest, ip_is_connected in *. rewrite E1, E2, E4. splits; auto.
    + destruct Hf as (_ & _ & [Hf|(Hf1 & Hf2 & _)] & _); [congruence|]. contradiction HQ. split; assumption.
    + destruct Hf as ((G1 & _) & _). congruence.
  - intros d d' HI _ _ E. destruct (sc_reset_exact False P d d' HI E) as (y & -> & _). unfold sc_at_rest, ip_is_connected. cbn. splits; auto; discriminate.
Qed.

Lemma sc_built_rest : forall d, sc_built d -> sc_at_rest d.
Proof.
  intros d Hb. apply sc_built_fresh in Hb. destruct Hb as (_ & _ & F1 & F2 & F3 & F4 & F5 & _). unfold sc_at_rest, ip_is_connected. rewrite F1, F2, F4, F5. cbn. splits; auto; discriminate.
Qed.

Example C73_cc_case : sc_seen ([call (OpSetHostPort (PStr (bs "host")) 80%Z 1%Z); call OpDisconnect; call OpRequestRSSI] ++ runs_ 2 ++
  dialog [crlf (bs "+CSQ:20"); crlf (bs "OK"); crlf (bs "CONNECT"); crlf (bs "OK")] ++ runs_ 2 ++ [call (OpX CRequestMac)] ++ runs_ 3 ++ [call OpIsConnected]) =
  Ok ([DBool false], ["AT+CSQ"; "AT+CIPSTAMAC"]%string).
Proof. vm_compute. reflexivity. Qed.

(** ** C74 *)
(** The run() after an error, if it hears nothing. *)
Lemma sc_reset_none : forall P N d e d', sc_step P d e d' -> roomy N d e -> hears None e -> isopen d = true -> fReset (fl d) = true -> fLock (fl d) = false ->
  exists dp dm d1 a b, sc_inv dm /\ sc_rctl d dp /\ isopen dp = true /\ sc_same dp dm /\ keepw dp dm /\ txav (io dm) + N <= txsz (io dm) /\
    e_acts e = [aReset []; a; b] /\ act_put a = [] /\ olabC P dm d1 b /\ sc_output P dm = Ok d1 /\ d' = set_io (io d') d1.
Proof.
  intros P N d e d' Hs ((oo & Eo) & Ht) Hn H1 H2 H3.
  destruct (sc_parts P d e d' oo Hs Eo H3) as (d1 & Hd & [(_ & E & _)|(_ & l & dp & Hp & Hr)]); [congruence|].
  destruct Hp as [(F & _)|(_ & q & -> & Hq & Hrc)]; [change (fReset (fl d) = false) in F; congruence|].
  destruct Hq as ((y & ev & Y1 & _ & _ & _ & _ & Y2 & Y3 & _) & Hlq & Hkp & _). assert (q = []) as -> by (destruct q; [reflexivity|cbn in Hlq; lia]).
  destruct Hr as (a & d2 & r & Hi & [HI Hx] & Hr).
  assert (Hk : keepw dp d2) by exact (ilab_keepw _ _ _ (sc_shape P) _ _ _ _ Hi).
  assert (Htx : txav (io d2) <= txav (io dp)) by exact (ilab_tx (sc_shape P) _ _ _ _ Hi).
  destruct (ilab_io (sc_shape P) _ _ _ _ Hi) as (ev2 & Hst & _).
  pose proof (ioeff_av _ _ _ _ Y3) as [_ Ya]. pose proof (ioeff_txsz _ _ _ _ Y3) as Yz. cbn [length] in Ya.
  assert (Hna : forall tk L, a <> aLine tk L) by (intros tk L ->; apply (Hn tk L); destruct Hr as [[-> _]|(b & -> & _)]; right; left; reflexivity).
  destruct Hr as [(_ & _ & ->)|(b & Ea & Hol & Hox)]; [exfalso; inversion Hi; subst; try discriminate; eapply Hna; reflexivity|].
  destruct Hox as (I2 & _ & Eq). exists dp, d2, d1, a, b.
  assert (Hsame : sc_same dp d2) by (destruct a; try exact Hx; exfalso; eapply Hna; reflexivity).
  splits; auto.
  - destruct Hrc as (C1 & C2 & C3 & C4 & C5 & C6). unfold sc_rctl. splits; auto. rewrite C4. change (sc_reconnects (during (e_sch e) d)) with (sc_reconnects d). destruct (sc_reconnects d); reflexivity.
  - destruct Hkp as (K & _). rewrite K. exact H1.
  - rewrite (sstep_txsz _ _ _ Hst), Yz, (sstep_txsz _ _ _ Y1). change (txsz (io (during (e_sch e) d))) with (txsz (io d)). change (txav (io (during (e_sch e) d))) with (txav (io d)) in Y2. lia.
  - inversion Hi; reflexivity.
Qed.

(** An error line ("SEND FAIL" counts once the connection is open): nothing is
    sent, the connection is reported as lost, and the next run() that hears
    nothing closes it on the module. *)
Definition sc_error (d : dv) (e : ent) : Prop := exists tk L, In (aLine tk L) (e_acts e) /\
  (prefixb (bs "ERROR") L = true \/ 5 <= sc_rank (sst d) /\ fReset (fl d) = false /\ prefixb (bs "SEND FAIL") L = true).
Theorem C74_cc_error : forall P d e d', sc_step P d e d' -> fLock (fl d) = false -> sc_error d e ->
  put (e_ev e) = [] /\ ip_is_connected d' = false /\
  forall e2 d2 N, sc_step P d' e2 d2 -> roomy N d' e2 -> 20 <= N -> hears None e2 -> isopen d' = true ->
    rssi d' <> INT16_MAX -> mac_request P (cmac (ext d')) = false ->
    put (e_ev e2) = bs "AT+CIPCLOSE" ++ [CR; LF] /\ wait d2 = Some (bs "OK").
Proof.
  intros P d e d' Hs Hlk (tk & L & Hin & HE).
  destruct (heard _ _ _ _ _ (sc_contract False P) d e d' tk L Hs Hin) as (oo & l & x1 & x2 & r & d1 & Eo & Ho & _ & Hl & Hp & Hi & Hx & Hd & Hput & Hc).
  assert (Hpl : acts_put l = [] /\ fLock (fl x1) = false /\ sc_refused x1 L = true).
  { destruct Hp as [(_ & -> & ->)|(F & q & -> & (_ & Hq & _) & (_ & _ & _ & Hf & _))].
    - splits; auto. unfold sc_refused. change (sst (during (e_sch e) d)) with (sst d). destruct HE as [->|(HE & _ & ->)]; [reflexivity|]. apply Nat.leb_le in HE. rewrite HE. apply orb_true_r.
    - destruct q; [|cbn in Hq; lia]. splits; auto; [rewrite Hf; destruct (sc_reconnects _); exact Hlk|].
      change (fReset (fl d) = true) in F. destruct HE as [HE|(_ & HE & _)]; [unfold sc_refused; rewrite HE; reflexivity|congruence]. }
  destruct Hpl as (Hpl & Hk1 & HR).
  assert (Hwl : whole_line L) by (inversion Hi; assumption).
  destruct Hx as [_ [(_ & _ & (_ & _ & X5) & _) Hx]]. destruct (sc_line_effect P _ _ _ _ Hx Hwl) as [Y Er]. unfold sc_effect in Y. rewrite HR in Y, Er. subst r.
  destruct Y as (_ & _ & _ & _ & _ & _ & _ & _ & X3 & X1 & X2).
  destruct Hc as [(_ & Ea & ->)|(F & _)]; [|discriminate F].
  set (y := io d') in *. clearbody y. subst d'. splits.
  - rewrite Hput, Ea. unfold acts_put in *. rewrite map_app, concat_app, Hpl. reflexivity.
  - unfold ip_is_connected. change (cst (set_io y x2)) with (cst x2). rewrite X2. reflexivity.
  - intros e2 d2 N Hs2 Hr2 HN Hh2 Ho2 Hq1 Hq2.
    destruct (sc_reset_none P N _ e2 d2 Hs2 Hr2 Hh2 Ho2 X1 ltac:(change (fLock (fl x2) = false); congruence))
      as (dp & dm & d3 & a & b & HI & (R1 & R2 & R3 & R4 & R5 & R6) & R7 & (S1 & S2 & S3 & S4 & S5 & S6 & S7 & S8 & S9 & S10 & S11 & S12) & Hkw & Ht & Ea2 & Hpa & Hol & Eq & Ed).
    pose proof Hkw as ((K1 & K2 & K3 & K4 & K5 & K6) & K7).
    assert (Hst : sst dm = SCSendCipclose) by congruence.
    assert (Hg : sc_going P dm).
    { unfold sc_going. rewrite K1, S8, S12, S5, S6, R4, R5, R6. splits; auto.
      - destruct (sc_reconnects _); reflexivity.
      - destruct (sc_reconnects _); change (fLock (fl x2) = false); congruence.
      - congruence. }
    destruct (sc_free_output P dm d3 HI Eq ltac:(congruence) Hg ltac:(lia)) as (z & Qz & Hm).
    assert (HIz : sc_inv (set_io z dm)) by (split; [apply dok_quiet; [apply HI|exact Qz]|apply HI]).
    pose proof (sc_command_turn (set_io z dm) (bs "AT+CIPCLOSE") HIz) as T. rewrite Hm in T. cbn [wp] in T.
    destruct T as ((q & T1 & _ & T2) & (_ & T3 & _)).
    + change (rst dm = RCOk). congruence.
    + change (sst (set_io z dm)) with (sst dm). rewrite Hst. reflexivity.
    + split.
      * change (io (set_io z dm)) with z in T1, T2. apply quiet_ioeff in Qz. pose proof (ioeff_av _ _ _ _ Qz) as [_ A]. pose proof (ioeff_txsz _ _ _ _ Qz) as A2. cbn [length] in A.
        rewrite T2 in T1 by (rewrite A2; cbn; lia). destruct Hr2 as ((o2 & Eop) & _).
        destruct Hs2 as (_ & _ & _ & _ & _ & _ & Hio & _). unfold call_io in Hio. rewrite Eop in Hio. destruct Hio as [_ ->].
        rewrite Ea2. unfold acts_put. cbn [map concat act_put]. rewrite Hpa, app_nil_r. cbn [app].
        refine (olab_put _ _ _ _ _ _ _ _ dm d3 b [] _ _ Hol (ioeff_trans _ _ _ _ _ _ _ Qz T1)). intros v Hv. destruct (olab_io (sc_shape P) _ _ _ Hv) as (ev & U1 & _ & U2 & _). eauto.
      * rewrite Ed. change (wait (set_io (io d2) d3)) with (wait d3). rewrite T3. reflexivity.
Qed.

(** A session: the data is refused; the driver closes the connection. *)
Example C74_cc_session : sc_then ([call (OpWrite (bs "hello") 5)] ++ runs_ 1 ++ dialog [crlf (bs "ERROR")] ++ [call OpIsConnected] ++ runs_ 1) =
  Ok ([DCount 5; DBool false], ["AT+CIPSEND=5"; "AT+CIPCLOSE"]%string).
Proof. vm_compute. reflexivity. Qed.

(** ** C55 *)
(** Asked for the 5 bytes it reported, the module delivers 7: the count of bytes still to
    fetch wraps, and the driver asks for 25 more, which nobody reported. *)
Theorem C55_cc_wrap_refuted : sc_then (sc_receive_ (bs "7") (bs "abcdefg") ++ dialog [crlf (bs ""); crlf (bs "OK")] ++ runs_ 4 ++
    [call OpBytesAvailable; call (OpRead 40)] ++ runs_ 2) =
  Ok ([DCount 7; DData (bs "abcdefg") 7], ["AT+CIPRECVDATA=5"; "AT+CIPRECVDATA=25"]%string).
Proof. vm_compute. reflexivity. Qed.

(** ** Assumptions *)
Print Assumptions C55_cc_wrap_refuted.
Print Assumptions C71_cc_refuted.
Print Assumptions C72_cc_refuted.
Print Assumptions C73_cc_refuted.
Print Assumptions C73_cc_unasked.
Print Assumptions C74_cc_error.
