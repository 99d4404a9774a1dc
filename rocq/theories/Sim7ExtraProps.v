(** The SIM7x00 driver: what calls in the wrong moment lead to (C71, C72), that a
    connection is opened only on request (C73), and what an ERROR reply does (C74). *)
From Coq Require Import String Ascii ZArith List Bool Arith Lia ZifyBool ZifyNat.
From Verif Require Import Base QueueSpec LineSpec SerialSpec Ring RingProofs LineRing LineRingProofs Serial SerialProofs
  SerStep TaskMacros CStr CStrProofs Dev DevProofs SimDev SimProofs SimSpec SimParse Sym DrvStep DrvCommon DrvRun DrvHist DrvRest DrvStuck DrvHand DrvSend SimHand DrvTalk HandCheck SimLog DevProps Session
  Sim7x00 Sim7Spec Sim7Proofs Sim7Ctl Sim7CtlIn Sim7Hist Sim7Thms Sim7More Sim7Line Sim7Hand Sim7Send Sim7Props Sim7HandProps Sim7SendProps.
Import ListNotations.
Local Open Scope nat_scope.
Local Notation dv := (dev s7send s7reply simx).
Local Notation ent := (@entry simop).

(** ** C71 *)
(** A query goes first. *)
Lemma s7_query_output : forall (x x1 : dv), s7_inv x -> s7_output x = Ok x1 -> wait x = None -> rst x = R7Ok -> rssi x = INT16_MAX -> fLine (fl x) = true ->
  txav (io x) + 20 <= txsz (io x) -> ioeff (io x) (io x1) [] (bs "AT+CSQ" ++ [CR; LF]) /\ x1 = set_wait (Some (bs "OK")) (set_rst R7Csq (set_io (io x1) x)).
Proof.
  intros x x1 HI Hx K5 K6 K11 K12 Ht. pose proof HI as ((Hw & _) & _).
  unfold s7_output in Hx. rewrite K5, K6 in Hx. cbn [r7_ok negb] in Hx. unfold d_space in Hx.
  destruct (s_space_q (io x) Hw) as (y & E1 & Q). rewrite E1 in Hx. cbn [bind] in Hx. apply quiet_ioeff in Q.
  pose proof (ioeff_av _ _ _ _ Q) as [_ A]. pose proof (ioeff_txsz _ _ _ _ Q) as A2. cbn [length] in A.
  destruct (Nat.ltb_spec (txsz y - txav y) 20) as [Hlt|Hge]; [lia|].
  change (rssi (set_io y x)) with (rssi x) in Hx. change (fl (set_io y x)) with (fl x) in Hx. rewrite K11, K12 in Hx. cbn [Z.eqb Pos.eqb andb INT16_MAX] in Hx.
  set (x0 := set_wait (Some okStr) (set_rst R7Csq (set_io y x))) in *.
  assert (H : wp False (at_send_command (bs "AT+CSQ") x0) (fun z => ioeff (io x) (io z) [] (bs "AT+CSQ" ++ [CR; LF]) /\ z = set_wait (Some (bs "OK")) (set_rst R7Csq (set_io (io z) x)))).
  { apply wp_send_command; [exact (ioeff_wf _ _ _ _ Q)|]. intros z Hz. change (io x0) with y in Hz. destruct Hz as (q & I1 & _ & I2).
    rewrite I2 in I1 by (cbn; lia). split; [exact (ioeff_trans _ _ _ _ _ _ _ Q I1)|reflexivity]. }
  rewrite Hx in H. exact H.
Qed.

(** The prompt arrives while a query is pending. *)
Lemma s7_displaces : forall P N d e d', s7_step P d e d' -> roomy N d e -> hears (reply (bs ">")) e -> s7_awake d -> 20 <= N ->
  wait d = Some (bs ">") -> rst d = R7Ok -> rssi d = INT16_MAX ->
  put (e_ev e) = bs "AT+CSQ" ++ [CR; LF] /\ wbuf d' = wbuf d /\ toWrite d' = toWrite d /\ sst d' = sst d /\ wait d' = Some (bs "OK").
Proof.
  intros P N d e d' Hs Hr Hh Hg HN Hw Hrst Hrs.
  assert (Hk : forall L, prefixb (bs ">") L = true -> s7_known d L) by (intros L HL; right; right; exists (bs ">"); splits; [exact Hw|cbn; tauto|exact HL]).
  destruct (s7_awake_line P N d e d' _ Hs Hr Hh Hg ltac:(left; exact Hrst) Hk) as (dm & d1 & a & b & L & HI & HL & (S1 & S2 & S3 & S4 & S5 & S6 & S7 & _) & ((K1 & K2 & K3 & K4 & K5 & K6) & K7) & Ht & Ea & Hpa & Hol & Eo & Ed).
  rewrite Hw in S4. cbn [s7_wait_after] in S4. rewrite HL in S4. rewrite Hrst in S5. cbn [s7_rst_after] in S5.
  destruct Hr as ((oo & Eop) & Hroom).
  assert (Hl : fLine (fl dm) = true). { rewrite S2. destruct Hh as (tk & L' & Hin & _). exact (line_on _ _ _ _ _ (s7_contract P) d e d' oo tk L' Hs Eop (proj1 (proj2 Hg)) Hin). }
  destruct (s7_query_output dm d1 HI Eo S4 S5 ltac:(congruence) Hl ltac:(lia)) as [Q1 Q2].
  split.
  - destruct Hs as (_ & _ & _ & _ & _ & _ & Hio & _). unfold call_io in Hio. rewrite Eop in Hio. destruct Hio as [_ ->].
    rewrite Ea. unfold acts_put. cbn [map concat]. rewrite Hpa, app_nil_r. cbn [app].
    refine (olab_put _ _ _ _ _ _ _ _ dm d1 b [] _ _ Hol Q1). intros z Hz. destruct (olab_io (s7_shape P) _ _ _ Hz) as (ev & T1 & _ & T2 & _). eauto.
  - rewrite Ed. set (y := io d1) in *. clearbody y. subst d1. splits; auto; cbn [wbuf set_io set_wait set_rst toWrite sst]; congruence.
Qed.

(** write(), the announcement, requestRSSI(), and the prompt: the query is sent
    in place of the payload, whatever was written. *)
Theorem C71_sim7_refuted : forall P N d e d1 tr d2 eq d3 ep d4 data n k, s7_at_ease d -> fDisc (fl d) = false -> fData (fl d) = false ->
  ring_ok (wbuf d) -> contents (wbuf d) = [] ->
  s7_step P d e d1 -> e_op e = OpWrite data n -> n <= length data -> e_out e = DCount k -> 0 < k ->
  dialogue (s7_step P) s7_noise N [None] d1 tr d2 ->
  22 + k <= N -> (Z.of_nat k < 100000)%Z -> length (announcement true k (s7_send_tail (typ d) (s7_address d) (port d))) <= N ->
  s7_step P d2 eq d3 -> e_op eq = OpRequestRSSI -> s7_step P d3 ep d4 -> roomy N d3 ep -> hears (reply (bs ">")) ep ->
  sent (e :: tr ++ [eq; ep]) = announcement true k (s7_send_tail (typ d) (s7_address d) (port d)) ++ bs "AT+CSQ" ++ [CR; LF] /\
  contents (wbuf d4) = firstn k data.
Proof.
  intros P N d e d1 tr d2 eq d3 ep d4 data n k (R1 & R2 & R3 & R4 & R5 & R6) F1 F2 Hok Hct Hs Eo Hn Eout Hk Hd HN H5 Hlen Hq Eq Hp Hrp Hhp.
  pose proof Hs as (_ & _ & _ & E & _ & _ & Hio & _). rewrite Eo in E, Hio.
  destruct (C31_write _ _ _ _ _ _ _ _ _ _ _ _ Hok Hn E) as (Ek & Ec & Eok & Ed). rewrite Eout in Ek. injection Ek as Ek. rewrite <- Ek, Hct in Ec. cbn [app] in Ec.
  assert (Hl : length (firstn k data) = k) by (apply firstn_length_le; destruct (cst d); lia).
  pose proof (contents_length _ (proj1 Eok)) as Hcl. rewrite Ec, Hl in Hcl.
  assert (Hpe : put (e_ev e) = []) by (destruct Hio; assumption). clear Hio.
  set (w := wbuf d1) in *. set (y := io d1) in *. clearbody w y. subst d1. set (d1 := set_wbuf w (set_io y d)) in *.
  assert (Hg : s7_going d1) by exact R1.
  destruct (s7_meet P N _ _ d1 tr d2 _ Hd Hg (f7_none d1 R5 R6)) as (x0 & e0 & d0 & tr0 & E0 & (J1 & J2 & J3 & J4 & J5 & J6 & J7 & J8 & J9 & J10) & J11 & J12 & Hs0 & Hr0 & Hh0 & Hd0).
  assert (Jt : typ x0 = typ d /\ port x0 = port d) by (unfold s7_params in J4; injection J4; auto). destruct Jt as [Jt1 Jt2].
  assert (Jw : wbuf x0 = w) by (injection J10; auto).
  destruct (s7_announces P N _ x0 e0 d0 _ Hs0 Hr0 Hh0 J1 J12) as (A1 & A2 & A3 & A4 & A5 & A6 & A7 & A8 & A9 & A10 & A11 & A12); rewrite ?J2, ?Jw, ?Jt1, ?Jt2, <- ?Hcl; try assumption.
  rewrite Jw, Jt1, Jt2, <- Hcl in A1.
  destruct (dialogue_end (s7_step P) s7_noise N d0 tr0 d2 (fun x => x = set_io (io x) d0)) as [B1 B2]; [|exact Hd0|destruct d0; reflexivity|].
  { apply s7_look_keeps. intros z x ->. reflexivity. }
  assert (Hd3 : d3 = set_rssi INT16_MAX (set_io (io d3) d2) /\ put (e_ev eq) = []).
  { destruct Hq as (_ & _ & _ & E1 & _ & _ & Hio & _). rewrite Eq in E1, Hio. destruct Hio as [_ Hpq]. split; [|exact Hpq]. clear - E1.
    unfold d_step in E1. cbn [d_call bind] in E1. destruct (run_isrs _ _) as [[s ev]|]; [|discriminate]. cbn [bind] in E1. apply ok_inj in E1. injection E1 as _ _ E1. subst d3. reflexivity. }
  destruct Hd3 as [Hd3 Hpq]. set (yq := io d3) in *. clearbody yq. set (y2 := io d2) in *. clearbody y2. subst d2. subst d3.
  destruct (s7_displaces P N _ ep d4 Hp Hrp Hhp) as (C1 & C2 & _); cbn [wait rst rssi set_rssi set_io]; try assumption; try reflexivity; try lia.
  { destruct A2 as (G1 & G2 & G3 & _). exact (conj G1 (conj G2 G3)). }
  split.
  - rewrite sent_cons, sent_app, !sent_cons, Hpe, E0, B1, Hpq, C1, A1. cbn [app sent map concat]. rewrite !app_nil_r. reflexivity.
  - rewrite C2. cbn [wbuf set_rssi set_io]. rewrite A11, Jw. exact Ec.
Qed.

Example C71_sim7_session : s7_then ([call (OpWrite (bs "hello") 5)] ++ runs_ 1 ++ [call OpRequestRSSI] ++ dialog [bs ">"]) =
  Ok ([DCount 5], ["AT+CIPSEND=0,5"; "AT+CSQ"]%string).
Proof. vm_compute. reflexivity. Qed.

(** ** C73 *)
(** connect() was called and accepted. *)
Definition asks (e : ent) : Prop := e_op e = OpConnect /\ e_out e = DBool true.
(** No connection, none being opened or closed, none asked for. *)
Definition s7_at_rest (d : dv) : Prop :=
  ip_is_connected d = false /\ fConnect (fl d) = false /\ s7_rank (sst d) <= 2 /\ rst d <> R7Netopen /\ rst d <> R7Ciprxget2.
(** What may be sent then: the query for the signal strength, the queries for
    the identification, the reset command; and no payload is sent or received. *)
Definition s7_query (a : act) : Prop :=
  match a with
  | aCommand c _ => exists q, In q [bs "AT+CSQ"; bs "AT+CGMI"; bs "AT+CGMM"; bs "AT+CGSN"; bs "AT+CIMI"; bs "AT+CICCID"] /\ c = q ++ [CR; LF]
  | aAnnounce _ _ | aPayload _ | aReceive _ => False
  | _ => True
  end.

Lemma s7_output_rest : forall (U : Prop) d, s7_inv d -> s7_rank (sst d) <= 2 -> wp U (s7_output d) (fun d' => toRead d' = toRead d).
Proof.
  intros U d H HR. unfold s7_output. destruct (wait d) eqn:Ew.
  { reflexivity. }
  destruct (rst d) eqn:Er; cbn [r7_ok negb wp]; try reflexivity.
  open_inv d H. subst. syms.
  all: try (match goal with |- wp _ (s7_machine _) _ =>
       unfold s7_machine, at_handle_connect, at_handle_disconnect; gs; destruct ss0; cbn [s7_rank] in HR; try lia; gs; syms end).
  all: try nulip.
  all: clear Hwf Hr Ht Hrw Hrs Hww Hws Hwf2 Hl Hw Hpo Hip Hid Hmx Hipn Hidn; cases; gs.
  all: reflexivity.
Qed.

Lemma s7_rest_cfg : forall d, s7_at_rest d <-> ip_is_connected d = false /\ ~ s7_cfg d.
Proof.
  intro d. unfold s7_at_rest, s7_cfg. split.
  - intros (A1 & A2 & A3 & A4 & A5). split; [exact A1|]. rewrite A2. intros [?|[?|[?|?]]]; [lia|discriminate|auto|auto].
  - intros (A1 & A2). splits; auto; try (intro; apply A2; auto).
    + destruct (fConnect (fl d)); auto. contradiction A2. auto.
    + destruct (le_lt_dec (s7_rank (sst d)) 2); auto. contradiction A2. left. lia.
Qed.

Lemma s7_rest_conf : forall d, s7_at_rest d -> s7_conf False d.
Proof.
  intros d (A1 & A2 & A3 & A4 & A5). unfold s7_conf. splits.
  - intro E. rewrite E in A3. cbn in A3. lia.
  - intros [?|?]; [lia|auto].
  - congruence.
  - auto.
Qed.

(** Until connect() is called, no connection is opened, whatever the modem sends
    and whatever else is called. *)
Theorem C73_sim7_unasked : forall P d tr d', s7_at_rest d -> s7_hist P d tr d' -> (forall e, In e tr -> ~ asks e) ->
  s7_at_rest d' /\ forall e a, In e tr -> In a (e_acts e) -> s7_query a.
Proof.
  intros P d tr d' HK Hh HQ. apply Forall_forall in HQ.
  cut (s7_at_rest d' /\ Forall (fun e => Forall s7_query (e_acts e)) tr).
  { intros [A B]. split; [exact A|]. intros e a I1 I2. rewrite Forall_forall in B. specialize (B e I1). rewrite Forall_forall in B. auto. }
  refine (rest _ _ _ _ _ (s7_contract P) s7_at_rest s7_query (fun e => ~ asks e) _ _ _ _ _ _ _ _ d tr d' Hh HQ HK); clear.
  - auto.
  - auto.
  - intros d (A1 & A2 & A3 & A4 & A5). unfold s7_at_rest. cbn. splits; auto.
  - intros d q d' (A1 & A2 & A3 & A4 & A5) Hr (_ & _ & _ & _ & _ & _ & _ & Hc & _) (R1 & R2 & R3 & R4 & _). split; [|exact I].
    unfold s7_at_rest, ip_is_connected. rewrite R1, R2, R4, Hc. replace (3 <=? s7_rank (sst d)) with false by lia. cbn. splits; auto; discriminate.
  - intros d r d' b HK Hl [_ Hx]. assert (G : s7_query b) by (destruct Hl; exact I). split; [|exact G]. destruct Hl.
    1,2: destruct Hx as (A1 & A2 & A3 & A4 & A5 & A6 & A7 & A8 & A9 & A10 & A11 & A12); revert HK; unfold s7_at_rest, ip_is_connected;
         rewrite ?A1, ?A2, ?A3, ?A4, ?A5, ?A6, ?A7, ?A8; tauto.
    destruct Hx as [(_ & X1 & _ & X2 & _ & _ & X3 & _) _]. pose proof HK as HK0. apply s7_rest_cfg in HK as [K1 K2]. apply s7_rest_cfg. split; [|tauto].
    unfold ip_is_connected in *. destruct X3 as [->|[->| ->]]; auto.
  - intros d d' b HK Hl (HI & Hx & Ho). destruct Hx as (X0 & X1 & _ & _ & _ & _ & _ & _ & X2 & _).
    pose proof (X2 False (s7_rest_conf d HK)) as (_ & _ & X3 & _).
    assert (Hc : ip_is_connected d' = false) by (destruct (ip_is_connected d'); tauto).
    pose proof (s7_output_rest True d HI) as Hr. rewrite Ho in Hr. cbn [wp] in Hr.
    pose proof HK as (_ & _ & HK3 & _). specialize (Hr HK3).
    split; [apply s7_rest_cfg; apply s7_rest_cfg in HK as [K1 K2]; tauto|].
    destruct Hl; cbn [s7_query]; auto.
    + match goal with H : sh_says _ _ _ _ |- _ => destruct H as [(_ & -> & _)|[(c & Hi & -> & _)|[(c & Hs & -> & _)|(Hs & _)]]] end.
      * eexists. split; [left; reflexivity|reflexivity].
      * exists c. split; [|reflexivity]. unfold id_request in Hi. destruct (nth_error _ 1) as [t|]; [|discriminate]. destruct (id_of_code t) as [[]|]; inversion Hi; subst; cbn; auto 8.
      * unfold s7_command in Hs. destruct (sst d); try discriminate Hs; cbn in HK3; lia.
      * rewrite Hs in HK3. cbn in HK3. lia.
    + unfold ip_is_connected in Hc. match goal with H : cst d' = csTransmitting |- _ => rewrite H in Hc end. discriminate.
    + match goal with H : sh_insend _ _ = true |- _ => cbn [sh_insend s7_shape] in H; unfold s7_insend in H end. destruct (sst d); try discriminate; cbn in HK3; lia.
    + lia.
  - intros e d d' HQ HI HK _ Hf E1 E2 E3 E4. destruct HK as (A1 & A2 & A3 & A4 & A5). unfold s7_at_rest, ip_is_connected in *. rewrite E1, E2, E4. splits; auto.
    destruct Hf as (_ & _ & [Hf|(Hf1 & Hf2 & _)] & _); [congruence|]. contradiction HQ. split; assumption.
  - intros d d' HI _ _ E. destruct (s7_reset_exact P d d' HI E) as (y & -> & _). unfold s7_at_rest, ip_is_connected. cbn. splits; auto; discriminate.
Qed.

Lemma s7_built_rest : forall d, s7_built d -> s7_at_rest d.
Proof.
  intros d Hb. apply s7_built_fresh in Hb. destruct Hb as (_ & _ & F1 & F2 & F3 & F4 & F5 & _). unfold s7_at_rest, ip_is_connected. rewrite F1, F2, F4, F5. cbn. splits; auto; discriminate.
Qed.

(** In particular from the beginning. *)
Theorem C73_sim7_never : forall P d0 tr d, s7_built d0 -> s7_hist P d0 tr d -> (forall e, In e tr -> ~ asks e) ->
  ip_is_connected d = false /\ forall e a, In e tr -> In a (e_acts e) -> s7_query a.
Proof.
  intros P d0 tr d Hb Hh HQ. destruct (C73_sim7_unasked P d0 tr d (s7_built_rest d0 Hb) Hh HQ) as [(A & _) B]. auto.
Qed.

(** Queries, an error, chatter of the modem and setters do not open a connection. *)
Definition s7_unasked_script : @script simop :=
  [call (OpX (SetApn (PStr (bs "net")))); call (OpSetHostPort (PStr (bs "host")) 80%Z 1%Z); call OpDisconnect; call OpRequestRSSI] ++ runs_ 2 ++
  dialog [crlf (bs "ERROR"); crlf (bs "RDY")] ++ runs_ 2 ++ dialog [crlf (bs "RDY"); crlf (bs "+CSQ: 20,0"); crlf (bs "OK"); crlf (bs "+CIPOPEN: 0,0"); crlf (bs "CONNECT OK")] ++ runs_ 2 ++
  [call (OpX (RequestID idImei))] ++ runs_ 3 ++ [call OpIsConnected].
Example C73_sim7_case : s7_seen s7_unasked_script = Ok ([DBool false], ["AT+CSQ"; "AT+CRESET"; "AT+CSQ"; "AT+CGSN"]%string) /\
  forallb (fun o => match fst o with OpConnect => false | _ => true end) s7_unasked_script = true.
Proof. vm_compute. split; reflexivity. Qed.

(** ** C72 *)
(** A second disconnect() while the connection is being closed stays pending: the
    next connect() is accepted, but gives up before the network is opened. *)
Definition s7_twice : @script simop :=
  [call OpDisconnect] ++ runs_ 2 ++ [call OpDisconnect] ++ dialog [crlf (bs "OK"); crlf (bs "+NETCLOSE: 0")] ++ runs_ 1 ++
  [call OpIsIdle; call OpConnect] ++ runs_ 2 ++ dialog (repeat (crlf (bs "OK")) 5) ++ runs_ 3 ++ [call OpIsIdle].
Theorem C72_sim7_refuted : s7_then s7_twice =
  Ok ([DBool true; DBool true; DBool true], ["AT+NETCLOSE"; "ATE0"; "AT+CGSOCKCONT=1,""IP"",""net"""; "AT+CSOCKSETPN=1"; "AT+CIPMODE=0"]%string).
Proof. vm_compute. reflexivity. Qed.

(** ** C74 *)
Lemma s7_line_refused : forall P d ret d' L, s7_handles P d ret d' L -> s7_refused L d = true ->
  ret = true /\ fReset (fl d') = true /\ cst d' = csGeneralError /\ wait d' = None /\ sst d' = sst d /\ fLock (fl d') = fLock (fl d).
Proof.
  intros P d ret d' L (r & y & Hlen & _ & HI & E) HR. set (x := line_at L r y d) in *. assert (HL : lbuf x = L ++ NUL :: r) by reflexivity.
  cut (ret = true /\ fReset (fl d') = true /\ cst d' = csGeneralError /\ wait d' = None /\ sst d' = sst x /\ fLock (fl d') = fLock (fl x)); [intro C; exact C|].
  assert (HR' : s7_refused L x = true) by exact HR. clearbody x. clear HR y d. rename x into d.
  destruct HI as ((_ & _ & _ & _ & _ & _ & _ & _ & _ & Hwt & _) & _). unfold s7_refused in HR'. unfold s7_parse, s7_standard_reply in E. destruct (wait d) as [w|]; [|discriminate HR'].
  apply andb_true_iff in HR' as [R1 R2]. apply negb_true_iff in R1. destruct Hwt as [Hw1 Hw2].
  rewrite (lmatch_line L r d HL Hlen) in E by first [apply nulfree_of; assumption | lia]. cbn [bind] in E. rewrite R1 in E.
  rewrite (lstarts_line L r d HL Hlen) in E by (reflexivity || (cbn; lia)). cbn [bind] in E. rewrite R2 in E. cbn [bind] in E.
  apply ok_inj in E. injection E as <- <-. splits; reflexivity.
Qed.

(** An ERROR line while a reply is awaited: the connection is reported as lost,
    nothing is sent, and the next run() resets the modem. *)
Theorem C74_sim7_error : forall P d e d' w, s7_step P d e d' -> wait d = Some w ->
  hears (Some (fun L => prefixb (bs "ERROR") L = true /\ prefixb w L = false)) e ->
  put (e_ev e) = [] /\ ip_is_connected d' = false /\
  forall e2 d2 oo, s7_step P d' e2 d2 -> e_op e2 = OpRun oo -> isopen d' = true -> txav (io d') + 11 <= txsz (io d') ->
    put (e_ev e2) = bs "AT+CRESET" ++ [CR; LF] /\ wait d2 = Some (bs "RDY").
Proof.
  intros P d e d' w Hs Hw (tk & L & Hin & HE & HwL).
  destruct (heard _ _ _ _ _ (s7_contract P) d e d' tk L Hs Hin) as (oo & l & x1 & x2 & r & d1 & Eo & Ho & Hk & Hl & Hp & Hi & Hx & Hd & Hput & Hc).
  specialize (Hl eq_refl). specialize (Hk eq_refl). subst l. destruct Hp as [(_ & _ & ->)|(_ & q & F & _)]; [|discriminate F].
  assert (HR : s7_refused L (during (e_sch e) d) = true) by (unfold s7_refused; change (wait (during (e_sch e) d)) with (wait d); rewrite Hw, HwL, HE; reflexivity).
  destruct Hx as [_ [_ Hx]]. destruct (s7_line_refused P _ _ _ _ Hx HR) as (-> & X1 & X2 & X3 & X4 & X5).
  destruct Hc as [(_ & Ea & ->)|(F & _)]; [|discriminate F].
  set (y := io d') in *. clearbody y. subst d'. splits.
  - rewrite Hput, Ea. reflexivity.
  - unfold ip_is_connected. change (cst (set_io y x2)) with (cst x2). rewrite X2. reflexivity.
  - intros e2 d2 o2 Hs2 Eo2 Ho2 Ht.
    destruct (resetting _ _ _ _ _ (s7_contract P) (set_io y x2) e2 d2 o2 Hs2 Eo2 eq_refl Ho2) as (Hq & q & x & _ & Hr & Hd2).
    + change (fLock (fl x2) = false). rewrite X5. exact Hk.
    + exact X1.
    + exact Ht.
    + split; [exact Hq|]. rewrite Hd2. change (wait (set_io (io d2) x)) with (wait x). apply Hr.
Qed.

(** Not so after AT+CIPRXGET=2: its answer is awaited without a string to compare. *)
Definition s7_asked (d : dv) : Prop := isopen d = true /\ fReset (fl d) = false /\ rst d = R7Ciprxget2 /\ wait d = None.
(** The data is not delivered, whatever else the modem says, and nobody calls
    resetStates() or closes the port. *)
Definition s7_undelivered (e : ent) : Prop :=
  e_op e <> OpResetStates /\ e_op e <> OpPortClosed /\
  forall tk L, In (aLine tk L) (e_acts e) -> prefixb (bs "+CIPRXGET: 2,0,") L = false.

Lemma s7_asked_stays : forall P d tr d', s7_hist P d tr d' -> s7_asked d -> Forall s7_undelivered tr ->
  s7_asked d' /\ Forall silent tr.
Proof.
  intros P d tr d' Hh HK HF.
  refine (held _ _ _ _ _ (s7_contract P) s7_asked s7_undelivered (rxsz (io d)) _ _ _ _ _ d tr d' Hh HF HK eq_refl).
  - intros y x H. exact H.
  - intros x (H1 & H2 & _). auto.
  - intros e x r x' a (Q1 & Q2 & Q3) Ha (K1 & K2 & K3 & K4) Hi [_ Hx].
    assert (Hk : keep x x') by (inversion Hi; assumption). destruct Hk as (Y1 & _).
    destruct a as [q|tk|tk1 tk2|tk L| |cmd q|n q|q|tk]; try (inversion Hi; fail);
      try (destruct Hx as (X1 & X2 & X3 & X4 & _ & _ & _ & X7 & _); unfold s7_asked; rewrite X2, X4, X7, Y1; splits; assumption).
    destruct Hx as (HC & _). pose proof (Q3 _ _ Ha) as Hn.
    destruct HC as (_ & _ & _ & _ & _ & _ & _ & C8 & _ & _ & _ & _ & C13 & _).
    unfold s7_asked. rewrite Y1. splits; auto.
    + destruct C8 as [->|(_ & [(F & _)|[(F & _)|(F & _)]])]; congruence.
    + destruct (C13 K3); congruence.
    + inversion Hi as [| |? ? _ _ _ _ _ _ _ [W|[W _]]]; congruence.
  - intros e x x' b _ _ (K1 & K2 & K3 & K4) _ Ho (HI & _ & Hx).
    assert (x' = x) as -> by (unfold s7_output in Hx; rewrite K4, K3 in Hx; cbn [r7_ok negb] in Hx; congruence).
    split; [unfold s7_asked; auto|]. destruct Ho; try reflexivity; exfalso; match goal with H : ~ awaiting _ _ |- _ => apply H; right; rewrite K3; reflexivity end.
  - intros e x x' (Q1 & Q2 & Q3) (K1 & K2 & K3 & K4) HI Hn Hr Hc.
    destruct Hr as [(_ & _ & _ & _ & _ & F1 & F2 & F3 & F4 & _ & _ & _ & _ & F5 & _ & Hf)|[E _]]; [|contradiction].
    destruct Hf as ((G1 & G2 & _) & G3 & _ & _ & G4 & G5 & _ & G6).
    unfold s7_asked. rewrite F1, F3, G1. splits; auto. destruct G6 as [->|[E _]]; [assumption|contradiction].
Qed.

(** The driver asked for data and the modem answers ERROR (or anything else that
    is not the data): nothing is ever sent again. *)
Theorem C74_sim7_blocked_refuted : forall P d tr d', s7_asked d -> s7_hist P d tr d' ->
  (forall e, In e tr -> s7_undelivered e) -> (forall e, In e tr -> silent e) /\ s7_asked d'.
Proof.
  intros P d tr d' HK Hh HF. apply Forall_forall in HF. destruct (s7_asked_stays P d tr d' Hh HK HF) as [A B].
  split; [apply Forall_forall; exact B|exact A].
Qed.

(** A session that gets there; the ERROR is not even reported. *)
Definition s7_rejected : @script simop :=
  dialog [crlf (bs "+CIPRXGET: 1,0")] ++ runs_ 2 ++ dialog [crlf (bs "+CIPRXGET: 4,0,5"); crlf (bs "OK")] ++ runs_ 2 ++
  dialog [crlf (bs "ERROR")] ++ runs_ 9 ++ [call OpIsConnected; call OpDisconnect] ++ runs_ 9.
Example C74_sim7_rejected : s7_then s7_rejected = Ok ([DBool true], ["AT+CIPRXGET=4,0"; "AT+CIPRXGET=2,0,5"]%string) /\
  s7_end (fun d => (isopen d, fReset (fl d), rst d, wait d)) (s7_connected ++ s7_rejected) = Ok (true, false, R7Ciprxget2, None).
Proof. vm_compute. split; reflexivity. Qed.
(** And one with an ERROR while a reply string is awaited. *)
Example C74_sim7_noticed : s7_then (dialog [crlf (bs "+CIPRXGET: 1,0")] ++ runs_ 2 ++ dialog [crlf (bs "ERROR")] ++ runs_ 1 ++ [call OpIsConnected] ++ runs_ 2) =
  Ok ([DBool false], ["AT+CIPRXGET=4,0"; "AT+CRESET"]%string).
Proof. vm_compute. reflexivity. Qed.

(** ** C55 *)
(** Asked for the 5 bytes it reported, the modem delivers 7: the count of bytes still to
    fetch wraps, and the driver asks for 25 more, which nobody reported. *)
Theorem C55_sim7_wrap_refuted : s7_then (s7_receive (bs "7") (bs "abcdefg") ++ dialog [crlf (bs ""); crlf (bs "OK")] ++ runs_ 4 ++
    [call OpBytesAvailable; call (OpRead 40)] ++ runs_ 2) =
  Ok ([DCount 7; DData (bs "abcdefg") 7], ["AT+CIPRXGET=4,0"; "AT+CIPRXGET=2,0,5"; "AT+CIPRXGET=2,0,25"]%string).
Proof. vm_compute. reflexivity. Qed.

(** ** Assumptions *)
Print Assumptions C55_sim7_wrap_refuted.
Print Assumptions C71_sim7_refuted.
Print Assumptions C72_sim7_refuted.
Print Assumptions C73_sim7_unasked.
Print Assumptions C73_sim7_never.

Print Assumptions C74_sim7_error.
Print Assumptions C74_sim7_blocked_refuted.
