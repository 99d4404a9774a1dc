(** The SIM800 driver: what calls in the wrong moment lead to (C71, C72), that an
    error can open a connection nobody asked for (C73), and what an ERROR reply does (C74). *)
From Coq Require Import String Ascii ZArith List Bool Arith Lia ZifyBool ZifyNat.
From Verif Require Import Base QueueSpec LineSpec SerialSpec Ring RingProofs LineRing LineRingProofs Serial SerialProofs
  SerStep TaskMacros CStr CStrProofs Dev DevProofs SimDev SimProofs SimSpec SimParse Sym DrvStep DrvCommon DrvRun DrvHist DrvActs DrvRest DrvStuck DrvHand DrvSend SimHand DrvTalk HandCheck SimLog DevProps Session
  Sim800 Sim8Spec Sim8Proofs Sim8Ctl Sim8CtlIn Sim8Run Sim8Hist Sim8Thms Sim8More Sim8Line Sim8Req Sim8Rest Sim8Stuck Sim8Hand Sim8Send Sim8Props Sim8HandProps Sim8SendProps.
Import ListNotations.
Local Open Scope nat_scope.
Local Notation dv := (dev s8send s8reply simx).
Local Notation ent := (@entry simop).

(** ** C71 *)
(** A query goes first. *)
Lemma s8_query_output : forall (x x1 : dv), s8_inv x -> s8_output x = Ok x1 -> wait x = None -> rst x = R8Ok -> rssi x = INT16_MAX -> fLine (fl x) = true ->
  txav (io x) + 20 <= txsz (io x) -> ioeff (io x) (io x1) [] (bs "AT+CSQ" ++ [CR; LF]) /\ x1 = set_wait (Some (bs "OK")) (set_rst R8Csq (set_io (io x1) x)).
Proof.
  intros x x1 HI Hx K5 K6 K11 K12 Ht. pose proof HI as ((Hw & _) & _).
  unfold s8_output in Hx. rewrite K5, K6 in Hx. cbn [r8_ok negb] in Hx. unfold d_space in Hx.
  destruct (s_space_q (io x) Hw) as (y & E1 & Q). rewrite E1 in Hx. cbn [bind] in Hx. apply quiet_ioeff in Q.
  pose proof (ioeff_av _ _ _ _ Q) as [_ A]. pose proof (ioeff_txsz _ _ _ _ Q) as A2. cbn [length] in A.
  destruct (Nat.ltb_spec (txsz y - txav y) 20) as [Hlt|Hge]; [lia|].
  change (rssi (set_io y x)) with (rssi x) in Hx. change (fl (set_io y x)) with (fl x) in Hx. rewrite K11, K12 in Hx. cbn [Z.eqb Pos.eqb andb INT16_MAX] in Hx.
  set (x0 := set_wait (Some okStr) (set_rst R8Csq (set_io y x))) in *.
  assert (H : wp False (at_send_command (bs "AT+CSQ") x0) (fun z => ioeff (io x) (io z) [] (bs "AT+CSQ" ++ [CR; LF]) /\ z = set_wait (Some (bs "OK")) (set_rst R8Csq (set_io (io z) x)))).
  { apply wp_send_command; [exact (ioeff_wf _ _ _ _ Q)|]. intros z Hz. change (io x0) with y in Hz. destruct Hz as (q & I1 & _ & I2).
    rewrite I2 in I1 by (cbn; lia). split; [exact (ioeff_trans _ _ _ _ _ _ _ Q I1)|reflexivity]. }
  rewrite Hx in H. exact H.
Qed.

(** The prompt arrives while a query is pending. *)
Lemma s8_displaces : forall P N d e d', s8_step P d e d' -> roomy N d e -> hears (reply (bs ">")) e -> s8_awake d -> 20 <= N ->
  wait d = Some (bs ">") -> rst d = R8Ok -> rssi d = INT16_MAX ->
  put (e_ev e) = bs "AT+CSQ" ++ [CR; LF] /\ wbuf d' = wbuf d /\ toWrite d' = toWrite d /\ sst d' = sst d /\ wait d' = Some (bs "OK").
Proof.
  intros P N d e d' Hs Hr Hh Hg HN Hw Hrst Hrs.
  assert (Hk : forall L, prefixb (bs ">") L = true -> s8_known d L) by (intros L HL; right; right; exists (bs ">"); split; [cbn; tauto|exact HL]).
  destruct (s8_awake_line P N d e d' _ Hs Hr Hh Hg ltac:(left; exact Hrst) Hk) as (dm & d1 & a & b & L & HI & HL & (S1 & S2 & S3 & S4 & S5 & S6 & S8 & _) & ((K1 & K2 & K3 & K4 & K5 & K6) & K7) & Ht & Ea & Hpa & Hol & Eo & Ed).
  rewrite Hw in S4. cbn [s8_wait_after] in S4. rewrite HL in S4. rewrite Hrst in S5. cbn [s8_rst_after] in S5.
  destruct Hr as ((oo & Eop) & Hroom).
  assert (Hl : fLine (fl dm) = true). { rewrite S2. destruct Hh as (tk & L' & Hin & _). exact (line_on _ _ _ _ _ (s8_contract P) d e d' oo tk L' Hs Eop (proj1 (proj2 Hg)) Hin). }
  destruct (s8_query_output dm d1 HI Eo S4 S5 ltac:(congruence) Hl ltac:(lia)) as [Q1 Q2].
  split.
  - destruct Hs as (_ & _ & _ & _ & _ & _ & Hio & _). unfold call_io in Hio. rewrite Eop in Hio. destruct Hio as [_ ->].
    rewrite Ea. unfold acts_put. cbn [map concat]. rewrite Hpa, app_nil_r. cbn [app].
    refine (olab_put _ _ _ _ _ _ _ _ dm d1 b [] _ _ Hol Q1). intros z Hz. destruct (olab_io (s8_shape P) _ _ _ Hz) as (ev & T1 & _ & T2 & _). eauto.
  - rewrite Ed. set (y := io d1) in *. clearbody y. subst d1. splits; auto; cbn [wbuf set_io set_wait set_rst toWrite sst]; congruence.
Qed.

(** write(), the announcement, requestRSSI(), and the prompt: the query is sent
    in place of the payload, whatever was written. *)
Theorem C71_sim8_refuted : forall P N d e d1 tr d2 eq d3 ep d4 data n k, s8_at_ease d -> fDisc (fl d) = false -> fData (fl d) = false ->
  ring_ok (wbuf d) -> contents (wbuf d) = [] ->
  s8_step P d e d1 -> e_op e = OpWrite data n -> n <= length data -> e_out e = DCount k -> 0 < k ->
  dialogue (s8_step P) s8_noise N [None] d1 tr d2 ->
  22 + k <= N -> (Z.of_nat k < 100000)%Z -> length (announcement true k [CR; LF]) <= N ->
  s8_step P d2 eq d3 -> e_op eq = OpRequestRSSI -> s8_step P d3 ep d4 -> roomy N d3 ep -> hears (reply (bs ">")) ep ->
  sent (e :: tr ++ [eq; ep]) = announcement true k [CR; LF] ++ bs "AT+CSQ" ++ [CR; LF] /\
  contents (wbuf d4) = firstn k data.
Proof.
  intros P N d e d1 tr d2 eq d3 ep d4 data n k (R1 & R2 & R3 & R4 & R5 & R6) F1 F2 Hok Hct Hs Eo Hn Eout Hk Hd HN H5 Hlen Hq Eq Hp Hrp Hhp.
  pose proof Hs as (_ & _ & _ & E & _ & _ & Hio & _). rewrite Eo in E, Hio.
  destruct (C31_write _ _ _ _ _ _ _ _ _ _ _ _ Hok Hn E) as (Ek & Ec & Eok & Ed). rewrite Eout in Ek. injection Ek as Ek. rewrite <- Ek, Hct in Ec. cbn [app] in Ec.
  assert (Hl : length (firstn k data) = k) by (apply firstn_length_le; destruct (cst d); lia).
  pose proof (contents_length _ (proj1 Eok)) as Hcl. rewrite Ec, Hl in Hcl.
  assert (Hpe : put (e_ev e) = []) by (destruct Hio; assumption). clear Hio.
  set (w := wbuf d1) in *. set (y := io d1) in *. clearbody w y. subst d1. set (d1 := set_wbuf w (set_io y d)) in *.
  assert (Hg : s8_going d1) by exact R1.
  destruct (s8_meet P N _ _ d1 tr d2 _ Hd Hg (f8_none d1 R5 R6)) as (x0 & e0 & d0 & tr0 & E0 & (J1 & J2 & J3 & J4 & J5 & J6 & J7 & J8 & J9 & J10) & J11 & J12 & Hs0 & Hr0 & Hh0 & Hd0).
  assert (Jt : typ x0 = typ d /\ port x0 = port d) by (unfold s8_params in J4; injection J4; auto). destruct Jt as [Jt1 Jt2].
  assert (Jw : wbuf x0 = w) by (injection J10; auto).
  destruct (s8_announces P N _ x0 e0 d0 _ Hs0 Hr0 Hh0 J1 J12) as (A1 & A2 & A3 & A4 & A5 & A6 & A7 & A8 & A9 & A10 & A11 & A12); rewrite ?J2, ?Jw, ?Jt1, ?Jt2, <- ?Hcl; try assumption.
  rewrite Jw, <- Hcl in A1.
  destruct (dialogue_end (s8_step P) s8_noise N d0 tr0 d2 (fun x => x = set_io (io x) d0)) as [B1 B2]; [|exact Hd0|destruct d0; reflexivity|].
  { apply s8_look_keeps. intros z x ->. reflexivity. }
  assert (Hd3 : d3 = set_rssi INT16_MAX (set_io (io d3) d2) /\ put (e_ev eq) = []).
  { destruct Hq as (_ & _ & _ & E1 & _ & _ & Hio & _). rewrite Eq in E1, Hio. destruct Hio as [_ Hpq]. split; [|exact Hpq]. clear - E1.
    unfold d_step in E1. cbn [d_call bind] in E1. destruct (run_isrs _ _) as [[s ev]|]; [|discriminate]. cbn [bind] in E1. apply ok_inj in E1. injection E1 as _ _ E1. subst d3. reflexivity. }
  destruct Hd3 as [Hd3 Hpq]. set (yq := io d3) in *. clearbody yq. set (y2 := io d2) in *. clearbody y2. subst d2. subst d3.
  destruct (s8_displaces P N _ ep d4 Hp Hrp Hhp) as (C1 & C2 & _); cbn [wait rst rssi set_rssi set_io]; try assumption; try reflexivity; try lia.
  { destruct A2 as (G1 & G2 & G3 & _). exact (conj G1 (conj G2 G3)). }
  split.
  - rewrite sent_cons, sent_app, !sent_cons, Hpe, E0, B1, Hpq, C1, A1. cbn [app sent map concat]. rewrite !app_nil_r. reflexivity.
  - rewrite C2. cbn [wbuf set_rssi set_io]. rewrite A11, Jw. exact Ec.
Qed.

Example C71_sim8_session : s8_then ([call (OpWrite (bs "hello") 5)] ++ runs_ 1 ++ [call OpRequestRSSI] ++ dialog [bs ">"]) =
  Ok ([DCount 5], ["AT+CIPSEND=0,5"; "AT+CSQ"]%string).
Proof. vm_compute. reflexivity. Qed.

(** ** C73 *)
(** No connect() is called, but the modem says ERROR: a connection is opened. *)
Definition s8_unasked_script : @script simop :=
  [call (OpX (SetApn (PStr (bs "net")))); call (OpSetHostPort (PStr (bs "host")) 80%Z 1%Z)] ++ runs_ 2 ++ dialog [crlf (bs "ERROR")] ++ runs_ 2 ++
  dialog (repeat (crlf (bs "OK")) 5 ++ [crlf (bs "10.0.0.1"); crlf (bs "+CDNSGIP: 1,""host"",""1.2.3.4"""); crlf (bs "OK"); crlf (bs "0, CONNECT OK")]) ++ runs_ 2 ++ [call OpIsConnected].
Theorem C73_sim8_refuted : forallb (fun o => match fst o with OpConnect => false | _ => true end) s8_unasked_script = true /\
  s8_seen s8_unasked_script = Ok ([DBool true], ["ATE0"; "AT+CIPRXGET=1"; "AT+CIPMUX=1"; "AT+CSTT=""net"""; "AT+CIICR"; "AT+CIFSR"; "AT+CDNSGIP=""host"""; "AT+CIPSTART=0,""TCP"",""1.2.3.4"",80"]%string).
Proof. vm_compute. split; reflexivity. Qed.

(** connect() was called and accepted. *)
Definition asks (e : ent) : Prop := e_op e = OpConnect /\ e_out e = DBool true.
(** The modem reported an error. *)
Definition s8_fails (e : ent) : Prop := exists tk L, In (aLine tk L) (e_acts e) /\ (prefixb (bs "ERROR") L || prefixb (bs "+CME ERROR") L || prefixb (bs "+PDP: DEACT") L = true).
(** No connection, none being opened or closed, none asked for, no reset due. *)
Definition s8_at_rest (d : dv) : Prop :=
  ip_is_connected d = false /\ fConnect (fl d) = false /\ s8_rank (sst d) <= 1 /\ rst d <> R8Cipstart /\ rst d <> R8Ciprxget2 /\ rst d <> R8Cdnsgip /\ fReset (fl d) = false.
(** What may be sent then: the queries for the signal strength and the
    identification; and no payload is sent or received. *)
Definition s8_query (a : act) : Prop :=
  match a with
  | aCommand c _ => exists q, In q [bs "AT+CSQ"; bs "AT+CGMI"; bs "AT+CGMM"; bs "AT+CGSN"; bs "AT+CIMI"; bs "AT+CCID"] /\ c = q ++ [CR; LF]
  | aReset _ | aAnnounce _ _ | aPayload _ | aReceive _ => False
  | _ => True
  end.

Lemma s8_output_rest : forall (U : Prop) d, s8_inv d -> s8_rank (sst d) <= 1 -> wp U (s8_output d) (fun d' => toRead d' = toRead d /\ (rst d <> R8Cdnsgip -> rst d' <> R8Cdnsgip)).
Proof.
  intros U d H HR. unfold s8_output. destruct (wait d) eqn:Ew.
  { cbn [wp]. auto. }
  destruct (rst d) eqn:Er; cbn [r8_ok negb wp]; try (split; [reflexivity|congruence]).
  open_inv d H. subst. syms.
  all: try (match goal with |- wp _ (s8_machine _) _ =>
       unfold s8_machine, at_handle_connect, at_handle_disconnect; gs; destruct ss0; cbn [s8_rank] in HR; try lia; gs; syms end).
  all: try nulip.
  all: clear Hwf Hr Ht Hrw Hrs Hww Hws Hwf2 Hl Hw Hpo Hip Hid Hmx Hipn Hidn; cases; gs.
  all: try (split; [reflexivity|discriminate]).
Qed.

Lemma s8_rest_cfg : forall d, s8_at_rest d <-> ip_is_connected d = false /\ ~ s8_cfg d /\ rst d <> R8Cdnsgip /\ fReset (fl d) = false.
Proof.
  intro d. unfold s8_at_rest, s8_cfg. split.
  - intros (A1 & A2 & A3 & A4 & A5 & A6 & A7). split; [exact A1|]. rewrite A2. split; [|auto]. intros [?|[?|[?|?]]]; [lia|discriminate|auto|auto].
  - intros (A1 & A2 & A3 & A4). splits; auto; try (intro; apply A2; auto).
    + destruct (fConnect (fl d)); auto. contradiction A2. auto.
    + destruct (le_lt_dec (s8_rank (sst d)) 1); auto. contradiction A2. left. lia.
Qed.

Lemma s8_rest_conf : forall d, s8_at_rest d -> s8_conf False d.
Proof.
  intros d (A1 & A2 & A3 & A4 & A5 & _). unfold s8_conf. splits.
  - intro E. rewrite E in A3. cbn in A3. lia.
  - intros [?|?]; [lia|auto].
  - congruence.
  - auto.
Qed.

(** Otherwise, until connect() is called, no connection is opened, whatever else
    the modem sends and whatever else is called. *)
Theorem C73_sim8_unasked : forall P d tr d', s8_at_rest d -> s8_hist P d tr d' -> (forall e, In e tr -> ~ asks e /\ ~ s8_fails e) ->
  s8_at_rest d' /\ forall e a, In e tr -> In a (e_acts e) -> s8_query a.
Proof.
  intros P d tr d' HK Hh HQ.
  assert (HQ1 : Forall (fun e => ~ asks e) tr) by (apply Forall_forall; intros e He; apply HQ; exact He).
  assert (HQ2 : Forall (fun e => Forall (fun a => match a with aLine _ L => s8_refused L = false | _ => True end) (e_acts e)) tr).
  { apply Forall_forall. intros e He. apply Forall_forall. intros a Ha. destruct a; auto. apply not_true_is_false. intro F. destruct (HQ e He) as [_ N]. apply N.
    do 2 eexists. split; [exact Ha|]. unfold s8_refused in F. destruct (prefixb (bs "ERROR") _), (prefixb (bs "+CME ERROR") _), (prefixb (bs "+PDP: DEACT") _); try reflexivity; discriminate F. }
  cut (s8_at_rest d' /\ Forall (fun e => Forall s8_query (e_acts e)) tr).
  { intros [A B]. split; [exact A|]. intros e a I1 I2. rewrite Forall_forall in B. specialize (B e I1). rewrite Forall_forall in B. auto. }
  refine (rest_if _ _ _ _ _ (s8_contract P) s8_at_rest s8_query _ (fun e => ~ asks e) _ _ _ _ _ _ _ _ d tr d' Hh HQ1 HQ2 HK); clear.
  - auto.
  - auto.
  - intros d (A1 & A2 & A3 & A4). unfold s8_at_rest. cbn. splits; auto; tauto.
  - intros d q d' (A1 & A2 & A3 & A4 & A5 & A6 & A7) Hr. congruence.
  - intros d r d' b HK HR Hl [_ Hx]. assert (G : s8_query b) by (destruct Hl; exact I). split; [|exact G]. destruct Hl.
    1,2: destruct Hx as (A1 & A2 & A3 & A4 & A5 & A6 & A7 & A8 & A9 & A10 & A11 & A12); revert HK; unfold s8_at_rest, ip_is_connected;
         rewrite ?A1, ?A2, ?A3, ?A4, ?A5, ?A6, ?A7, ?A8; tauto.
    destruct Hx as [(_ & X1 & _ & X2 & _ & _ & X3 & X4 & _ & _ & _ & _ & _ & X5) _]. pose proof HK as HK0. destruct HK0 as (_ & _ & _ & Y1 & _ & Y2 & Y3). apply s8_rest_cfg in HK as [K1 K2]. apply s8_rest_cfg. splits; try tauto.
    + unfold ip_is_connected in *. destruct X3 as [->|[->| ->]]; auto.
    + destruct X5 as [->| ->]; [tauto|discriminate].
    + destruct X4 as [->|[_ X4]]; [exact Y3|]. exfalso. destruct X4 as [X4|[[X4 _]|[X4 _]]]; [|contradiction|contradiction].
      unfold s8_error_line in X4. unfold s8_refused in HR. apply orb_false_iff in HR as [HR HR3]. apply orb_false_iff in HR as [HR1 HR2]. destruct X4 as [X4|[X4|X4]]; congruence.
  - intros d d' b HK Hl (HI & Hx & Ho). destruct Hx as (X0 & X1 & _ & _ & _ & _ & XR & _ & X2 & _).
    pose proof (X2 False (s8_rest_conf d HK)) as (_ & _ & X3 & _).
    assert (Hc : ip_is_connected d' = false) by (destruct (ip_is_connected d'); tauto).
    pose proof (s8_output_rest True d HI) as Hr. rewrite Ho in Hr. cbn [wp] in Hr.
    pose proof HK as (_ & _ & HK3 & _ & _ & HK6 & HK7). destruct (Hr HK3) as [Hr1 Hr2]. specialize (Hr2 HK6).
    split; [apply s8_rest_cfg; apply s8_rest_cfg in HK as [K1 K2]; splits; try tauto; congruence|].
    destruct Hl; cbn [s8_query]; auto.
    + match goal with H : sh_says _ _ _ _ |- _ => destruct H as [(_ & -> & _)|[(c & Hi & -> & _)|[(c & Hs & -> & _)|(Hs & _)]]] end.
      * eexists. split; [left; reflexivity|reflexivity].
      * exists c. split; [|reflexivity]. unfold id_request in Hi. destruct (nth_error _ 1) as [t|]; [|discriminate]. destruct (id_of_code t) as [[]|]; inversion Hi; subst; cbn; auto 8.
      * unfold s8_command in Hs. destruct (sst d); try discriminate Hs; cbn in HK3; lia.
      * rewrite Hs in HK3. cbn in HK3. lia.
    + unfold ip_is_connected in Hc. match goal with H : cst d' = csTransmitting |- _ => rewrite H in Hc end. discriminate.
    + match goal with H : sh_insend _ _ = true |- _ => cbn [sh_insend s8_shape] in H; unfold s8_insend in H end. destruct (sst d); try discriminate; cbn in HK3; lia.
    + lia.
  - intros e d d' HQ HI HK _ Hf E1 E2 E3 E4. destruct HK as (A1 & A2 & A3 & A4 & A5 & A6 & A7). unfold s8_at_rest, ip_is_connected in *. rewrite E1, E2, E4. splits; auto.
    + destruct Hf as (_ & _ & [Hf|(Hf1 & Hf2 & _)] & _); [congruence|]. contradiction HQ. split; assumption.
    + destruct Hf as ((G1 & _) & _). congruence.
  - intros d d' HI _ _ E. destruct (s8_reset_exact P d d' HI E) as (y & -> & _). unfold s8_at_rest, ip_is_connected. cbn. splits; auto; discriminate.
Qed.

Lemma s8_built_rest : forall d, s8_built d -> s8_at_rest d.
Proof.
  intros d Hb. apply s8_built_fresh in Hb. destruct Hb as (_ & _ & F1 & F2 & F3 & F4 & F5 & _). unfold s8_at_rest, ip_is_connected. rewrite F1, F2, F4, F5. cbn. splits; auto; discriminate.
Qed.

Example C73_sim8_case : s8_seen ([call (OpX (SetApn (PStr (bs "net")))); call (OpSetHostPort (PStr (bs "host")) 80%Z 1%Z); call OpDisconnect; call OpRequestRSSI] ++ runs_ 2 ++
  dialog [crlf (bs "+CSQ: 20,0"); crlf (bs "OK"); crlf (bs "0, CONNECT OK")] ++ runs_ 2 ++ [call (OpX (RequestID idImei))] ++ runs_ 3 ++ [call OpIsConnected]) =
  Ok ([DBool false], ["AT+CSQ"; "AT+CGSN"]%string).
Proof. vm_compute. reflexivity. Qed.

(** ** C72 *)
(** A second disconnect() while the connection is being closed stays pending: the
    next connect() is accepted, but gives up on the way. *)
Definition s8_twice : @script simop :=
  [call OpDisconnect] ++ runs_ 2 ++ [call OpDisconnect] ++ dialog [crlf (bs "0, CLOSE OK"); crlf (bs "SHUT OK")] ++ runs_ 1 ++
  [call OpIsIdle; call OpConnect] ++ runs_ 2 ++ dialog (repeat (crlf (bs "OK")) 5 ++ [crlf (bs "10.0.0.1"); crlf (bs "+CDNSGIP: 1,""host"",""1.2.3.4"""); crlf (bs "OK"); crlf (bs "0, CONNECT OK")]) ++ runs_ 5 ++ [call OpIsIdle; call OpIsConnected].
Theorem C72_sim8_refuted : s8_then s8_twice = Ok ([DBool true; DBool true; DBool false; DBool false],
  ["AT+CIPCLOSE=0"; "AT+CIPSHUT"; "ATE0"; "AT+CIPRXGET=1"; "AT+CIPMUX=1"; "AT+CSTT=""net"""; "AT+CIICR"; "AT+CIPSHUT"]%string).
Proof. vm_compute. reflexivity. Qed.

(** ** C74 *)
Lemma s8_line_refused : forall P d ret d' L, s8_handles P d ret d' L -> s8_refused L = true ->
  ret = true /\ fReset (fl d') = true /\ cst d' = csGeneralError /\ wait d' = None /\ sst d' = sst d /\ fLock (fl d') = fLock (fl d).
Proof.
  intros P d ret d' L (r & y & Hlen & _ & HI & E) HR. set (x := line_at L r y d) in *. assert (HL : lbuf x = L ++ NUL :: r) by reflexivity.
  cut (ret = true /\ fReset (fl d') = true /\ cst d' = csGeneralError /\ wait d' = None /\ sst d' = sst x /\ fLock (fl d') = fLock (fl x)); [intro C; exact C|].
  clearbody x. clear y d. rename x into d. unfold s8_parse in E.
  assert (Hx : s8_is_error d = Ok true).
  { unfold s8_is_error. unfold s8_refused in HR. rewrite !(lstarts_line L r d HL Hlen) by (reflexivity || (cbn; lia)). cbn [bind].
    destruct (prefixb (bs "+PDP: DEACT") L); [reflexivity|]. destruct (prefixb (bs "+CME ERROR") L); [reflexivity|]. cbn in HR. cbn [bind]. f_equal. exact HR. }
  rewrite Hx in E. cbn [bind] in E. apply ok_inj in E. injection E as <- <-. splits; reflexivity.
Qed.

(** The run() after that, if it hears nothing. *)
Lemma s8_reset_none : forall P N d e d', s8_step P d e d' -> roomy N d e -> hears None e -> isopen d = true -> fReset (fl d) = true -> fLock (fl d) = false ->
  exists dp dm d1 a b, s8_inv dm /\ s8_rctl d dp /\ isopen dp = true /\ s8_same dp dm /\ keepw dp dm /\ txav (io dm) + N <= txsz (io dm) /\
    e_acts e = [aReset []; a; b] /\ act_put a = [] /\ olab r8_ok s8_says s8_tail s8_insend true dm d1 b /\ s8_output dm = Ok d1 /\ d' = set_io (io d') d1.
Proof.
  intros P N d e d' Hs ((oo & Eo) & Ht) Hn H1 H2 H3.
  destruct (s8_parts P d e d' oo Hs Eo) as (d1 & Hd & [(_ & [E|E] & _)|(_ & _ & l & dp & Hp & Hr)]); [congruence|congruence|].
  destruct Hp as [(F & _)|(_ & q & -> & Hq & Hrc)]; [change (fReset (fl d) = false) in F; congruence|].
  destruct Hq as ((y & ev & Y1 & _ & _ & _ & _ & Y2 & Y3 & _) & Hlq & Hkp & _). assert (q = []) as -> by (destruct q; [reflexivity|cbn in Hlq; lia]).
  destruct Hr as (a & d2 & r & Hi & [HI Hx] & Hr).
  assert (Hk : keepw dp d2) by exact (ilab_keepw _ _ _ (s8_shape P) _ _ _ _ Hi).
  assert (Htx : txav (io d2) <= txav (io dp)) by exact (ilab_tx (s8_shape P) _ _ _ _ Hi).
  destruct (ilab_io (s8_shape P) _ _ _ _ Hi) as (ev2 & Hst & _).
  pose proof (ioeff_av _ _ _ _ Y3) as [_ Ya]. pose proof (ioeff_txsz _ _ _ _ Y3) as Yz. cbn [length] in Ya.
  assert (Hna : forall tk L, a <> aLine tk L) by (intros tk L ->; apply (Hn tk L); destruct Hr as [[-> _]|(b & -> & _)]; right; left; reflexivity).
  destruct Hr as [(_ & _ & ->)|(b & Ea & Hol & Hox)]; [exfalso; inversion Hi; subst; try discriminate; eapply Hna; reflexivity|].
  destruct Hox as (I2 & _ & Eq). exists dp, d2, d1, a, b.
  assert (Hsame : s8_same dp d2) by (destruct a; try exact Hx; exfalso; eapply Hna; reflexivity).
  splits; auto.
  - destruct Hrc as (C1 & C2 & C3 & C4 & C5 & C6). unfold s8_rctl. splits; auto. rewrite C4. change (s8_reconnects (during (e_sch e) d)) with (s8_reconnects d). destruct (s8_reconnects d); reflexivity.
  - destruct Hkp as (K & _). rewrite K. exact H1.
  - rewrite (sstep_txsz _ _ _ Hst), Yz, (sstep_txsz _ _ _ Y1). change (txsz (io (during (e_sch e) d))) with (txsz (io d)). change (txav (io (during (e_sch e) d))) with (txav (io d)) in Y2. lia.
  - inversion Hi; reflexivity.
Qed.

(** A reset is due: the next run() that hears nothing shuts the connection down. *)
Lemma s8_shuts : forall P d e2 d2 N, s8_step P d e2 d2 -> roomy N d e2 -> 20 <= N -> hears None e2 -> isopen d = true -> 7 <= s8_rank (sst d) <= 20 ->
    rssi d <> INT16_MAX -> no_request (idbuf (ext d)) -> fReset (fl d) = true -> fLock (fl d) = false ->
    put (e_ev e2) = bs "AT+CIPSHUT" ++ [CR; LF] /\ wait d2 = Some (bs "SHUT OK").
Proof.
    intros P d e2 d2 N Hs2 Hr2 HN Hh2 Ho2 Hrk Hq1 Hq2 X1 X5.
    destruct (s8_reset_none P N _ e2 d2 Hs2 Hr2 Hh2 Ho2 X1 X5)
      as (dp & dm & d3 & a & b & HI & (R1 & R2 & R3 & R4 & R5 & R6) & R7 & (S1 & S2 & S3 & S4 & S5 & S6 & S7 & S8 & S9 & S10 & S11 & S12) & Hkw & Ht & Ea2 & Hpa & Hol & Eq & Ed).
    pose proof Hkw as ((K1 & K2 & K3 & K4 & K5 & K6) & K7).
    assert (Hst : sst dm = S8SendCipshut).
    { rewrite S1, R1. unfold s8_reset_state. destruct (sst d); cbn in Hrk |- *; try reflexivity; lia. }
    assert (Hg : s8_going dm).
    { unfold s8_going. rewrite K1, S8, S12, S5, S6, R4, R5, R6. splits; auto.
      - destruct (s8_reconnects _); reflexivity.
      - destruct (s8_reconnects _); exact X5. }
    destruct (s8_free_output dm d3 HI Eq ltac:(congruence) ltac:(congruence) Hg ltac:(lia)) as (z & Qz & Hm).
    assert (HIz : s8_inv (set_io z dm)) by (split; [apply dok_quiet; [apply HI|exact Qz]|apply HI]).
    pose proof (s8_command_turn (set_io z dm) (bs "AT+CIPSHUT") HIz) as T. rewrite Hm in T. cbn [wp] in T.
    destruct T as ((q & T1 & _ & T2) & (_ & T3 & _) & _).
    + change (wait dm = None). congruence.
    + change (rst dm = R8Ok). congruence.
    + change (sst dm = S8SendCifsr -> fDisc (fl dm) = false). congruence.
    + change (sst dm = S8SendCipclose -> fIp (fl dm) = true). congruence.
    + change (sst (set_io z dm)) with (sst dm). rewrite Hst. discriminate.
    + change (sst dm <> S8SendCiprxget4). congruence.
    + change (sst (set_io z dm)) with (sst dm). rewrite Hst. reflexivity.
    + split.
      * change (io (set_io z dm)) with z in T1, T2. apply quiet_ioeff in Qz. pose proof (ioeff_av _ _ _ _ Qz) as [_ A]. pose proof (ioeff_txsz _ _ _ _ Qz) as A2. cbn [length] in A.
        rewrite T2 in T1 by (rewrite A2; cbn; lia). destruct Hr2 as ((o2 & Eop) & _).
        destruct Hs2 as (_ & _ & _ & _ & _ & _ & Hio & _). unfold call_io in Hio. rewrite Eop in Hio. destruct Hio as [_ ->].
        rewrite Ea2. unfold acts_put. cbn [map concat act_put]. rewrite Hpa, app_nil_r. cbn [app].
        refine (olab_put _ _ _ _ _ _ _ _ dm d3 b [] _ _ Hol (ioeff_trans _ _ _ _ _ _ _ Qz T1)). intros v Hv. destruct (olab_io (s8_shape P) _ _ _ Hv) as (ev & U1 & _ & U2 & _). eauto.
      * rewrite Ed. change (wait (set_io (io d2) d3)) with (wait d3). rewrite T3. change (sst (set_io z dm)) with (sst dm). rewrite Hst. reflexivity.
Qed.

(** An error line: nothing is sent, the connection is reported as lost, and if
    one was open or being opened the next run() that hears nothing shuts it down
    on the modem. *)
Theorem C74_sim8_error : forall P d e d', s8_step P d e d' -> s8_fails e ->
  put (e_ev e) = [] /\ ip_is_connected d' = false /\
  forall e2 d2 N, s8_step P d' e2 d2 -> roomy N d' e2 -> 20 <= N -> hears None e2 -> isopen d' = true -> 7 <= s8_rank (sst d') <= 20 ->
    rssi d' <> INT16_MAX -> no_request (idbuf (ext d')) ->
    put (e_ev e2) = bs "AT+CIPSHUT" ++ [CR; LF] /\ wait d2 = Some (bs "SHUT OK").
Proof.
  intros P d e d' Hs (tk & L & Hin & HE).
  destruct (heard _ _ _ _ _ (s8_contract P) d e d' tk L Hs Hin) as (oo & l & x1 & x2 & r & d1 & Eo & Ho & Hk & Hl & Hp & Hi & Hx & Hd & Hput & Hc).
  specialize (Hk eq_refl).
  assert (HR : s8_refused L = true) by (unfold s8_refused; destruct (prefixb (bs "ERROR") L), (prefixb (bs "+CME ERROR") L), (prefixb (bs "+PDP: DEACT") L); try reflexivity; discriminate HE).
  assert (Hpl : acts_put l = [] /\ fLock (fl x1) = false).
  { destruct Hp as [(_ & -> & ->)|(_ & q & -> & (_ & Hq & _) & (_ & _ & _ & Hf & _))]; [split; [reflexivity|exact Hk]|].
    destruct q; [|cbn in Hq; lia]. split; [reflexivity|]. rewrite Hf. destruct (s8_reconnects _); exact Hk. }
  destruct Hpl as [Hpl Hk1].
  destruct Hx as [_ [_ Hx]]. destruct (s8_line_refused P _ _ _ _ Hx HR) as (-> & X1 & X2 & X3 & X4 & X5).
  destruct Hc as [(_ & Ea & ->)|(F & _)]; [|discriminate F].
  set (y := io d') in *. clearbody y. subst d'. splits.
  - rewrite Hput, Ea. unfold acts_put in *. rewrite map_app, concat_app, Hpl. reflexivity.
  - unfold ip_is_connected. change (cst (set_io y x2)) with (cst x2). rewrite X2. reflexivity.
  - intros e2 d2 N Hs2 Hr2 HN Hh2 Ho2 Hrk Hq1 Hq2. apply (s8_shuts P _ e2 d2 N Hs2 Hr2 HN Hh2 Ho2 Hrk Hq1 Hq2 X1). change (fLock (fl x2) = false). congruence.
Qed.

(** The modem could not open the connection: the same. *)
Lemma s8_line_no_connection : forall P d ret d' L, s8_handles P d ret d' L -> prefixb (bs "0, CONNECT FAIL") L = true -> rst d = R8Cipstart -> wait d = Some (bs "0, CONNECT OK") -> fDisc (fl d) = false ->
  ret = false /\ fReset (fl d') = true /\ cst d' = csGeneralError /\ wait d' = wait d /\ sst d' = sst d /\ fLock (fl d') = fLock (fl d).
Proof.
  intros P d ret d' L (r & y & Hlen & _ & HI & E) HR Er Ew Ed. set (x := line_at L r y d) in *. assert (HL : lbuf x = L ++ NUL :: r) by reflexivity.
  cut (ret = false /\ fReset (fl d') = true /\ cst d' = csGeneralError /\ wait d' = wait x /\ sst d' = sst x /\ fLock (fl d') = fLock (fl x)); [intro C; exact C|].
  assert (Er' : rst x = R8Cipstart) by exact Er. assert (Ew' : wait x = Some (bs "0, CONNECT OK")) by exact Ew. assert (Ed' : fDisc (fl x) = false) by exact Ed.
  clearbody x. clear y d Er Ew Ed. rename x into d. pose proof HR as HR'. apply prefixb_spec in HR' as [t EL]. unfold s8_parse in E.
  assert (Hx : s8_is_error d = Ok false).
  { unfold s8_is_error. rewrite !(lstarts_line L r d HL Hlen) by (reflexivity || (cbn; lia)). rewrite EL. reflexivity. }
  rewrite Hx in E. cbn [bind] in E.
  assert (Hs : s8_standard_reply d = Ok d).
  { unfold s8_standard_reply. rewrite Ew'. rewrite (lmatch_line L r d HL Hlen) by first [apply nulfree_of; reflexivity | cbn; lia]. rewrite EL. reflexivity. }
  rewrite Hs in E. cbn [bind] in E. unfold s8_special_reply in E. rewrite Er' in E. unfold at_handle_disconnect in E. rewrite Ed', Ew' in E.
  rewrite (lstarts_line L r d HL Hlen) in E by (reflexivity || (cbn; lia)). rewrite HR in E. cbn [bind] in E.
  destruct (s8_rank S8Connected <=? s8_rank (sst (set_cst csGeneralError (on_reset true d)))).
  - rewrite (check_line L r (set_cst csGeneralError (on_reset true d)) HL Hlen) in E by (reflexivity || (cbn; lia)). rewrite EL in E. cbn [bind] in E.
    change (prefixb (bs "0, CLOSED") _) with false in E. change (prefixb (bs "+CIPRXGET: 1,0") _) with false in E. cbn iota in E. apply ok_inj in E. apply pair_eq in E as [<- <-]. splits; reflexivity.
  - apply ok_inj in E. apply pair_eq in E as [<- <-]. splits; reflexivity.
Qed.
Theorem C74_sim8_no_connection : forall P d e d' tk L, s8_step P d e d' -> In (aLine tk L) (e_acts e) -> prefixb (bs "0, CONNECT FAIL") L = true ->
  rst d = R8Cipstart -> wait d = Some (bs "0, CONNECT OK") -> fDisc (fl d) = false -> fReset (fl d) = false ->
  put (e_ev e) = [] /\ ip_is_connected d' = false /\ cst d' = csGeneralError /\
  forall e2 d2 N, s8_step P d' e2 d2 -> roomy N d' e2 -> 20 <= N -> hears None e2 -> isopen d' = true -> 7 <= s8_rank (sst d') <= 20 ->
    rssi d' <> INT16_MAX -> no_request (idbuf (ext d')) ->
    put (e_ev e2) = bs "AT+CIPSHUT" ++ [CR; LF] /\ wait d2 = Some (bs "SHUT OK").
Proof.
  intros P d e d' tk L Hs Hin HL Er Ew Ed Ef.
  destruct (heard _ _ _ _ _ (s8_contract P) d e d' tk L Hs Hin) as (oo & l & x1 & x2 & r & d1 & Eo & Ho & Hk & Hl & Hp & Hi & Hx & Hd & Hput & Hc).
  specialize (Hk eq_refl). destruct Hp as [(_ & -> & ->)|(Z & _)]; [|change (fReset (fl d) = true) in Z; congruence].
  destruct Hx as [_ [_ Hx]]. destruct (s8_line_no_connection P _ _ _ _ Hx HL Er Ew Ed) as (-> & X1 & X2 & X3 & X4 & X5).
  destruct Hc as [(F & _)|(_ & b & Ea & Hol & (HI2 & _ & Eq))]; [discriminate F|].
  assert (d1 = x2) as ->. { unfold s8_output in Eq. rewrite X3 in Eq. change (wait (during (e_sch e) d)) with (wait d) in Eq. rewrite Ew in Eq. apply ok_inj in Eq. congruence. }
  assert (Hb : act_put b = []).
  { refine (olab_put _ _ _ _ _ _ _ _ x2 x2 b [] [] _ Hol (ioeff_refl _ _)).
    - intros v Hv. destruct (olab_io (s8_shape P) _ _ _ Hv) as (ev & U1 & _ & U2 & _). eauto.
    - apply HI2. }
  set (y := io d') in *. clearbody y. subst d'. splits.
  - rewrite Hput, Ea. unfold acts_put. cbn [app map concat act_put]. rewrite Hb. reflexivity.
  - unfold ip_is_connected. change (cst (set_io y x2)) with (cst x2). rewrite X2. reflexivity.
  - exact X2.
  - intros e2 d2 N Hs2 Hr2 HN Hh2 Ho2 Hrk Hq1 Hq2. apply (s8_shuts P _ e2 d2 N Hs2 Hr2 HN Hh2 Ho2 Hrk Hq1 Hq2 X1). change (fLock (fl x2) = false). rewrite X5. exact Hk.
Qed.
(** The driver then connects again. *)
Example C74_sim8_no_connection_case :
  s8_seen (s8_start ++ s8_until_dns ++ dialog [s8_dns_line (bs "1.2.3.4"); crlf (bs "OK"); crlf (bs "0, CONNECT FAIL")] ++ [call OpIsConnected] ++ runs_ 1 ++ dialog [crlf (bs "SHUT OK")] ++ runs_ 3) =
  Ok ([DBool true; DBool false], ["ATE0"; "AT+CIPRXGET=1"; "AT+CIPMUX=1"; "AT+CSTT=""net"""; "AT+CIICR"; "AT+CIFSR"; "AT+CDNSGIP=""host""";
    "AT+CIPSTART=0,""TCP"",""1.2.3.4"",80"; "AT+CIPSHUT"; "ATE0"]%string).
Proof. vm_compute. reflexivity. Qed.

(** A session: the data is refused; the driver shuts the connection down. *)
Example C74_sim8_session : s8_then ([call (OpWrite (bs "hello") 5)] ++ runs_ 1 ++ dialog [crlf (bs "ERROR")] ++ [call OpIsConnected] ++ runs_ 1) =
  Ok ([DCount 5; DBool false], ["AT+CIPSEND=0,5"; "AT+CIPSHUT"]%string).
Proof. vm_compute. reflexivity. Qed.

(** ** C55 *)
(** Asked for the 5 bytes it reported, the modem delivers 7: the count of bytes still to
    fetch wraps, and the driver asks for 25 more, which nobody reported. *)
Theorem C55_sim8_wrap_refuted : s8_then (s8_receive (bs "7") (bs "abcdefg") ++ dialog [crlf (bs ""); crlf (bs "OK")] ++ runs_ 4 ++
    [call OpBytesAvailable; call (OpRead 40)] ++ runs_ 2) =
  Ok ([DCount 7; DData (bs "abcdefg") 7], ["AT+CIPRXGET=4,0"; "AT+CIPRXGET=2,0,5"; "AT+CIPRXGET=2,0,25"]%string).
Proof. vm_compute. reflexivity. Qed.

(** ** Assumptions *)
Print Assumptions C55_sim8_wrap_refuted.
Print Assumptions C71_sim8_refuted.
Print Assumptions C72_sim8_refuted.
Print Assumptions C73_sim8_refuted.
Print Assumptions C73_sim8_unasked.
Print Assumptions C74_sim8_error.
Print Assumptions C74_sim8_no_connection.
