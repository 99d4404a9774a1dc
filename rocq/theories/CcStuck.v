(** What the CC1352P7 driver does after a close notice, and a state it does not
    leave: data that never fits. *)
From Coq Require Import String Ascii ZArith List Bool Arith Lia ZifyBool ZifyNat.
From Verif Require Import Base QueueSpec LineSpec SerialSpec Ring RingProofs LineRing LineRingProofs Serial SerialProofs
  SerStep TaskMacros CStr CStrProofs Dev DevProofs SimDev SimProofs SimSpec SimParse SimLog Sym DrvStep DrvCommon DrvRun DrvHist DrvActs DrvStuck
  Espressif Cc1352 CcSpec CcProofs CcCtl CcCtlIn CcRun AtLine CcHist CcThms CcMore CcLine CcReq CcRest.
Import ListNotations.
Local Open Scope nat_scope.
Ltac Zify.zify_post_hook ::= Z.div_mod_to_equations.
Local Notation dv := (dev ccsend ccreply ccx).
Local Notation ent := (@entry ccop).
Local Notation olabC P := (olab rc_ok (sc_says P) sc_tail sc_insend false).

(** ** After a close notice *)

(** Connected, with nothing to send, to fetch or to ask. *)
Definition sc_at_rest (P : plat) (d : dv) : Prop :=
  isopen d = true /\ fReset (fl d) = false /\ fLock (fl d) = false /\ sst d = SCConnected /\ rst d = RCOk /\ wait d = None /\
  fData (fl d) = false /\ contents (wbuf d) = [] /\ ring_ok (wbuf d) /\
  rssi d <> INT16_MAX /\ mac_request P (cmac (ext d)) = false.

(** A run() that reads the notice that the peer closed the connection, with
    room for a command. *)
Definition sc_notice_run (d : dv) (e : ent) : Prop :=
  (exists oo, e_op e = OpRun oo) /\ (exists tk L, In (aLine tk L) (e_acts e) /\ prefixb (bs "CLOSED") L = true) /\
  e_sch e = [] /\ sched (io d) = [] /\ txav (io d) + 20 <= txsz (io d).

(** A run() without a new line and with room for a command. *)
Definition sc_plain_run (d : dv) (e : ent) : Prop :=
  (exists oo, e_op e = OpRun oo) /\ (forall tk L, ~ In (aLine tk L) (e_acts e)) /\ e_sch e = [] /\ sched (io d) = [] /\ txav (io d) + 20 <= txsz (io d).

Lemma sc_plain : forall P d e d', sc_step P d e d' -> sc_plain_run d e -> isopen d = true -> fReset (fl d) = false -> fLock (fl d) = false ->
  exists dm d1 a b, sc_inv dm /\ sc_same d dm /\ keep d dm /\ sched (io dm) = [] /\ txav (io dm) + 20 <= txsz (io dm) /\
    e_acts e = [a; b] /\ act_put a = [] /\ olabC P dm d1 b /\ sc_output P dm = Ok d1 /\ d' = set_io (io d') d1.
Proof.
  intros P d e d' Hs ((oo & Eo) & Hn & He & Hsc & Ht) H1 H2 H3.
  destruct (sc_parts P d e d' oo Hs Eo H3) as (d1 & Hd & [(_ & E & _)|(_ & l & dp & Hp & Hr)]); [congruence|].
  destruct Hp as [(F & -> & ->)|(F & _)]; [|change (fReset (fl d) = true) in F; congruence].
  destruct Hr as (a & d2 & r & Hi & [HI Hx] & Hr).
  assert (Hk : keep (during (e_sch e) d) d2) by exact (ilab_keep (sc_shape P) _ _ _ _ Hi).
  assert (Htx : txav (io d2) <= txav (io d)) by exact (ilab_tx (sc_shape P) _ _ _ _ Hi).
  destruct (ilab_io (sc_shape P) _ _ _ _ Hi) as (ev & Hst & _).
  assert (Hna : forall tk L, a <> aLine tk L) by (intros tk L ->; apply (Hn tk L); destruct Hr as [[-> _]|(b & -> & _)]; left; reflexivity).
  assert (Hs0 : sched (io (during (e_sch e) d)) = []) by (cbn; exact He).
  destruct Hr as [(_ & _ & ->)|(b & Ea & Hol & Hox)]; [exfalso; inversion Hi; subst; try discriminate; eapply Hna; reflexivity|].
  destruct Hox as (I2 & _ & Eq). exists d2, d1, a, b.
  assert (Hsame : sc_same (during (e_sch e) d) d2) by (destruct a; try exact Hx; exfalso; eapply Hna; reflexivity).
  splits; auto.
  - destruct Hst as (_ & _ & _ & _ & Hst). revert Hs0. apply Hst.
  - rewrite (sstep_txsz _ _ _ Hst). change (txsz (io (during (e_sch e) d))) with (txsz (io d)). lia.
  - inversion Hi; reflexivity.
Qed.

Lemma sc_quiet_output : forall P (x x1 : dv), sc_inv x -> sc_output P x = Ok x1 -> wait x = None -> rst x = RCOk -> rssi x <> INT16_MAX ->
    mac_request P (cmac (ext x)) = false -> sched (io x) = [] -> txav (io x) + 20 <= txsz (io x) ->
    exists y, quiet (io x) y /\ sc_machine (set_io y x) = Ok x1.
Proof.
  intros P x x1 HI Hx K5 K6 K11 K12 Hsc Ht. pose proof HI as ((Hw & _) & Hcm).
  unfold sc_output in Hx. rewrite K5, K6 in Hx. cbn [rc_ok negb] in Hx. unfold d_space in Hx.
  destruct (s_space_q (io x) Hw) as (y & E1 & Q). rewrite E1 in Hx. cbn [bind] in Hx. exists y. split; [exact Q|].
  destruct (Nat.ltb_spec (txsz y - txav y) 20) as [Hlt|Hge].
  - exfalso. apply quiet_ioeff in Q. pose proof (ioeff_av _ _ _ _ Q) as [_ A]. pose proof (ioeff_txsz _ _ _ _ Q). cbn [length] in A. lia.
  - change (rssi (set_io y x)) with (rssi x) in Hx.
    destruct (Z.eqb_spec (rssi x) INT16_MAX); [contradiction|]. cbn [andb] in Hx.
    unfold sc_send_mac in Hx. change (ext (set_io y x)) with (ext x) in Hx. change (fl (set_io y x)) with (fl x) in Hx.
    unfold mac_request in K12. destruct (cmac (ext x)) as [|c0 [|c1 cm]]; try discriminate Hcm. cbn [rd nth_error bind] in Hx.
    assert (Hc : char_is_ff P c1 && aeqb c0 NUL && fLine (fl x) = false).
    { unfold char_is_ff, aeqb. destruct (Ascii.eqb c0 NUL); cbn [andb] in *; [|rewrite andb_false_r; reflexivity].
      destruct (char_signed P); cbn [negb andb] in *; [reflexivity|]. rewrite K12. reflexivity. }
    unfold rd in Hx. cbn [nth_error bind] in Hx. rewrite Hc in Hx. cbn [bind] in Hx. exact Hx.
Qed.

Lemma sc_notice : forall P d e d', sc_step P d e d' -> sc_notice_run d e -> sc_at_rest P d ->
  exists dm d1, sc_inv dm /\ keep d dm /\ sched (io dm) = [] /\ txav (io dm) + 20 <= txsz (io dm) /\ sc_output P dm = Ok d1 /\ d' = set_io (io d') d1 /\
    wait dm = None /\ fIp (fl dm) = false /\ sst dm = sst d /\ rst dm = rst d /\ rssi dm = rssi d /\ ext dm = ext d /\
    fReset (fl dm) = fReset (fl d) /\ fData (fl dm) = fData (fl d).
Proof.
  intros P d e d' Hs ((oo & Eo) & (tk & L & Hin & HL) & He & Hsc & Ht) (H1 & H2 & H3 & H4 & H5 & H6 & _).
  destruct (sc_parts P d e d' oo Hs Eo H3) as (d1 & Hd & [(_ & E & _)|(_ & l & dp & Hp & Hr)]); [congruence|].
  destruct Hp as [(F & -> & ->)|(F & _)]; [|change (fReset (fl d) = true) in F; congruence].
  destruct Hr as (a & d2 & r & Hi & [HI Hx] & Hr).
  assert (Hk : keep (during (e_sch e) d) d2) by exact (ilab_keep (sc_shape P) _ _ _ _ Hi).
  assert (Htx : txav (io d2) <= txav (io d)) by exact (ilab_tx (sc_shape P) _ _ _ _ Hi).
  destruct (ilab_io (sc_shape P) _ _ _ _ Hi) as (ev & Hst & _).
  assert (Hs0 : sched (io (during (e_sch e) d)) = []) by (cbn; exact He).
  assert (Ha : a = aLine tk L).
  { destruct Hr as [(Ea & _)|(b & Ea & Hol & _)]; rewrite Ea in Hin; cbn [app] in Hin; destruct Hin as [<-|Hin]; auto; [destruct Hin|].
    destruct Hin as [->|[]]. exfalso. inversion Hol. }
  subst a. destruct Hx as [_ Hx].
  assert (Hwl : whole_line L) by (inversion Hi; assumption). apply sc_line_effect in Hx; [|exact Hwl]. destruct Hx as [Hx Er]. unfold sc_effect in Hx.
  assert (Hf : sc_refused (during (e_sch e) d) L = false).
  { unfold sc_refused. pose proof HL as HL'. apply prefixb_spec in HL' as [t ->]. cbn [prefixb bs list_ascii_of_string app aeqb Ascii.eqb Bool.eqb andb orb]. apply andb_false_r. }
  assert (Hnd : prefixb (bs "+IPD") L = false) by (pose proof HL as HL'; apply prefixb_spec in HL' as [t ->]; reflexivity).
  rewrite Hf in Hx, Er. unfold sc_data, sc_takes_rssi, sc_takes_mac in Hx. rewrite !(H5 : rst (during (e_sch e) d) = _), HL, Hnd in Hx.
  cbn [orb] in Hx. destruct Hx as (Y1 & Y2 & Y3 & Y4 & _ & _ & Y5 & Y6 & Y7 & Y8 & _).
  change (wait (during (e_sch e) d)) with (wait d) in Y7. rewrite H6 in Y7. rewrite Y1 in Y6, Y5.
  change (sst (during (e_sch e) d)) with (sst d) in Y6, Y5. rewrite H4 in Y6, Y5. cbn [sc_rank Nat.leb andb] in Y5, Y6.
  destruct Hr as [(_ & _ & E)|(b & Ea & Hol & Hox)]; [congruence|].
  destruct Hox as (I2 & _ & Eq). exists d2, d1.
  splits; auto.
  - destruct Hst as (_ & _ & _ & _ & Hst). revert Hs0. apply Hst.
  - rewrite (sstep_txsz _ _ _ Hst). change (txsz (io (during (e_sch e) d))) with (txsz (io d)). lia.
  - rewrite Y2. symmetry. exact H5.
Qed.

(** The peer closes: the run() that reads the notice leaves the state
    "connected", after the next one the program sees it; nothing is sent. *)
Theorem sc_peer_close : forall P d e d' e2 d2, sc_step P d e d' -> sc_at_rest P d -> sc_notice_run d e ->
  sc_step P d' e2 d2 -> sc_plain_run d' e2 ->
  ip_is_connected d2 = false /\ cst d2 = csNotConnected /\ sst d2 = SCNotConnected /\ put (e_ev e2) = [].
Proof.
  intros P d e d' e2 d2 Hs HR Hp Hs2 Hp2.
  destruct (sc_notice P d e d' Hs Hp HR) as (dm & d1 & HI & Hk & N1 & N2 & Eo & Ed & M4 & M11 & M1 & M2 & M5 & M6 & M8 & M9).
  destruct HR as (K1 & K2 & K3 & K4 & K6 & K7 & K8 & K9 & K10 & K11 & K12).
  destruct (sc_quiet_output P dm d1 HI Eo ltac:(congruence) ltac:(congruence) ltac:(congruence) ltac:(congruence) N1 N2) as (y & Q & Hm).
  assert (E1 : d1 = set_sst SCFinalizeDisconnect (on_disc false (set_cst csConnected (set_io y dm)))).
  { destruct Hk as (Y1 & Y2 & Y3 & _).
    unfold sc_machine in Hm. change (sst (set_io y dm)) with (sst dm) in Hm. rewrite M1, K4 in Hm. unfold sc_connected in Hm.
    change (wbuf (set_io y dm)) with (wbuf dm) in Hm. rewrite Y3, (ring_empty _ K9 K10) in Hm. change (fl (set_io y dm)) with (fl dm) in Hm. rewrite M9, K8 in Hm.
    change (fl (set_cst csConnected (set_io y dm))) with (fl dm) in Hm. rewrite M11 in Hm. cbn [Nat.ltb Nat.leb] in Hm. injection Hm as <-. reflexivity. }
  destruct Hk as (Y1 & _).
  pose proof (sc_lock_step P d e d' Hs K3) as J3.
  assert (J : isopen d' = true /\ fReset (fl d') = false /\ sst d' = SCFinalizeDisconnect /\ wait d' = None /\ rst d' = RCOk /\
    rssi d' = rssi d /\ ext d' = ext d).
  { rewrite Ed, E1. cbn. change (isopen (during (e_sch e) d)) with (isopen d) in Y1. rewrite Y1, M8, M4, M2, M5, M6. splits; auto. }
  destruct J as (J1 & J2 & J4 & J5 & J6 & J7 & J8).
  destruct (sc_plain P d' e2 d2 Hs2 Hp2 J1 J2 J3) as (dn & d3 & a2 & b2 & HI2 & (L1 & L2 & L3 & L4 & L5 & L6 & _) & Hk2 & O1 & O2 & Ea & Hpa & Hol & Eo2 & Ed2).
  destruct (sc_quiet_output P dn d3 HI2 Eo2 ltac:(congruence) ltac:(congruence) ltac:(congruence) ltac:(congruence) O1 O2) as (y2 & Q2 & Hm2).
  unfold sc_machine in Hm2. change (sst (set_io y2 dn)) with (sst dn) in Hm2. rewrite L1, J4 in Hm2.
  assert (E3 : cst d3 = csNotConnected /\ sst d3 = SCNotConnected /\ io d3 = y2) by (injection Hm2 as <-; splits; reflexivity).
  destruct E3 as (E3 & E4 & E5). rewrite Ed2. unfold ip_is_connected. cbn [cst sst set_io]. rewrite E3. splits; auto.
  destruct Hp2 as ((oo & Eop) & _). destruct Hs2 as (_ & _ & _ & _ & _ & _ & Hio & _). unfold call_io in Hio. rewrite Eop in Hio. destruct Hio as [_ ->].
  rewrite Ea. unfold acts_put. cbn [map concat]. rewrite Hpa, app_nil_r. cbn [app].
  destruct (olab_io (sc_shape P) _ _ _ Hol) as (ev & T1 & _ & T2 & _). rewrite <- T2.
  apply quiet_ioeff in Q2. destruct (ioeff_ev _ _ _ _ Q2) as (ev2 & T3 & _ & T4 & _). apply sstep_log in T1, T3.
  rewrite E5, T3 in T1. apply app_inv_head in T1. subst ev2. exact T4.
Qed.

(** ** Data that does not fit *)

(** The reply announced more bytes than the port's receive buffer holds. *)
Definition sc_starves (N : nat) (d : dv) : Prop :=
  isopen d = true /\ fReset (fl d) = false /\ fDisc (fl d) = false /\ fLine (fl d) = false /\ sst d = SCReceiving /\ rst d = RCOk /\ wait d = None /\
  (Z.of_nat N < toRead d)%Z.
Definition sc_helps (e : ent) : Prop := e_op e = OpDisconnect \/ e_op e = OpResetStates \/ e_op e = OpPortClosed.

Theorem sc_starve : forall P d tr d', sc_hist P d tr d' -> sc_starves (rxsz (io d)) d -> Forall (fun e => ~ sc_helps e) tr ->
  sc_starves (rxsz (io d)) d' /\ Forall silent tr.
Proof.
  intros P d tr d' Hh HK HF.
  refine (held _ _ _ _ _ (sc_contract False P) (sc_starves (rxsz (io d))) (fun e => ~ sc_helps e) (rxsz (io d)) _ _ _ _ _ d tr d' Hh HF HK eq_refl).
  - intros y x H. exact H.
  - intros x (H1 & H2 & _). auto.
  - intros e x r x' a Q Ha (K1 & K2 & K3 & K4 & K5 & K6 & K7 & K8) Hi [_ Hx].
    assert (Hk : keep x x') by (inversion Hi; assumption). destruct Hk as (Y1 & _).
    inversion Hi; try congruence. subst a.
    destruct Hx as (X1 & X2 & X3 & X4 & _ & _ & _ & X7 & _). unfold sc_starves. rewrite X1, X2, X4, X7, Y1.
    repeat match goal with H : fl x' = fl x |- _ => rewrite H end. repeat match goal with H : toRead x' = _ |- _ => rewrite H end. splits; assumption.
  - intros e x x' b _ _ K HN Ho (HI & _ & Hx). pose proof HI as ((Hw & _) & Hcm). pose proof K as (K1 & K2 & K3 & K4 & K5 & K6 & K7 & K8).
    assert (E : exists y, x' = set_io y x /\ quiet (io x) y).
    { unfold sc_output in Hx. rewrite K7, K6 in Hx. cbn [rc_ok negb] in Hx. unfold d_space in Hx. destruct (s_space_q (io x) Hw) as (y & E1 & Q). rewrite E1 in Hx. cbn [bind] in Hx.
      destruct (_ <? 20); [exists y; split; [congruence|exact Q]|]. change (fl (set_io y x)) with (fl x) in Hx. rewrite K4, andb_false_r in Hx.
      unfold sc_send_mac, rd in Hx. change (ext (set_io y x)) with (ext x) in Hx. change (fl (set_io y x)) with (fl x) in Hx.
      destruct (cmac (ext x)) as [|c0 [|c1 l]]; [discriminate Hcm|discriminate Hcm|]. cbn [nth_error bind] in Hx. rewrite K4, andb_false_r in Hx. cbn [bind] in Hx.
      unfold sc_machine in Hx. change (sst (set_io y x)) with (sst x) in Hx. rewrite K5 in Hx. change (toRead (set_io y x)) with (toRead x) in Hx.
      destruct (Z.ltb_spec 0 (toRead x)); [|lia]. unfold at_receive, d_avail in Hx. change (io (set_io y x)) with y in Hx.
      assert (Hwy : serial_wf (ser y)) by (apply quiet_ioeff in Q; destruct (ioeff_ev _ _ _ _ Q) as (ev & T & _); apply T).
      destruct (s_avail_q y Hwy) as (y2 & E2 & Q2). rewrite E2 in Hx. cbn [bind] in Hx. change (toRead (set_io y2 (set_io y x))) with (toRead x) in Hx.
      assert (Q3 : quiet (io x) y2) by (eapply quiet_trans; eassumption).
      assert (Hr : rxav y2 <= rxsz (io x)).
      { apply quiet_ioeff in Q3. destruct (ioeff_ev _ _ _ _ Q3) as (ev & T & _). rewrite <- (sstep_rxsz _ _ _ T). apply (rxav_le y2). apply T. }
      destruct (Z.leb_spec (toRead x) (Z.of_nat (rxav y2))); [lia|]. cbn [bind] in Hx. exists y2. split; [injection Hx as <-; reflexivity|exact Q3]. }
    destruct E as (y & -> & Q). split; [exact K|].
    destruct (olab_io (sc_shape P) _ _ _ Ho) as (ev & T1 & _ & T2 & _). rewrite <- T2.
    apply quiet_ioeff in Q. destruct (ioeff_ev _ _ _ _ Q) as (ev2 & T3 & _ & T4 & _). apply sstep_log in T1, T3.
    cbn [io set_io] in T1. rewrite T3 in T1. apply app_inv_head in T1. subst ev2. exact T4.
  - intros e x x' Q (K1 & K2 & K3 & K4 & K5 & K6 & K7 & K8) HI Hn Hr Hc.
    destruct Hr as [(_ & _ & _ & F0 & _ & F1 & F2 & F3 & F4 & _ & _ & _ & _ & F5 & _ & Hf)|[E _]]; [|contradiction Q; right; left; exact E].
    destruct Hf as ((G1 & G2 & G7 & G8) & G3 & _ & _ & G4 & G5 & _ & G6).
    unfold sc_starves. rewrite F0, F1, F2, F3, G1, G8. splits; auto.
    + destruct G6 as [->|[E _]]; [assumption|contradiction Q; right; right; exact E].
    + destruct G3 as [->|[E _]]; [assumption|contradiction Q; left; exact E].
Qed.
