(** What the Espressif driver does after a close notice, and a state it does not
    leave: data that never fits, and a reply awaited with line reading switched off. *)
From Coq Require Import String Ascii ZArith List Bool Arith Lia ZifyBool ZifyNat.
From Verif Require Import Base QueueSpec LineSpec SerialSpec Ring RingProofs LineRing LineRingProofs Serial SerialProofs
  SerStep TaskMacros CStr CStrProofs Dev DevProofs SimDev SimProofs SimSpec SimParse SimLog Sym DrvStep DrvCommon DrvRun DrvHist DrvActs DrvStuck
  Espressif EsSpec EsFill EsProofs EsCtl EsCtlIn EsRun AtLine EsHist EsThms EsMore EsLine EsReq EsRest.
Import ListNotations.
Local Open Scope nat_scope.
Ltac Zify.zify_post_hook ::= Z.div_mod_to_equations.
Local Notation dv := (dev essend esreply espx).
Local Notation ent := (@entry esop).
Local Notation olabE P := (olab re_ok (se_says P) se_tail se_insend false).

(** ** After a close notice *)

(** Connected, with nothing to send, to fetch or to ask. *)
Definition se_at_rest (P : plat) (d : dv) : Prop :=
  isopen d = true /\ fReset (fl d) = false /\ fLock (fl d) = false /\ sst d = SEConnected /\ rst d = REOk /\ wait d = None /\
  fData (fl d) = false /\ contents (wbuf d) = [] /\ ring_ok (wbuf d) /\
  rssi d <> INT16_MAX /\ se_mac_request P (emac (ext d)) = false.

(** A run() that reads the notice that the peer closed the connection, with
    room for a command. *)
Definition se_notice_run (d : dv) (e : ent) : Prop :=
  (exists oo, e_op e = OpRun oo) /\ (exists tk L, In (aLine tk L) (e_acts e) /\ prefixb (bs "CLOSED") L = true) /\
  e_sch e = [] /\ sched (io d) = [] /\ txav (io d) + 20 <= txsz (io d).

(** A run() without a new line and with room for a command. *)
Definition se_plain_run (d : dv) (e : ent) : Prop :=
  (exists oo, e_op e = OpRun oo) /\ (forall tk L, ~ In (aLine tk L) (e_acts e)) /\ e_sch e = [] /\ sched (io d) = [] /\ txav (io d) + 20 <= txsz (io d).

Lemma se_plain : forall P d e d', se_step P d e d' -> se_plain_run d e -> isopen d = true -> fReset (fl d) = false -> fLock (fl d) = false ->
  exists dm d1 a b, se_inv dm /\ se_same d dm /\ keep d dm /\ sched (io dm) = [] /\ txav (io dm) + 20 <= txsz (io dm) /\
    e_acts e = [a; b] /\ act_put a = [] /\ olabE P dm d1 b /\ se_output P dm = Ok d1 /\ d' = set_io (io d') d1.
Proof.
  intros P d e d' Hs ((oo & Eo) & Hn & He & Hsc & Ht) H1 H2 H3.
  destruct (se_parts P d e d' oo Hs Eo H3) as (d1 & Hd & [(_ & E & _)|[(_ & E & _)|(_ & _ & a & d2 & r & Hi & (HI & _ & Hx) & Hr)]]); [congruence|congruence|].
  assert (Hk : keep (during (e_sch e) d) d2) by exact (ilab_keep (se_shape P) _ _ _ _ Hi).
  assert (Htx : txav (io d2) <= txav (io d)) by exact (ilab_tx (se_shape P) _ _ _ _ Hi).
  destruct (ilab_io (se_shape P) _ _ _ _ Hi) as (ev & Hst & _).
  assert (Hna : forall tk L, a <> aLine tk L) by (intros tk L ->; apply (Hn tk L); destruct Hr as [[-> _]|(b & _ & -> & _)]; left; reflexivity).
  assert (Hs0 : sched (io (during (e_sch e) d)) = []) by (cbn; exact He).
  destruct Hr as [(_ & _ & ->)|(b & -> & Ea & Hol & Hox)]; [exfalso; inversion Hi; subst; try discriminate; eapply Hna; reflexivity|].
  destruct Hox as (I2 & _ & Eq). exists d2, d1, a, b.
  assert (Hsame : se_same (during (e_sch e) d) d2) by (destruct a; try exact Hx; exfalso; eapply Hna; reflexivity).
  splits; auto.
  - destruct Hst as (_ & _ & _ & _ & Hst). revert Hs0. apply Hst.
  - rewrite (sstep_txsz _ _ _ Hst). change (txsz (io (during (e_sch e) d))) with (txsz (io d)). lia.
  - inversion Hi; reflexivity.
Qed.

Lemma se_quiet_output : forall P (x x1 : dv), se_inv x -> se_output P x = Ok x1 -> wait x = None -> rst x = REOk -> rssi x <> INT16_MAX ->
    se_mac_request P (emac (ext x)) = false -> sched (io x) = [] -> txav (io x) + 20 <= txsz (io x) ->
    exists y, quiet (io x) y /\ se_machine (set_io y x) = Ok x1.
Proof.
  intros P x x1 HI Hx K5 K6 K11 K12 Hsc Ht. pose proof HI as ((Hw & _) & Hcm).
  unfold se_output in Hx. rewrite K5, K6 in Hx. cbn [re_ok negb] in Hx. unfold d_space in Hx.
  destruct (s_space_q (io x) Hw) as (y & E1 & Q). rewrite E1 in Hx. cbn [bind] in Hx. exists y. split; [exact Q|].
  destruct (Nat.ltb_spec (txsz y - txav y) 20) as [Hlt|Hge].
  - exfalso. apply quiet_ioeff in Q. pose proof (ioeff_av _ _ _ _ Q) as [_ A]. pose proof (ioeff_txsz _ _ _ _ Q). cbn [length] in A. lia.
  - change (rssi (set_io y x)) with (rssi x) in Hx.
    destruct (Z.eqb_spec (rssi x) INT16_MAX); [contradiction|]. cbn [andb] in Hx.
    unfold se_send_mac in Hx. change (ext (set_io y x)) with (ext x) in Hx. change (fl (set_io y x)) with (fl x) in Hx.
    unfold se_mac_request in K12. destruct (emac (ext x)) as [|c0 [|c1 cm]]; try discriminate Hcm. cbn [rd nth_error bind] in Hx.
    assert (Hc : char_is_ff P c1 && aeqb c0 NUL && fLine (fl x) = false).
    { unfold char_is_ff, aeqb. destruct (Ascii.eqb c0 NUL); cbn [andb] in *; [|rewrite andb_false_r; reflexivity].
      destruct (char_signed P); cbn [negb andb] in *; [reflexivity|]. rewrite K12. reflexivity. }
    unfold rd in Hx. cbn [nth_error bind] in Hx. rewrite Hc in Hx. cbn [bind] in Hx. exact Hx.
Qed.

Lemma se_notice : forall P d e d', se_step P d e d' -> se_notice_run d e -> se_at_rest P d ->
  exists dm d1, se_inv dm /\ keep d dm /\ sched (io dm) = [] /\ txav (io dm) + 20 <= txsz (io dm) /\ se_output P dm = Ok d1 /\ d' = set_io (io d') d1 /\
    wait dm = None /\ fIp (fl dm) = false /\ sst dm = sst d /\ rst dm = rst d /\ rssi dm = rssi d /\ emac (ext dm) = emac (ext d) /\
    fReset (fl dm) = fReset (fl d) /\ fData (fl dm) = fData (fl d).
Proof.
  intros P d e d' Hs ((oo & Eo) & (tk & L & Hin & HL) & He & Hsc & Ht) (H1 & H2 & H3 & H4 & H5 & H6 & _).
  destruct (se_parts P d e d' oo Hs Eo H3) as (d1 & Hd & [(_ & E & _)|[(_ & E & _)|(_ & _ & a & d2 & r & Hi & (HI & _ & Hx) & Hr)]]); [congruence|congruence|].
  assert (Hk : keep (during (e_sch e) d) d2) by exact (ilab_keep (se_shape P) _ _ _ _ Hi).
  assert (Htx : txav (io d2) <= txav (io d)) by exact (ilab_tx (se_shape P) _ _ _ _ Hi).
  destruct (ilab_io (se_shape P) _ _ _ _ Hi) as (ev & Hst & _).
  assert (Hs0 : sched (io (during (e_sch e) d)) = []) by (cbn; exact He).
  assert (Ha : a = aLine tk L).
  { destruct Hr as [(Ea & _)|(b & _ & Ea & Hol & _)]; rewrite Ea in Hin; cbn [app] in Hin; destruct Hin as [<-|Hin]; auto; [destruct Hin|].
    destruct Hin as [->|[]]. exfalso. inversion Hol. }
  subst a. destruct Hx as [_ Hx].
  assert (Hwl : se_whole (during (e_sch e) d) L) by (inversion Hi; assumption). apply se_line_effect in Hx; [|apply HI|exact Hwl]. destruct Hx as [(_ & _ & Hx) Er].
  assert (Hf : se_is_error L = false) by (pose proof HL as HL'; apply prefixb_spec in HL' as [t ->]; reflexivity).
  assert (Hnd : prefixb (bs "+IPD") L = false /\ prefixb (bs "WIFI DISCONNECT") L = false /\ prefixb (bs "SEND FAIL") L = false) by (pose proof HL as HL'; apply prefixb_spec in HL' as [t ->]; auto).
  destruct Hnd as (Hn1 & Hn2 & Hn3).
  rewrite Hf in Hx, Er. unfold se_data, se_takes_rssi, se_takes_mac, se_nosend in Hx. rewrite !(H5 : rst (during (e_sch e) d) = _), HL, Hn1, Hn2, Hn3 in Hx.
  rewrite !andb_false_r in Hx. cbn [orb andb] in Hx. destruct Hx as (Y1 & Y2 & Y3 & Y4 & _ & _ & Y5 & Y6 & Y7 & Y8 & Y9 & _).
  change (wait (during (e_sch e) d)) with (wait d) in Y8. rewrite H6 in Y8.
  change (sst (during (e_sch e) d)) with (sst d) in Y1, Y7. rewrite H4 in Y7. cbn [se_rank Nat.leb andb] in Y7.
  destruct Hr as [(_ & _ & E)|(b & _ & Ea & Hol & Hox)]; [congruence|].
  destruct Hox as (I2 & _ & Eq). exists d2, d1.
  splits; auto.
  - destruct Hst as (_ & _ & _ & _ & Hst). revert Hs0. apply Hst.
  - rewrite (sstep_txsz _ _ _ Hst). change (txsz (io (during (e_sch e) d))) with (txsz (io d)). lia.
  - rewrite Y2. symmetry. exact H5.
Qed.

Lemma se_leaving : forall P d' e2 d2, se_step P d' e2 d2 -> se_plain_run d' e2 ->
  isopen d' = true -> fReset (fl d') = false -> fLock (fl d') = false -> sst d' = SESendCwqap -> wait d' = None -> rst d' = REOk ->
  rssi d' <> INT16_MAX -> se_mac_request P (emac (ext d')) = false ->
  ip_is_connected d2 = false /\ sst d2 = SEFinalizeDisconnect /\ wait d2 = Some (bs "WIFI DISCONNECT") /\ put (e_ev e2) = bs "AT+CWQAP" ++ [CR; LF].
Proof.
  intros P d' e2 d2 Hs2 Hp2 J1 J2 J3 J4 J5 J6 J7 J8.
  destruct (se_plain P d' e2 d2 Hs2 Hp2 J1 J2 J3) as (dn & d3 & a2 & b2 & HI & (M1 & M2 & M3 & M4 & M5 & M6 & _) & Hk & N1 & N2 & Ea & Hpa & Hol & Eo & Ed).
  destruct (se_quiet_output P dn d3 HI Eo ltac:(congruence) ltac:(congruence) ltac:(congruence) ltac:(congruence) N1 N2) as (y2 & Q & Hm).
  unfold se_machine in Hm. change (sst (set_io y2 dn)) with (sst dn) in Hm. rewrite M1, J4 in Hm.
  assert (Hwy : serial_wf (ser y2)) by (apply quiet_ioeff in Q; destruct (ioeff_ev _ _ _ _ Q) as (ev & T & _); apply T).
  assert (E3 : cst d3 = csIntermediate /\ sst d3 = SEFinalizeDisconnect /\ wait d3 = Some (bs "WIFI DISCONNECT") /\ toRead d3 = toRead dn).
  { assert (Hw : wp True (at_send_command (bs "AT+CWQAP") (set_sst SEFinalizeDisconnect (set_wait (Some (bs "WIFI DISCONNECT")) (set_cst csIntermediate (set_io y2 dn)))))
      (fun x => cst x = csIntermediate /\ sst x = SEFinalizeDisconnect /\ wait x = Some (bs "WIFI DISCONNECT") /\ toRead x = toRead dn)).
    { unfold at_send_command. apply wp_bind. apply wp_w_str; [exact Hwy|]. intros y3 (p & W & _). apply wp_w_str; [|intros; cbn; auto].
      destruct (ioeff_ev _ _ _ _ W) as (ev & T & _). apply T. }
    rewrite Hm in Hw. exact Hw. }
  destruct E3 as (E3 & E6 & E4 & E5). rewrite Ed. unfold ip_is_connected. cbn [cst sst wait set_io]. rewrite E3. splits; auto.
  destruct Hp2 as ((oo & Eop) & _). destruct Hs2 as (_ & _ & _ & _ & _ & _ & Hio & _). unfold call_io in Hio. rewrite Eop in Hio. destruct Hio as [_ ->].
  rewrite Ea. unfold acts_put. cbn [map concat]. rewrite Hpa, app_nil_r. cbn [app].
  destruct Hol as [Hio Hk1 Hk2 Hw1 Hw2 Hr1|y4 cmd q Hn I1 Hsp I2 Hq Hq2 Hne Hsay|y4 n q Hn I1 I2 Hq Hq2 Hk1 Hk2 Ha Hn2 Hn3 Hn4 Hn5 Hw1|ev Hn|tk Hn].
  - exfalso. congruence.
  - cbn [act_put]. assert (Ec : cmd = bs "AT+CWQAP" ++ [CR; LF]).
    { destruct Hsay as [(E & _)|[(Hc & _)|[(c & Hc & -> & _)|(E & _)]]]; try congruence.
      rewrite M1, J4 in Hc. cbn [se_command] in Hc. apply some_eq in Hc. subst c. reflexivity. }
    rewrite <- Ec. apply Hq2. rewrite Ec. change (length (bs "AT+CWQAP" ++ [CR; LF])) with 10.
    pose proof (ioeff_av _ _ _ _ I1) as [_ A]. pose proof (ioeff_txsz _ _ _ _ I1). cbn [length] in A. lia.
  - rewrite E4 in Hw1. discriminate Hw1.
  - rewrite M1, J4 in *. discriminate.
  - exfalso. lia.
Qed.

(** The peer closes: the run() that reads the notice leaves the state
    "connected"; the next one leaves the network and the program sees it. *)
Theorem se_peer_close : forall P d e d' e2 d2, se_step P d e d' -> se_at_rest P d -> se_notice_run d e ->
  se_step P d' e2 d2 -> se_plain_run d' e2 ->
  ip_is_connected d2 = false /\ sst d2 = SEFinalizeDisconnect /\ wait d2 = Some (bs "WIFI DISCONNECT") /\ put (e_ev e2) = bs "AT+CWQAP" ++ [CR; LF].
Proof.
  intros P d e d' e2 d2 Hs HR Hp Hs2 Hp2.
  destruct (se_notice P d e d' Hs Hp HR) as (dm & d1 & HI & Hk & N1 & N2 & Eo & Ed & M4 & M11 & M1 & M2 & M5 & M6 & M8 & M9).
  destruct HR as (K1 & K2 & K3 & K4 & K6 & K7 & K8 & K9 & K10 & K11 & K12).
  destruct (se_quiet_output P dm d1 HI Eo ltac:(congruence) ltac:(congruence) ltac:(congruence) ltac:(congruence) N1 N2) as (y & Q & Hm).
  assert (E1 : d1 = set_sst SESendCwqap (on_disc false (set_cst csConnected (set_io y dm)))).
  { destruct Hk as (Y1 & Y2 & Y3 & _).
    unfold se_machine in Hm. change (sst (set_io y dm)) with (sst dm) in Hm. rewrite M1, K4 in Hm. unfold se_connected in Hm.
    change (wbuf (set_io y dm)) with (wbuf dm) in Hm. rewrite Y3, (ring_empty _ K9 K10) in Hm. change (fl (set_io y dm)) with (fl dm) in Hm. rewrite M9, K8 in Hm.
    change (fl (set_cst csConnected (set_io y dm))) with (fl dm) in Hm. rewrite M11 in Hm. cbn [Nat.ltb Nat.leb] in Hm. injection Hm as <-. reflexivity. }
  destruct Hk as (Y1 & _).
  pose proof (se_lock_step P d e d' Hs K3) as J3.
  assert (J : isopen d' = true /\ fReset (fl d') = false /\ sst d' = SESendCwqap /\ wait d' = None /\ rst d' = REOk /\
    rssi d' = rssi d /\ emac (ext d') = emac (ext d)).
  { rewrite Ed, E1. cbn. change (isopen (during (e_sch e) d)) with (isopen d) in Y1. rewrite Y1, M8, M4, M2, M5, M6. splits; auto. }
  destruct J as (J1 & J2 & J4 & J5 & J6 & J7 & J8).
  apply (se_leaving P d' e2 d2 Hs2 Hp2); congruence.
Qed.

(** ** Data that does not fit *)

(** The reply announced more bytes than the port's receive buffer holds. *)
Definition se_starves (N : nat) (d : dv) : Prop :=
  isopen d = true /\ fReset (fl d) = false /\ fDisc (fl d) = false /\ fLine (fl d) = false /\ sst d = SEReceiving /\ rst d = REOk /\ wait d = None /\
  (Z.of_nat N < toRead d)%Z.
Definition se_helps (e : ent) : Prop := e_op e = OpDisconnect \/ e_op e = OpResetStates \/ e_op e = OpPortClosed.

Theorem se_starve : forall P d tr d', se_hist P d tr d' -> se_starves (rxsz (io d)) d -> Forall (fun e => ~ se_helps e) tr ->
  se_starves (rxsz (io d)) d' /\ Forall silent tr.
Proof.
  intros P d tr d' Hh HK HF.
  refine (held _ _ _ _ _ (se_contract False P) (se_starves (rxsz (io d))) (fun e => ~ se_helps e) (rxsz (io d)) _ _ _ _ _ d tr d' Hh HF HK eq_refl).
  - intros y x H. exact H.
  - intros x (H1 & H2 & _). auto.
  - intros e x r x' a Q Ha (K1 & K2 & K3 & K4 & K5 & K6 & K7 & K8) Hi (_ & _ & Hx).
    assert (Hk : keep x x') by (inversion Hi; assumption). destruct Hk as (Y1 & _).
    inversion Hi; try congruence. subst a.
    destruct Hx as (X1 & X2 & X3 & X4 & _ & _ & _ & X7 & _). unfold se_starves. rewrite X1, X2, X4, X7, Y1.
    repeat match goal with H : fl x' = fl x |- _ => rewrite H end. repeat match goal with H : toRead x' = _ |- _ => rewrite H end. splits; assumption.
  - intros e x x' b _ _ K HN Ho (HI & _ & Hx). pose proof HI as ((Hw & _) & Hcm). pose proof K as (K1 & K2 & K3 & K4 & K5 & K6 & K7 & K8).
    assert (E : exists y, x' = set_io y x /\ quiet (io x) y).
    { unfold se_output in Hx. rewrite K7, K6 in Hx. cbn [re_ok negb] in Hx. unfold d_space in Hx. destruct (s_space_q (io x) Hw) as (y & E1 & Q). rewrite E1 in Hx. cbn [bind] in Hx.
      destruct (_ <? 20); [exists y; split; [congruence|exact Q]|]. change (fl (set_io y x)) with (fl x) in Hx. rewrite K4, andb_false_r in Hx.
      unfold se_send_mac, rd in Hx. change (ext (set_io y x)) with (ext x) in Hx. change (fl (set_io y x)) with (fl x) in Hx.
      destruct (emac (ext x)) as [|c0 [|c1 l]]; [discriminate Hcm|discriminate Hcm|]. cbn [nth_error bind] in Hx. rewrite K4, andb_false_r in Hx. cbn [bind] in Hx.
      unfold se_machine in Hx. change (sst (set_io y x)) with (sst x) in Hx. rewrite K5 in Hx. change (toRead (set_io y x)) with (toRead x) in Hx.
      destruct (Z.ltb_spec 0 (toRead x)); [|lia]. unfold at_receive, d_avail in Hx. change (io (set_io y x)) with y in Hx.
      assert (Hwy : serial_wf (ser y)) by (apply quiet_ioeff in Q; destruct (ioeff_ev _ _ _ _ Q) as (ev & T & _); apply T).
      destruct (s_avail_q y Hwy) as (y2 & E2 & Q2). rewrite E2 in Hx. cbn [bind] in Hx. change (toRead (set_io y2 (set_io y x))) with (toRead x) in Hx.
      assert (Q3 : quiet (io x) y2) by (eapply quiet_trans; eassumption).
      assert (Hr : rxav y2 <= rxsz (io x)).
      { apply quiet_ioeff in Q3. destruct (ioeff_ev _ _ _ _ Q3) as (ev & T & _). rewrite <- (sstep_rxsz _ _ _ T). apply (rxav_le y2). apply T. }
      destruct (Z.leb_spec (toRead x) (Z.of_nat (rxav y2))); [lia|]. cbn [bind] in Hx. exists y2. split; [injection Hx as <-; reflexivity|exact Q3]. }
    destruct E as (y & -> & Q). split; [exact K|].
    destruct (olab_io (se_shape P) _ _ _ Ho) as (ev & T1 & _ & T2 & _). rewrite <- T2.
    apply quiet_ioeff in Q. destruct (ioeff_ev _ _ _ _ Q) as (ev2 & T3 & _ & T4 & _). apply sstep_log in T1, T3.
    cbn [io set_io] in T1. rewrite T3 in T1. apply app_inv_head in T1. subst ev2. exact T4.
  - intros e x x' Q (K1 & K2 & K3 & K4 & K5 & K6 & K7 & K8) HI Hn Hr Hc.
    destruct Hr as [(_ & _ & _ & F0 & _ & F1 & F2 & F3 & F4 & _ & _ & _ & _ & F5 & _ & Hf)|[E _]]; [|contradiction Q; right; left; exact E].
    destruct Hf as ((G1 & G2 & G7 & G8) & G3 & _ & _ & G4 & G5 & _ & G6).
    unfold se_starves. rewrite F0, F1, F2, F3, G1, G8. splits; auto.
    + destruct G6 as [->|[E _]]; [assumption|contradiction Q; right; right; exact E].
    + destruct G3 as [->|[E _]]; [assumption|contradiction Q; left; exact E].
Qed.

(** ** A reply awaited with line reading switched off *)

(** A notice +IPD on a connection that is not a TCP connection switches line
    reading off.  If the driver waits for a reply then, it does not read it. *)
Definition se_deaf (d : dv) : Prop :=
  isopen d = true /\ fReset (fl d) = false /\ fDisc (fl d) = false /\ fLine (fl d) = false /\ (wait d <> None \/ re_ok (rst d) = false).


Theorem se_deaf_ever : forall P d tr d', se_hist P d tr d' -> se_deaf d -> Forall (fun e => ~ se_helps e) tr ->
  se_deaf d' /\ Forall silent tr.
Proof.
  intros P d tr d' Hh HK HF.
  refine (held _ _ _ _ _ (se_contract False P) se_deaf (fun e => ~ se_helps e) (rxsz (io d)) _ _ _ _ _ d tr d' Hh HF HK eq_refl).
  - intros y x H. exact H.
  - intros x (H1 & H2 & _). auto.
  - intros e x r x' a Q Ha (K1 & K2 & K3 & K4 & K5) Hi (_ & _ & Hx).
    assert (Hk : keep x x') by (inversion Hi; assumption). destruct Hk as (Y1 & _).
    inversion Hi; try congruence. subst a.
    destruct Hx as (X1 & X2 & X3 & X4 & _). unfold se_deaf. rewrite X2, X4, Y1.
    repeat match goal with H : fl x' = fl x |- _ => rewrite H end. splits; assumption.
  - intros e x x' b _ _ K HN Ho (HI & _ & Hx). pose proof K as (K1 & K2 & K3 & K4 & K5).
    assert (E : x' = x).
    { unfold se_output in Hx. destruct (wait x) eqn:Ew; [apply ok_eq in Hx; congruence|].
      destruct K5 as [K5|K5]; [contradiction K5; reflexivity|]. rewrite K5 in Hx. cbn [negb] in Hx. apply ok_eq in Hx. congruence. }
    subst x'. split; [exact K|].
    destruct (olab_io (se_shape P) _ _ _ Ho) as (ev & T1 & _ & T2 & _). rewrite <- T2.
    apply sstep_log in T1. rewrite <- (app_nil_r (slog (io x))) in T1 at 1. apply app_inv_head in T1. subst ev. reflexivity.
  - intros e x x' Q (K1 & K2 & K3 & K4 & K5) HI Hn Hr Hc.
    destruct Hr as [(_ & _ & _ & F0 & _ & F1 & F2 & F3 & F4 & _ & _ & _ & _ & F5 & _ & Hf)|[E _]]; [|contradiction Q; right; left; exact E].
    destruct Hf as ((G1 & G2 & G7 & G8) & G3 & _ & _ & G4 & G5 & _ & G6).
    unfold se_deaf. splits; auto; try congruence.
    + destruct G6 as [->|[E _]]; [assumption|contradiction Q; right; right; exact E].
    + destruct G3 as [->|[E _]]; [assumption|contradiction Q; left; exact E].
Qed.
