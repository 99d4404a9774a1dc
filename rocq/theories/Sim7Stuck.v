(** States the SIM7x00 driver does not leave: a missed close notice, a name
    that was not resolved, and data that never fits. *)
From Coq Require Import String Ascii ZArith List Bool Arith Lia ZifyBool ZifyNat.
From Verif Require Import Base QueueSpec LineSpec SerialSpec Ring RingProofs LineRing LineRingProofs Serial SerialProofs
  SerStep TaskMacros CStr CStrProofs Dev DevProofs SimDev SimProofs SimSpec SimParse SimLog Sym DrvStep DrvCommon DrvRun DrvHist DrvActs DrvStuck
  Sim7x00 Sim7Spec Sim7Proofs Sim7Ctl Sim7CtlIn Sim7Run Sim7Hist Sim7Thms Sim7More Sim7Line Sim7Req Sim7Rest.
Import ListNotations.
Local Open Scope nat_scope.
Ltac Zify.zify_post_hook ::= Z.div_mod_to_equations.
Local Notation dv := (dev s7send s7reply simx).
Local Notation ent := (@entry simop).
Local Notation olab7 := (olab r7_ok s7_says s7_tail s7_insend true).

(** ** The state after a close notice *)

(** Connected, nothing to send, nothing announced, nothing requested. *)
Definition s7_rests (d : dv) : Prop :=
  isopen d = true /\ fReset (fl d) = false /\ sst d = S7Connected /\ cst d = csConnected /\ wait d = None /\ rst d = R7Ok /\
  fData (fl d) = false /\ fDisc (fl d) = false /\ contents (wbuf d) = [] /\ ring_ok (wbuf d) /\
  rssi d <> INT16_MAX /\ nth_error (idbuf (ext d)) 1 = Some (id_code idNone).

(** Nobody calls write(), disconnect(), resetStates(), requestRSSI() or
    requestIDString() or closes the port, and no data is announced. *)
Definition s7_leaves (e : ent) : Prop :=
  accepted e = [] /\ e_op e <> OpDisconnect /\ e_op e <> OpPortClosed /\ ~ s7_rescue e /\
  forall tk L, In (aLine tk L) (e_acts e) -> prefixb (bs "+CIPRXGET: 1,0") L = false.

Lemma s7_rests_line : forall P d ret d' L, s7_rests d -> keep d d' -> prefixb (bs "+CIPRXGET: 1,0") L = false -> s7_handles P d ret d' L -> s7_rests d'.
Proof.
  intros P d ret d' L (S1 & S2 & S3 & S4 & S5 & S6 & S7 & S8 & S9 & S10 & S11 & S12) (_ & _ & W & _) Hp (r & y & Hlen & _ & _ & E).
  unfold s7_parse, s7_standard_reply in E. change (wait (line_at L r y d)) with (wait d) in E. rewrite S5 in E. cbn [bind] in E.
  unfold s7_special_reply in E. change (rst (line_at L r y d)) with (rst d) in E. rewrite S6 in E. cbn [bind] in E.
  change (sst (line_at L r y d)) with (sst d) in E. rewrite S3 in E. cbn [s7_rank Nat.leb] in E.
  unfold sim_check_connection in E. rewrite (lstarts_line L r (line_at L r y d) eq_refl Hlen) in E by (reflexivity || (cbn; lia)). cbn [bind] in E.
  rewrite Hp in E. rewrite (lstarts_line L r (line_at L r y d) eq_refl Hlen) in E by (reflexivity || (cbn; lia)). cbn [bind] in E.
  unfold s7_rests. destruct (prefixb (bs "+IPCLOSE: 0,") L); cbn [bind] in E; injection E as <- <-; splits; first [assumption | reflexivity].
Qed.

Lemma s7_call_id : forall P e (d d' : dv), callrel (s7_driver P) (s7_shape P) (e_op e) d (e_out e) (e_acts e) d' -> ~ s7_rescue e ->
  (ext d' = ext d \/ exists x, e_op e = OpX x) -> idbuf (ext d') = idbuf (ext d).
Proof.
  intros P e d d' Hc HR [->|[x Ex]]; [reflexivity|]. rewrite Ex in Hc. destruct Hc as (_ & _ & Hc). cbn [drv_x s7_driver] in Hc.
  destruct x; cbn [sim_x] in Hc.
  - inversion Hc; subst. reflexivity.
  - unfold sim_serial_lock in Hc. destruct (wait _); [inversion Hc; subst; reflexivity|]. destruct (r7_ok _); inversion Hc; subst; reflexivity.
  - inversion Hc; subst. reflexivity.
  - contradiction HR. right. right. eauto.
  - destruct (sim_get_id _); [|discriminate]. cbn [bind] in Hc. inversion Hc; subst. reflexivity.
Qed.

Theorem s7_peer_close : forall P d tr d', s7_hist P d tr d' -> s7_rests d -> Forall s7_leaves tr ->
  ip_is_connected d' = true /\ Forall silent tr.
Proof.
  intros P d tr d' Hh HK HF. cut (s7_rests d' /\ Forall silent tr).
  { intros [(_ & _ & _ & K & _) H]. split; [unfold ip_is_connected; rewrite K; reflexivity|exact H]. }
  refine (held _ _ _ _ _ (s7_contract P) s7_rests s7_leaves (rxsz (io d)) _ _ _ _ _ d tr d' Hh HF HK eq_refl).
  - intros y x H. exact H.
  - intros x (H1 & H2 & _). auto.
  - intros e x r x' a (Q1 & Q2 & Q3 & Q4 & Q5) Ha K Hi [_ Hx].
    assert (Hk : keep x x') by (inversion Hi; assumption). destruct a as [q|tk|tk1 tk2|tk L| |cmd q|n q|q|tk]; try (inversion Hi; fail);
      try (destruct K as (K1 & K2 & K3 & K4 & K5 & K6 & K7 & K8 & K9 & K10 & K11 & K12); destruct Hx as (X1 & X2 & X3 & X4 & X5 & X6 & _ & X7 & X8 & X9 & _);
           destruct Hk as (Y1 & _ & Y2 & _); unfold s7_rests; rewrite X1, X2, X3, X4, X5, X6, X7, X8, X9, Y1, Y2; splits; assumption).
    destruct Hx as (_ & Hx). exact (s7_rests_line P _ _ _ _ K Hk (Q5 _ _ Ha) Hx).
  - intros e x x' b _ _ K _ Ho (HI & _ & Hx). pose proof HI as ((Hw & _) & _ & Hid & _). destruct K as (K1 & K2 & K3 & K4 & K5 & K6 & K7 & K8 & K9 & K10 & K11 & K12).
    assert (E : exists y, x' = set_io y x /\ quiet (io x) y).
    { unfold s7_output in Hx. rewrite K5, K6 in Hx. cbn [r7_ok negb] in Hx. unfold d_space in Hx. destruct (s_space_q (io x) Hw) as (y & E1 & Q). rewrite E1 in Hx. cbn [bind] in Hx.
      exists y. split; [|exact Q]. destruct (_ <? 20); [congruence|]. change (rssi (set_io y x)) with (rssi x) in Hx.
      destruct (Z.eqb_spec (rssi x) INT16_MAX); [contradiction|]. cbn [andb] in Hx. rewrite (no_id _ _ _ (set_io y x) K12 Hid) in Hx. cbn [bind] in Hx.
      unfold s7_machine in Hx. change (sst (set_io y x)) with (sst x) in Hx. rewrite K3 in Hx. unfold s7_connected in Hx.
      change (wbuf (set_io y x)) with (wbuf x) in Hx. rewrite (ring_empty _ K9 K10) in Hx. change (fl (set_io y x)) with (fl x) in Hx. rewrite K7 in Hx.
      unfold at_handle_disconnect in Hx. change (fl (set_cst csConnected (set_io y x))) with (fl x) in Hx. rewrite K8 in Hx. cbn [Nat.ltb Nat.leb snd] in Hx.
      injection Hx as <-. clear - K4. destruct x. cbn in *. rewrite K4. reflexivity. }
    destruct E as (y & -> & Q). split; [unfold s7_rests; splits; assumption|].
    destruct (olab_io (s7_shape P) _ _ _ Ho) as (ev & T1 & _ & T2 & _). rewrite <- T2.
    apply quiet_ioeff in Q. destruct (ioeff_ev _ _ _ _ Q) as (ev2 & T3 & _ & T4 & _). apply sstep_log in T1, T3.
    cbn [io set_io] in T1. rewrite T3 in T1. apply app_inv_head in T1. subst ev2. exact T4.
  - intros e x x' (Q1 & Q2 & Q3 & Q4 & Q5) (K1 & K2 & K3 & K4 & K5 & K6 & K7 & K8 & K9 & K10 & K11 & K12) HI Hn Hr Hc.
    destruct Hr as [(_ & _ & _ & _ & _ & F1 & F2 & F3 & F4 & _ & _ & _ & _ & F5 & _ & Hf)|[E _]]; [|contradiction Q4; right; left; exact E].
    destruct Hf as ((G1 & G2 & _) & G3 & _ & _ & G4 & G5 & _ & G6). destruct (F5 K10) as [F6 F7]. rewrite Q1, app_nil_r in F7.
    unfold s7_rests. rewrite F1, F2, F3, F4, F7, G1, G2, (s7_call_id P e x x' Hc Q4 G4). splits; auto.
    + destruct G6 as [->|[E _]]; [assumption|contradiction].
    + destruct G3 as [->|[E _]]; [assumption|contradiction].
    + destruct G5 as [->|[E _]]; [assumption|contradiction Q4; left; exact E].
Qed.

(** ** A name that is not resolved *)

(** The command AT+CDNSGIP was confirmed, its answer is outstanding. *)
Definition s7_unresolved (d : dv) : Prop := isopen d = true /\ fReset (fl d) = false /\ rst d = R7Cdnsgip /\ wait d = None.

(** No answer that can be used, no negative one, and nobody calls resetStates()
    or closes the port. *)
Definition s7_no_answer (e : ent) : Prop :=
  e_op e <> OpResetStates /\ e_op e <> OpPortClosed /\
  forall tk L, In (aLine tk L) (e_acts e) -> dns_okb L = false /\ prefixb (bs "+CDNSGIP: 0") L = false.

Theorem s7_dns_wedge : forall P d tr d', s7_hist P d tr d' -> s7_unresolved d -> Forall s7_no_answer tr ->
  s7_unresolved d' /\ Forall silent tr.
Proof.
  intros P d tr d' Hh HK HF.
  refine (held _ _ _ _ _ (s7_contract P) s7_unresolved s7_no_answer (rxsz (io d)) _ _ _ _ _ d tr d' Hh HF HK eq_refl).
  - intros y x H. exact H.
  - intros x (H1 & H2 & _). auto.
  - intros e x r x' a (Q1 & Q2 & Q3) Ha (K1 & K2 & K3 & K4) Hi [_ Hx].
    assert (Hk : keep x x') by (inversion Hi; assumption). destruct Hk as (Y1 & _).
    destruct a as [q|tk|tk1 tk2|tk L| |cmd q|n q|q|tk]; try (inversion Hi; fail);
      try (destruct Hx as (X1 & X2 & X3 & X4 & _ & _ & _ & X7 & _); unfold s7_unresolved; rewrite X2, X4, X7, Y1; splits; assumption).
    destruct Hx as (HC & Hx). destruct (Q3 _ _ Ha) as [Hn H0]. apply s7_line_effect in Hx. unfold s7_effect in Hx.
    assert (Er : s7_refused L x = false) by (unfold s7_refused; rewrite K4; reflexivity). rewrite Er, K3 in Hx.
    destruct Hx as [_ [(X1 & _)|(_ & X2 & _)]]; [apply dns_okb_spec in X1; congruence|].
    unfold s7_unresolved. rewrite Y1, X2. splits; auto.
    + destruct HC as (_ & _ & _ & _ & _ & _ & _ & [->|(_ & [(F & _)|[(F & _)|(_ & F)]])] & _); try congruence.
    + inversion Hi as [| |? ? _ _ _ _ _ _ _ [W|[W _]]]; congruence.
  - intros e x x' b _ _ (K1 & K2 & K3 & K4) _ Ho (HI & _ & Hx).
    assert (x' = x) as -> by (unfold s7_output in Hx; rewrite K4, K3 in Hx; cbn [r7_ok negb] in Hx; congruence).
    split; [unfold s7_unresolved; auto|]. destruct Ho; try reflexivity; exfalso; match goal with H : ~ awaiting _ _ |- _ => apply H; right; rewrite K3; reflexivity end.
  - intros e x x' (Q1 & Q2 & Q3) (K1 & K2 & K3 & K4) HI Hn Hr Hc.
    destruct Hr as [(_ & _ & _ & _ & _ & F1 & F2 & F3 & F4 & _ & _ & _ & _ & F5 & _ & Hf)|[E _]]; [|contradiction].
    destruct Hf as ((G1 & G2 & _) & G3 & _ & _ & G4 & G5 & _ & G6).
    unfold s7_unresolved. rewrite F1, F3, G1. splits; auto. destruct G6 as [->|[E _]]; [assumption|contradiction].
Qed.

(** ** Data that does not fit *)

(** The reply announced more bytes than the port's receive buffer holds. *)
Definition s7_starves (N : nat) (d : dv) : Prop :=
  isopen d = true /\ fReset (fl d) = false /\ fDisc (fl d) = false /\ fLine (fl d) = false /\ sst d = S7Receiving /\ rst d = R7Ok /\ wait d = None /\
  (Z.of_nat N < toRead d)%Z.
Definition s7_helps (e : ent) : Prop := e_op e = OpDisconnect \/ e_op e = OpResetStates \/ e_op e = OpPortClosed.

Theorem s7_starve : forall P d tr d', s7_hist P d tr d' -> s7_starves (rxsz (io d)) d -> Forall (fun e => ~ s7_helps e) tr ->
  s7_starves (rxsz (io d)) d' /\ Forall silent tr.
Proof.
  intros P d tr d' Hh HK HF.
  refine (held _ _ _ _ _ (s7_contract P) (s7_starves (rxsz (io d))) (fun e => ~ s7_helps e) (rxsz (io d)) _ _ _ _ _ d tr d' Hh HF HK eq_refl).
  - intros y x H. exact H.
  - intros x (H1 & H2 & _). auto.
  - intros e x r x' a Q Ha (K1 & K2 & K3 & K4 & K5 & K6 & K7 & K8) Hi [_ Hx].
    assert (Hk : keep x x') by (inversion Hi; assumption). destruct Hk as (Y1 & _).
    inversion Hi; try congruence. subst a.
    destruct Hx as (X1 & X2 & X3 & X4 & _ & _ & _ & X7 & _). unfold s7_starves. rewrite X1, X2, X4, X7, Y1.
    repeat match goal with H : fl x' = fl x |- _ => rewrite H end. repeat match goal with H : toRead x' = _ |- _ => rewrite H end. splits; assumption.
  - intros e x x' b _ _ K HN Ho (HI & _ & Hx). pose proof HI as ((Hw & _) & _ & Hid & _). pose proof K as (K1 & K2 & K3 & K4 & K5 & K6 & K7 & K8).
    assert (E : exists y, x' = set_io y x /\ quiet (io x) y).
    { unfold s7_output in Hx. rewrite K7, K6 in Hx. cbn [r7_ok negb] in Hx. unfold d_space in Hx. destruct (s_space_q (io x) Hw) as (y & E1 & Q). rewrite E1 in Hx. cbn [bind] in Hx.
      destruct (_ <? 20); [exists y; split; [congruence|exact Q]|]. change (fl (set_io y x)) with (fl x) in Hx. rewrite K4, andb_false_r in Hx.
      unfold sim_send_id, rd in Hx. change (ext (set_io y x)) with (ext x) in Hx. change (fl (set_io y x)) with (fl x) in Hx.
      destruct (idbuf (ext x)) as [|c0 [|c1 l]]; [discriminate Hid|discriminate Hid|]. cbn [nth_error bind] in Hx. rewrite K4, andb_false_r in Hx. cbn [bind] in Hx.
      unfold s7_machine in Hx. change (sst (set_io y x)) with (sst x) in Hx. rewrite K5 in Hx. change (toRead (set_io y x)) with (toRead x) in Hx.
      destruct (Z.ltb_spec 0 (toRead x)); [|lia]. unfold at_receive, d_avail in Hx. change (io (set_io y x)) with y in Hx.
      assert (Hwy : serial_wf (ser y)) by (apply quiet_ioeff in Q; destruct (ioeff_ev _ _ _ _ Q) as (ev & T & _); apply T).
      destruct (s_avail_q y Hwy) as (y2 & E2 & Q2). rewrite E2 in Hx. cbn [bind] in Hx. change (toRead (set_io y2 (set_io y x))) with (toRead x) in Hx.
      assert (Q3 : quiet (io x) y2) by (eapply quiet_trans; eassumption).
      assert (Hr : rxav y2 <= rxsz (io x)).
      { apply quiet_ioeff in Q3. destruct (ioeff_ev _ _ _ _ Q3) as (ev & T & _). rewrite <- (sstep_rxsz _ _ _ T). apply (rxav_le y2). apply T. }
      destruct (Z.leb_spec (toRead x) (Z.of_nat (rxav y2))); [lia|]. cbn [bind] in Hx. exists y2. split; [injection Hx as <-; reflexivity|exact Q3]. }
    destruct E as (y & -> & Q). split; [exact K|].
    destruct (olab_io (s7_shape P) _ _ _ Ho) as (ev & T1 & _ & T2 & _). rewrite <- T2.
    apply quiet_ioeff in Q. destruct (ioeff_ev _ _ _ _ Q) as (ev2 & T3 & _ & T4 & _). apply sstep_log in T1, T3.
    cbn [io set_io] in T1. rewrite T3 in T1. apply app_inv_head in T1. subst ev2. exact T4.
  - intros e x x' Q (K1 & K2 & K3 & K4 & K5 & K6 & K7 & K8) HI Hn Hr Hc.
    destruct Hr as [(_ & _ & _ & F0 & _ & F1 & F2 & F3 & F4 & _ & _ & _ & _ & F5 & _ & Hf)|[E _]]; [|contradiction Q; right; left; exact E].
    destruct Hf as ((G1 & G2 & G7 & G8) & G3 & _ & _ & G4 & G5 & _ & G6).
    unfold s7_starves. rewrite F0, F1, F2, F3, G1, G8. splits; auto.
    + destruct G6 as [->|[E _]]; [assumption|contradiction Q; right; right; exact E].
    + destruct G3 as [->|[E _]]; [assumption|contradiction Q; left; exact E].
Qed.
