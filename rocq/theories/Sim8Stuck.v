(** What the SIM800 driver does after a close notice, and states it does not
    leave: a name that was not resolved, and data that never fits. *)
From Coq Require Import String Ascii ZArith List Bool Arith Lia ZifyBool ZifyNat.
From Verif Require Import Base QueueSpec LineSpec SerialSpec Ring RingProofs LineRing LineRingProofs Serial SerialProofs
  SerStep TaskMacros CStr CStrProofs Dev DevProofs SimDev SimProofs SimSpec SimParse SimLog Sym DrvStep DrvCommon DrvRun DrvHist DrvActs DrvStuck
  Sim800 Sim8Spec Sim8Proofs Sim8Ctl Sim8CtlIn Sim8Run Sim8Hist Sim8Thms Sim8More Sim8Line Sim8Req Sim8Rest.
Import ListNotations.
Local Open Scope nat_scope.
Ltac Zify.zify_post_hook ::= Z.div_mod_to_equations.
Local Notation dv := (dev s8send s8reply simx).
Local Notation ent := (@entry simop).
Local Notation olab8 := (olab r8_ok s8_says s8_tail s8_insend true).

(** ** After a close notice *)

(** Connected, with nothing to send, to fetch or to ask. *)
Definition s8_at_rest (d : dv) : Prop :=
  isopen d = true /\ fReset (fl d) = false /\ fLock (fl d) = false /\ sst d = S8Connected /\ rst d = R8Ok /\
  fData (fl d) = false /\ contents (wbuf d) = [] /\ ring_ok (wbuf d) /\
  rssi d <> INT16_MAX /\ nth_error (idbuf (ext d)) 1 = Some (id_code idNone).

(** A run() that reads the notice that the peer closed the connection, with
    room for a command. *)
Definition s8_notice_run (d : dv) (e : ent) : Prop :=
  (exists oo, e_op e = OpRun oo) /\ (exists tk L, In (aLine tk L) (e_acts e) /\ prefixb (bs "0, CLOSED") L = true) /\
  e_sch e = [] /\ sched (io d) = [] /\ txav (io d) + 20 <= txsz (io d).

Lemma s8_close_line : forall P d ret d' L, s8_handles P d ret d' L -> prefixb (bs "0, CLOSED") L = true -> rst d = R8Ok -> sst d = S8Connected ->
  ret = false /\ wait d' = None /\ fIp (fl d') = false /\ sst d' = sst d /\ rst d' = rst d /\ rssi d' = rssi d /\ ext d' = ext d /\
  fReset (fl d') = fReset (fl d) /\ fLock (fl d') = fLock (fl d) /\ fData (fl d') = fData (fl d).
Proof.
  intros P d ret d' L (r & y & Hlen & _ & HI & E) Hp Hr Hst.
  assert (HL : forall w, length w < 61 -> nulfree w = true -> lstarts w (line_at L r y d) = Ok (prefixb w L)).
  { intros w Hw Hn. apply (lstarts_line L r (line_at L r y d) eq_refl Hlen); [exact Hn|lia]. }
  unfold s8_parse in E. assert (He : s8_is_error (line_at L r y d) = Ok false).
  { unfold s8_is_error. rewrite !HL by (reflexivity || (cbn; lia)). cbn [bind].
    pose proof Hp as Hq. apply prefixb_spec in Hq as [t ->]. reflexivity. }
  rewrite He in E. cbn [bind] in E.
  assert (Hs : exists w, s8_standard_reply (line_at L r y d) = Ok (set_wait w (line_at L r y d)) \/ exists u, s8_standard_reply (line_at L r y d) = UB u).
  { unfold s8_standard_reply. destruct (wait (line_at L r y d)) as [w|] eqn:Ew.
    - destruct (lmatch (clen w) w (line_at L r y d)) as [[|]|u]; cbn [bind]; [exists None|exists (Some w)|exists None; right; eexists; reflexivity]; left; [reflexivity|].
      rewrite <- Ew. destruct d; reflexivity.
    - exists None. left. rewrite <- Ew. destruct d; reflexivity. }
  destruct Hs as (w & [Hs|(u & Hs)]); rewrite Hs in E; cbn [bind] in E; [|discriminate].
  unfold s8_special_reply in E. change (rst (set_wait w (line_at L r y d))) with (rst d) in E. rewrite Hr in E. cbn [bind] in E.
  change (sst (set_wait w (line_at L r y d))) with (sst d) in E. rewrite Hst in E. cbn [s8_rank Nat.leb] in E.
  unfold sim_check_connection in E.
  assert (HL' : forall x, length x < 61 -> nulfree x = true -> lstarts x (set_wait w (line_at L r y d)) = Ok (prefixb x L)).
  { intros x Hw Hn. apply (lstarts_line L r (set_wait w (line_at L r y d)) eq_refl Hlen); [exact Hn|lia]. }
  rewrite !HL' in E by (reflexivity || (cbn; lia)). cbn [bind] in E. rewrite Hp in E.
  assert (Hd : prefixb (bs "+CIPRXGET: 1,0") L = false) by (apply prefixb_spec in Hp as [t ->]; reflexivity).
  rewrite Hd in E. cbn [bind] in E. apply (f_equal (fun x => match x with Ok p => p | UB _ => (ret, d') end)) in E. apply pair_eq in E as [<- <-].
  splits; auto.
Qed.

(** A run() without a new line and with room for a command. *)
Definition s8_plain_run (d : dv) (e : ent) : Prop :=
  (exists oo, e_op e = OpRun oo) /\ (forall tk L, ~ In (aLine tk L) (e_acts e)) /\ e_sch e = [] /\ sched (io d) = [] /\ txav (io d) + 20 <= txsz (io d).

Lemma s8_plain : forall P d e d', s8_step P d e d' -> s8_plain_run d e -> isopen d = true -> fReset (fl d) = false -> fLock (fl d) = false ->
  exists dm d1 a b, s8_inv dm /\ s8_same d dm /\ keep d dm /\ sched (io dm) = [] /\ txav (io dm) + 20 <= txsz (io dm) /\
    e_acts e = [a; b] /\ olab8 dm d1 b /\ s8_output dm = Ok d1 /\ d' = set_io (io d') d1.
Proof.
  intros P d e d' Hs ((oo & Eo) & Hn & He & Hsc & Ht) H1 H2 H3.
  destruct (s8_parts P d e d' oo Hs Eo) as (d1 & Hd & [(_ & [E|E] & _)|(_ & _ & l & dp & Hp & Hr)]); [congruence|congruence|].
  destruct Hp as [(F & -> & ->)|(F & _)]; [|change (fReset (fl d) = true) in F; congruence].
  destruct Hr as (a & d2 & r & Hi & [HI Hx] & Hr).
  assert (Hk : keep (during (e_sch e) d) d2) by exact (ilab_keep (s8_shape P) _ _ _ _ Hi).
  assert (Htx : txav (io d2) <= txav (io d)) by exact (ilab_tx (s8_shape P) _ _ _ _ Hi).
  destruct (ilab_io (s8_shape P) _ _ _ _ Hi) as (ev & Hst & _).
  assert (Hna : forall tk L, a <> aLine tk L) by (intros tk L ->; apply (Hn tk L); destruct Hr as [[-> _]|(b & -> & _)]; left; reflexivity).
  assert (Hs0 : sched (io (during (e_sch e) d)) = []) by (cbn; exact He).
  destruct Hr as [(_ & _ & ->)|(b & Ea & Hol & Hox)]; [exfalso; inversion Hi; subst; try discriminate; eapply Hna; reflexivity|].
  destruct Hox as (I2 & _ & Eq). exists d2, d1, a, b.
  assert (Hsame : s8_same (during (e_sch e) d) d2) by (destruct a; try exact Hx; exfalso; eapply Hna; reflexivity).
  splits; auto.
  - destruct Hst as (_ & _ & _ & _ & Hst). revert Hs0. apply Hst.
  - rewrite (sstep_txsz _ _ _ Hst). change (txsz (io (during (e_sch e) d))) with (txsz (io d)). lia.
Qed.

Lemma s8_quiet_output : forall x x1 : dv, s8_inv x -> s8_output x = Ok x1 -> wait x = None -> rst x = R8Ok -> rssi x <> INT16_MAX ->
    nth_error (idbuf (ext x)) 1 = Some (id_code idNone) -> sched (io x) = [] -> txav (io x) + 20 <= txsz (io x) ->
    exists y, quiet (io x) y /\ s8_machine (set_io y x) = Ok x1.
Proof.
  intros x x1 HI Hx K5 K6 K11 K12 Hsc Ht. pose proof HI as ((Hw & _) & _ & Hid & _).
    unfold s8_output in Hx. rewrite K5, K6 in Hx. cbn [r8_ok negb] in Hx. unfold d_space in Hx.
    destruct (s_space_q (io x) Hw) as (y & E1 & Q). rewrite E1 in Hx. cbn [bind] in Hx. exists y. split; [exact Q|].
    destruct (Nat.ltb_spec (txsz y - txav y) 20) as [Hlt|Hge].
    - exfalso. apply quiet_ioeff in Q. pose proof (ioeff_av _ _ _ _ Q) as [_ A]. pose proof (ioeff_txsz _ _ _ _ Q). cbn [length] in A. lia.
    - change (rssi (set_io y x)) with (rssi x) in Hx.
      destruct (Z.eqb_spec (rssi x) INT16_MAX); [contradiction|]. cbn [andb] in Hx. rewrite (no_id _ _ _ (set_io y x) K12 Hid) in Hx. cbn [bind] in Hx. exact Hx.
Qed.

(** The shutting down begins, and the program sees it. *)
Lemma s8_shutting : forall P d' e2 d2, s8_step P d' e2 d2 -> s8_plain_run d' e2 ->
  isopen d' = true -> fReset (fl d') = false -> fLock (fl d') = false -> sst d' = S8SendCipshut -> wait d' = None -> rst d' = R8Ok ->
  rssi d' <> INT16_MAX -> nth_error (idbuf (ext d')) 1 = Some (id_code idNone) ->
  ip_is_connected d2 = false /\ exists q, In (aCommand (bs "AT+CIPSHUT" ++ [CR; LF]) q) (e_acts e2).
Proof.
  intros P d' e2 d2 Hs2 Hp2 J1 J2 J3 J4 J5 J6 J7 J8.
  destruct (s8_plain P d' e2 d2 Hs2 Hp2 J1 J2 J3) as (dn & d3 & a2 & b2 & HI & (M1 & M2 & M3 & M4 & M5 & M6 & M7 & M8 & M9 & M10 & M11 & M12) & Hk & N1 & N2 & Ea & Hol & Eo & Ed).
  destruct (s8_quiet_output dn d3 HI Eo ltac:(congruence) ltac:(congruence) ltac:(congruence) ltac:(congruence) N1 N2) as (y2 & Q & Hm).
  unfold s8_machine in Hm. change (sst (set_io y2 dn)) with (sst dn) in Hm. rewrite M1, J4 in Hm.
  assert (Hwy : serial_wf (ser y2)) by (apply quiet_ioeff in Q; destruct (ioeff_ev _ _ _ _ Q) as (ev & T & _); apply T).
  assert (E3 : cst d3 = csIntermediate /\ wait d3 = Some (bs "SHUT OK") /\ toRead d3 = toRead dn).
  { assert (Hw : wp True (at_send_command (bs "AT+CIPSHUT") (set_sst S8FinalizeDisconnect (set_wait (Some (bs "SHUT OK")) (set_cst csIntermediate (set_io y2 dn)))))
      (fun x => cst x = csIntermediate /\ wait x = Some (bs "SHUT OK") /\ toRead x = toRead dn)).
    { unfold at_send_command. apply wp_bind. apply wp_w_str; [exact Hwy|]. intros y3 (p & W & _). apply wp_w_str; [|intros; cbn; auto].
      destruct (ioeff_ev _ _ _ _ W) as (ev & T & _). apply T. }
    rewrite Hm in Hw. exact Hw. }
  destruct E3 as (E3 & E4 & E5). split; [rewrite Ed; unfold ip_is_connected; cbn [cst set_io]; rewrite E3; reflexivity|].
  rewrite Ea. destruct Hol as [Hio Hk1 Hk2 Hw1 Hw2 Hr1|y4 cmd q Hn I1 Hsp I2 Hq Hq2 Hne Hsay|y4 n q Hn I1 I2 Hq Hq2 Hk1 Hk2 Ha Hn2 Hn3 Hn4 Hn5 Hw1|ev Hn|tk Hn].
  - exfalso. congruence.
  - exists q. right. left. destruct Hsay as [(E & _)|[(c & Hc & _)|[(c & Hc & -> & _)|(E & _)]]]; try congruence.
    + unfold id_request in Hc. rewrite M6, J8 in Hc. discriminate Hc.
    + rewrite M1, J4 in Hc. cbn [s8_command] in Hc. apply some_eq in Hc. subst c. reflexivity.
  - rewrite E4 in Hw1. discriminate Hw1.
  - rewrite M1, J4 in *. discriminate.
  - exfalso. lia.
Qed.

Lemma s8_notice : forall P d e d', s8_step P d e d' -> s8_notice_run d e -> s8_at_rest d ->
  exists dm d1, s8_inv dm /\ keep d dm /\ sched (io dm) = [] /\ txav (io dm) + 20 <= txsz (io dm) /\ s8_output dm = Ok d1 /\ d' = set_io (io d') d1 /\
    wait dm = None /\ fIp (fl dm) = false /\ sst dm = sst d /\ rst dm = rst d /\ rssi dm = rssi d /\ ext dm = ext d /\
    fReset (fl dm) = fReset (fl d) /\ fLock (fl dm) = fLock (fl d) /\ fData (fl dm) = fData (fl d).
Proof.
  intros P d e d' Hs ((oo & Eo) & (tk & L & Hin & HL) & He & Hsc & Ht) (H1 & H2 & H3 & H4 & H5 & _).
  destruct (s8_parts P d e d' oo Hs Eo) as (d1 & Hd & [(_ & [E|E] & _)|(_ & _ & l & dp & Hp & Hr)]); [congruence|congruence|].
  destruct Hp as [(F & -> & ->)|(F & _)]; [|change (fReset (fl d) = true) in F; congruence].
  destruct Hr as (a & d2 & r & Hi & [HI Hx] & Hr).
  assert (Hk : keep (during (e_sch e) d) d2) by exact (ilab_keep (s8_shape P) _ _ _ _ Hi).
  assert (Htx : txav (io d2) <= txav (io d)) by exact (ilab_tx (s8_shape P) _ _ _ _ Hi).
  destruct (ilab_io (s8_shape P) _ _ _ _ Hi) as (ev & Hst & _).
  assert (Hs0 : sched (io (during (e_sch e) d)) = []) by (cbn; exact He).
  assert (Ha : a = aLine tk L).
  { destruct Hr as [(Ea & _)|(b & Ea & Hol & _)]; rewrite Ea in Hin; cbn [app] in Hin; destruct Hin as [<-|Hin]; auto; [destruct Hin|].
    destruct Hin as [->|[]]. exfalso. inversion Hol. }
  subst a. destruct Hx as [_ Hx].
  destruct (s8_close_line P _ r d2 L Hx HL H5 H4) as (Er & Y).
  destruct Hr as [(_ & _ & ->)|(b & Ea & Hol & Hox)]; [discriminate Er|].
  destruct Hox as (I2 & _ & Eq). exists d2, d1. destruct Y as (Y1 & Y2 & Y3 & Y4 & Y5 & Y6 & Y7 & Y8 & Y9).
  splits; auto.
  - destruct Hst as (_ & _ & _ & _ & Hst). revert Hs0. apply Hst.
  - rewrite (sstep_txsz _ _ _ Hst). change (txsz (io (during (e_sch e) d))) with (txsz (io d)). lia.
Qed.

(** The peer closes: the run() that reads the notice leaves the state
    "connected", the next one begins to shut down, and the program sees it. *)
Theorem s8_peer_close : forall P d e d' e2 d2, s8_step P d e d' -> s8_at_rest d -> s8_notice_run d e ->
  s8_step P d' e2 d2 -> s8_plain_run d' e2 ->
  ip_is_connected d2 = false /\ exists q, In (aCommand (bs "AT+CIPSHUT" ++ [CR; LF]) q) (e_acts e2).
Proof.
  intros P d e d' e2 d2 Hs HR Hp Hs2 Hp2.
  destruct (s8_notice P d e d' Hs Hp HR) as (dm & d1 & HI & Hk & N1 & N2 & Eo & Ed & M4 & M11 & M1 & M2 & M5 & M6 & M8 & M12 & M9).
  destruct HR as (K1 & K2 & K3 & K4 & K6 & K8 & K9 & K10 & K11 & K12).
  destruct (s8_quiet_output dm d1 HI Eo ltac:(congruence) ltac:(congruence) ltac:(congruence) ltac:(congruence) N1 N2) as (y & Q & Hm).
  assert (E1 : d1 = set_sst S8SendCipshut (on_disc false (set_cst csConnected (set_io y dm)))).
  { destruct Hk as (Y1 & Y2 & Y3 & _).
    unfold s8_machine in Hm. change (sst (set_io y dm)) with (sst dm) in Hm. rewrite M1, K4 in Hm. unfold s8_connected in Hm.
    change (wbuf (set_io y dm)) with (wbuf dm) in Hm. rewrite Y3, (ring_empty _ K9 K10) in Hm. change (fl (set_io y dm)) with (fl dm) in Hm. rewrite M9, K8 in Hm.
    change (fl (set_cst csConnected (set_io y dm))) with (fl dm) in Hm. rewrite M11 in Hm. cbn [Nat.ltb Nat.leb] in Hm. injection Hm as <-. reflexivity. }
  destruct Hk as (Y1 & _).
  assert (J : isopen d' = true /\ fReset (fl d') = false /\ fLock (fl d') = false /\ sst d' = S8SendCipshut /\ wait d' = None /\ rst d' = R8Ok /\
    rssi d' = rssi d /\ ext d' = ext d).
  { rewrite Ed, E1. cbn. change (isopen (during (e_sch e) d)) with (isopen d) in Y1. rewrite Y1, M8, M12, M4, M2, M5, M6. splits; auto. }
  destruct J as (J1 & J2 & J3 & J4 & J5 & J6 & J7 & J8).
  apply (s8_shutting P d' e2 d2 Hs2 Hp2); congruence.
Qed.

(** ** A name that is not resolved *)

(** The command AT+CDNSGIP was confirmed, its answer is outstanding. *)
Definition s8_unresolved (d : dv) : Prop := isopen d = true /\ fReset (fl d) = false /\ rst d = R8Cdnsgip /\ wait d = None.

(** No answer that can be used, no negative one, no error, and nobody calls
    resetStates() or closes the port. *)
Definition s8_no_answer (e : ent) : Prop :=
  e_op e <> OpResetStates /\ e_op e <> OpPortClosed /\
  forall tk L, In (aLine tk L) (e_acts e) -> dns_okb L = false /\ prefixb (bs "+CDNSGIP: 0") L = false /\ s8_refused L = false.

Theorem s8_dns_wedge : forall P d tr d', s8_hist P d tr d' -> s8_unresolved d -> Forall s8_no_answer tr ->
  s8_unresolved d' /\ Forall silent tr.
Proof.
  intros P d tr d' Hh HK HF.
  refine (held _ _ _ _ _ (s8_contract P) s8_unresolved s8_no_answer (rxsz (io d)) _ _ _ _ _ d tr d' Hh HF HK eq_refl).
  - intros y x H. exact H.
  - intros x (H1 & H2 & _). auto.
  - intros e x r x' a (Q1 & Q2 & Q3) Ha (K1 & K2 & K3 & K4) Hi [_ Hx].
    assert (Hk : keep x x') by (inversion Hi; assumption). destruct Hk as (Y1 & _).
    destruct a as [q|tk|tk1 tk2|tk L| |cmd q|n q|q|tk]; try (inversion Hi; fail);
      try (destruct Hx as (X1 & X2 & X3 & X4 & _ & _ & _ & X7 & _); unfold s8_unresolved; rewrite X2, X4, X7, Y1; splits; assumption).
    destruct Hx as (HC & Hx). destruct (Q3 _ _ Ha) as (Hn & H0 & Er). apply s8_line_effect in Hx. unfold s8_effect in Hx.
    rewrite Er, K3 in Hx.
    destruct Hx as [_ [(X1 & _)|(_ & X2 & _)]]; [apply dns_okb_spec in X1; congruence|].
    unfold s8_unresolved. rewrite Y1, X2. splits; auto.
    + destruct HC as (_ & _ & _ & _ & _ & _ & _ & [->|(_ & [F|[(F & _)|(_ & F)]])] & _); try congruence. apply s8_error_dec in F. unfold s8_refused in Er. congruence.
    + inversion Hi as [| |? ? _ _ _ _ _ _ _ [W|[W _]]]; congruence.
  - intros e x x' b _ _ (K1 & K2 & K3 & K4) _ Ho (HI & _ & Hx).
    assert (x' = x) as -> by (unfold s8_output in Hx; rewrite K4, K3 in Hx; cbn [r8_ok negb] in Hx; congruence).
    split; [unfold s8_unresolved; auto|]. destruct Ho; try reflexivity; exfalso; match goal with H : ~ awaiting _ _ |- _ => apply H; right; rewrite K3; reflexivity end.
  - intros e x x' (Q1 & Q2 & Q3) (K1 & K2 & K3 & K4) HI Hn Hr Hc.
    destruct Hr as [(_ & _ & _ & _ & _ & F1 & F2 & F3 & F4 & _ & _ & _ & _ & F5 & _ & Hf)|[E _]]; [|contradiction].
    destruct Hf as ((G1 & G2 & _) & G3 & _ & _ & G4 & G5 & _ & G6).
    unfold s8_unresolved. rewrite F1, F3, G1. splits; auto. destruct G6 as [->|[E _]]; [assumption|contradiction].
Qed.

(** ** Data that does not fit *)

(** The reply announced more bytes than the port's receive buffer holds. *)
Definition s8_starves (N : nat) (d : dv) : Prop :=
  isopen d = true /\ fReset (fl d) = false /\ fDisc (fl d) = false /\ fLine (fl d) = false /\ sst d = S8Receiving /\ rst d = R8Ok /\ wait d = None /\
  (Z.of_nat N < toRead d)%Z.
Definition s8_helps (e : ent) : Prop := e_op e = OpDisconnect \/ e_op e = OpResetStates \/ e_op e = OpPortClosed.

Theorem s8_starve : forall P d tr d', s8_hist P d tr d' -> s8_starves (rxsz (io d)) d -> Forall (fun e => ~ s8_helps e) tr ->
  s8_starves (rxsz (io d)) d' /\ Forall silent tr.
Proof.
  intros P d tr d' Hh HK HF.
  refine (held _ _ _ _ _ (s8_contract P) (s8_starves (rxsz (io d))) (fun e => ~ s8_helps e) (rxsz (io d)) _ _ _ _ _ d tr d' Hh HF HK eq_refl).
  - intros y x H. exact H.
  - intros x (H1 & H2 & _). auto.
  - intros e x r x' a Q Ha (K1 & K2 & K3 & K4 & K5 & K6 & K7 & K8) Hi [_ Hx].
    assert (Hk : keep x x') by (inversion Hi; assumption). destruct Hk as (Y1 & _).
    inversion Hi; try congruence. subst a.
    destruct Hx as (X1 & X2 & X3 & X4 & _ & _ & _ & X7 & _). unfold s8_starves. rewrite X1, X2, X4, X7, Y1.
    repeat match goal with H : fl x' = fl x |- _ => rewrite H end. repeat match goal with H : toRead x' = _ |- _ => rewrite H end. splits; assumption.
  - intros e x x' b _ _ K HN Ho (HI & _ & Hx). pose proof HI as ((Hw & _) & _ & Hid & _). pose proof K as (K1 & K2 & K3 & K4 & K5 & K6 & K7 & K8).
    assert (E : exists y, x' = set_io y x /\ quiet (io x) y).
    { unfold s8_output in Hx. rewrite K7, K6 in Hx. cbn [r8_ok negb] in Hx. unfold d_space in Hx. destruct (s_space_q (io x) Hw) as (y & E1 & Q). rewrite E1 in Hx. cbn [bind] in Hx.
      destruct (_ <? 20); [exists y; split; [congruence|exact Q]|]. change (fl (set_io y x)) with (fl x) in Hx. rewrite K4, andb_false_r in Hx.
      unfold sim_send_id, rd in Hx. change (ext (set_io y x)) with (ext x) in Hx. change (fl (set_io y x)) with (fl x) in Hx.
      destruct (idbuf (ext x)) as [|c0 [|c1 l]]; [discriminate Hid|discriminate Hid|]. cbn [nth_error bind] in Hx. rewrite K4, andb_false_r in Hx. cbn [bind] in Hx.
      unfold s8_machine in Hx. change (sst (set_io y x)) with (sst x) in Hx. rewrite K5 in Hx. change (toRead (set_io y x)) with (toRead x) in Hx.
      destruct (Z.ltb_spec 0 (toRead x)); [|lia]. unfold at_receive, d_avail in Hx. change (io (set_io y x)) with y in Hx.
      assert (Hwy : serial_wf (ser y)) by (apply quiet_ioeff in Q; destruct (ioeff_ev _ _ _ _ Q) as (ev & T & _); apply T).
      destruct (s_avail_q y Hwy) as (y2 & E2 & Q2). rewrite E2 in Hx. cbn [bind] in Hx. change (toRead (set_io y2 (set_io y x))) with (toRead x) in Hx.
      assert (Q3 : quiet (io x) y2) by (eapply quiet_trans; eassumption).
      assert (Hr : rxav y2 <= rxsz (io x)).
      { apply quiet_ioeff in Q3. destruct (ioeff_ev _ _ _ _ Q3) as (ev & T & _). rewrite <- (sstep_rxsz _ _ _ T). apply (rxav_le y2). apply T. }
      destruct (Z.leb_spec (toRead x) (Z.of_nat (rxav y2))); [lia|]. cbn [bind] in Hx. exists y2. split; [injection Hx as <-; reflexivity|exact Q3]. }
    destruct E as (y & -> & Q). split; [exact K|].
    destruct (olab_io (s8_shape P) _ _ _ Ho) as (ev & T1 & _ & T2 & _). rewrite <- T2.
    apply quiet_ioeff in Q. destruct (ioeff_ev _ _ _ _ Q) as (ev2 & T3 & _ & T4 & _). apply sstep_log in T1, T3.
    cbn [io set_io] in T1. rewrite T3 in T1. apply app_inv_head in T1. subst ev2. exact T4.
  - intros e x x' Q (K1 & K2 & K3 & K4 & K5 & K6 & K7 & K8) HI Hn Hr Hc.
    destruct Hr as [(_ & _ & _ & F0 & _ & F1 & F2 & F3 & F4 & _ & _ & _ & _ & F5 & _ & Hf)|[E _]]; [|contradiction Q; right; left; exact E].
    destruct Hf as ((G1 & G2 & G7 & G8) & G3 & _ & _ & G4 & G5 & _ & G6).
    unfold s8_starves. rewrite F0, F1, F2, F3, G1, G8. splits; auto.
    + destruct G6 as [->|[E _]]; [assumption|contradiction Q; right; right; exact E].
    + destruct G3 as [->|[E _]]; [assumption|contradiction Q; left; exact E].
Qed.
