(** More about histories of the Espressif driver: locking, states,
    disconnecting, a port that does not open. *)
From Coq Require Import String Ascii ZArith List Bool Arith Lia ZifyBool ZifyNat.
From Verif Require Import Base QueueSpec LineSpec SerialSpec Ring RingProofs LineRing LineRingProofs Serial SerialProofs
  SerStep TaskMacros CStr CStrProofs Dev DevProofs SimDev SimProofs SimSpec SimParse SimLog Sym DrvStep DrvCommon DrvRun DrvHist
  Espressif EsSpec EsFill EsProofs EsCtl EsCtlIn EsRun EsHist EsThms AtLine.
Import ListNotations.
Local Open Scope nat_scope.
Ltac Zify.zify_post_hook ::= Z.div_mod_to_equations.
Local Notation dv := (dev essend esreply espx).
Local Notation ent := (@entry esop).
Local Notation ilabE := (ilab se_insend se_whole (fun _ : dv => partial_line) se_clears).
Local Notation olabE P := (olab re_ok (se_says P) se_tail se_insend false).

(** ** The lock: there is none *)

(** No call of this driver locks the port, so serialWrite() and serialRead()
    never do anything. *)
Lemma se_lock_step : forall P d e d', se_step P d e d' -> fLock (fl d) = false -> fLock (fl d') = false.
Proof. intros P d e d' H. apply (se_names_step P d e d' H). Qed.

Theorem se_unlocked : forall P d0 tr d, se_built d0 -> se_hist P d0 tr d -> fLock (fl d) = false.
Proof.
  intros P d0 tr d HB Hh. assert (F : fLock (fl d0) = false).
  { destruct (se_built_fresh _ HB) as (_ & _ & _ & _ & _ & _ & -> & _). reflexivity. }
  clear HB. induction Hh as [|d e d1 tr d2 Hs Hh IH]; [exact F|]. apply IH. exact (se_lock_step P d e d1 Hs F).
Qed.

Theorem se_unlocked_raw : forall P d0 tr d e d', se_built d0 -> se_hist P d0 tr d -> se_step P d e d' -> raw_access e ->
  (e_out e = DCount 0 \/ e_out e = DData [] 0) /\ taken (e_ev e) = [] /\ put (e_ev e) = [] /\ d' = set_io (io d') d.
Proof.
  intros P d0 tr d e d' HB Hh H Hr. exact (raw_unlocked _ _ _ _ _ (se_contract False P) d e d' H Hr (se_unlocked P d0 tr d HB Hh)).
Qed.

(** ** States *)
Lemma se_parts : forall P d e d' oo, se_step P d e d' -> e_op e = OpRun oo -> fLock (fl d) = false ->
  exists d1, d' = set_io (io d') d1 /\
  ((e_acts e = [] /\ isopen d = false /\
    d1 = if oo then set_isopen true (during (e_sch e) d) else set_sst SESerialError (during (e_sch e) d)) \/
   (isopen d = true /\ fReset (fl d) = true /\
    exists q, e_acts e = [aReset q] /\ resets (se_shape P) (during (e_sch e) d) q d1 /\ se_rctl (during (e_sch e) d) d1) \/
   (isopen d = true /\ fReset (fl d) = false /\
    exists a d2 r, ilabE (during (e_sch e) d) r d2 a /\ se_in_ext P (during (e_sch e) d) r a d2 /\
      ((e_acts e = [a] /\ d1 = d2 /\ r = true) \/ (exists b, r = false /\ e_acts e = [a; b] /\ olabE P d2 d1 b /\ se_out_ext P d2 b d1)))).
Proof.
  intros P d e d' oo H Eo HL. destruct (se_cases P d e d' H) as (d1 & Hd & HA & [(oo' & Eo' & Hr)|(Hn & _)]); [|exfalso; exact (Hn _ Eo)].
  exists d1. split; [exact Hd|]. rewrite Eo in Eo'. inversion Eo'; subst oo'. clear Hd H Eo Eo'.
  inversion Hr as [Ho Eoo E1 E2|Ho Eoo E1 E2|Ho El E1 E2|l x1 (R1 & R2 & R3) Hf Hp E1 E2|l x1 a x2 (R1 & R2 & R3) Hp Hi Hx E1 E2|l x1 a x2 b x3 (R1 & R2 & R3) Hp Hi Hx Hol Hox E1 E2]; subst; cbn [se_shape sh_lock sh_goon sh_iext sh_oext sh_rext] in *.
  - left. change (isopen d = false) in Ho. splits; auto.
  - left. change (isopen d = false) in Ho. splits; auto.
  - exfalso. change (fLock (fl d) = true) in El. congruence.
  - right. left. destruct Hp as [(F & _)|(F & q & E & Q1 & Q2)]; [congruence|]. split; [exact R1|]. split; [exact F|]. exists q. auto.
  - right. right. rewrite (R3 eq_refl) in *. destruct Hp as [(F & _ & ->)|(_ & q & E & _)]; [|discriminate E].
    split; [exact R1|]. split; [exact F|]. exists a, d1, true. splits; auto.
  - right. right. rewrite (R3 eq_refl) in *. destruct Hp as [(F & _ & ->)|(_ & q & E & _)]; [|discriminate E].
    split; [exact R1|]. split; [exact F|]. exists a, x2, false. splits; auto. right. exists b. splits; auto.
Qed.

(** A run() performs a pending reset, or reads a line (one arrow), then does
    what the state asks for (a second arrow); or the port is not open. *)
Theorem se_edges : forall P d e d', se_step P d e d' -> fLock (fl d) = false ->
  match e_op e with
  | OpRun oo =>
      (isopen d = false /\ sst d' = (if oo then sst d else SESerialError)) \/
      (isopen d = true /\ fReset (fl d) = true /\ sst d' = se_reset_state d) \/
      (isopen d = true /\ fReset (fl d) = false /\
       exists s, (s = sst d \/ In (sst d, s) (se_diagram ++ se_wifi_lost ++ se_revival)) /\
                 (sst d' = s \/ In (s, sst d') (se_diagram ++ se_undocumented)))
  | OpResetStates => sst d' = SENotConnected
  | _ => sst d' = sst d
  end.
Proof.
  intros P d e d' H HL. destruct (se_cases P d e d' H) as (d1 & Hd & HA & [(oo & Eo & _)|(Hn & Ea & Hr & Hc)]).
  - rewrite Eo. clear d1 Hd. destruct (se_parts P d e d' oo H Eo HL) as (d1 & Hd & Hr). rewrite Hd. change (sst (set_io (io d') d1)) with (sst d1). clear Hd H Eo.
    assert (I : forall d1 a d2 r, se_in_ext P d1 r a d2 ->
       sst d2 = sst d1 \/ In (sst d1, sst d2) (se_diagram ++ se_wifi_lost ++ se_revival)).
    { intros x1 a x2 r (_ & _ & Hx). destruct a; try (left; exact (proj1 Hx)). destruct Hx as [(M & _) _]. unfold se_move in M.
      destruct M as [M|[[M _]|(M & R & _)]]; [left; exact M| |].
      - right. rewrite !in_app_iff. cbn [se_arrival In] in M. destruct M as [M|M]; [left; rewrite <- M; cbn; tauto|right; right; exact M].
      - rewrite M. destruct (sst x1) eqn:E; try (cbn in R; exfalso; lia); try (left; reflexivity); right; rewrite !in_app_iff; right; left; cbn; tauto. }
    destruct Hr as [(_ & Ho & ->)|[(R1 & R2 & q & _ & _ & G)|(R1 & R2 & a & d2 & r & Hi & Hx & Hr)]].
    + left. split; [exact Ho|]. destruct oo; auto.
    + right. left. splits; auto. apply G.
    + right. right. splits; auto. exists (sst d2). split; [exact (I _ _ _ _ Hx)|].
      destruct Hr as [(_ & -> & _)|(b & _ & _ & _ & Hox)]; [left; reflexivity|].
      destruct Hox as (_ & (Hs & _) & _). rewrite in_app_iff. destruct Hs as [Hs|[Hs|Hs]]; auto.
  - rewrite Hd. change (sst (set_io (io d') d1)) with (sst d1).
    destruct Hr as [(R & _ & _ & _ & _ & _ & Es & _)|[E Hr]].
    + destruct (e_op e) eqn:Eo; try exact Es; [exact (False_ind _ (Hn _ eq_refl))|discriminate R].
    + rewrite E. rewrite E in Hc. destruct Hc as (_ & _ & _ & Hc).
      destruct (se_reset_exact False P (during (e_sch e) d) d1) as (y & -> & _); [|exact Hc|reflexivity]. exact HA.
Qed.

(** ** Disconnecting *)

(** A recorded request is dropped only by resetStates(), by beginning to close,
    or by a reset of the modem after which the driver is not connected. *)
Theorem se_disc_kept : forall P d e d', se_step P d e d' -> fLock (fl d) = false -> fDisc (fl d) = true ->
  fDisc (fl d') = true \/ sst d' = SESendCipclose \/ sst d' = SESendCwqap \/ e_op e = OpResetStates \/
  (fReset (fl d) = true /\ sst d' = SENotConnected).
Proof.
  intros P d e d' H HL HD. destruct (se_cases P d e d' H) as (d1 & Hd & _ & [(oo & Eo & _)|(Hn & Ea & Hr & Hc)]).
  - clear d1 Hd. destruct (se_parts P d e d' oo H Eo HL) as (d1 & Hd & Hr).
    rewrite Hd. change (sst (set_io (io d') d1)) with (sst d1). change (fl (set_io (io d') d1)) with (fl d1). clear Hd H.
    assert (I : forall d1 a d2 r, se_in_ext P d1 r a d2 -> fDisc (fl d2) = fDisc (fl d1)).
    { intros x1 a x2 r (_ & _ & Hx). destruct a; unfold se_same, se_ictl in Hx; tauto. }
    destruct Hr as [(_ & Ho & ->)|[(R1 & R2 & q & _ & _ & (G & _))|(R1 & R2 & a & d2 & r & Hi & Hx & Hr)]].
    + left. destruct oo; exact HD.
    + right. right. right. right. split; [exact R2|]. rewrite G. unfold se_reset_state. change (fl (during (e_sch e) d)) with (fl d). rewrite HD. rewrite andb_false_r. reflexivity.
    + pose proof (I _ _ _ _ Hx) as J. change (fl (during (e_sch e) d)) with (fl d) in J. rewrite HD in J.
      destruct Hr as [(_ & -> & _)|(b & _ & _ & _ & Hox)]; [tauto|]. destruct Hox as (_ & (_ & _ & _ & Hs & _) & _).
      specialize (Hs J). tauto.
  - rewrite Hd. change (fl (set_io (io d') d1)) with (fl d1).
    destruct Hr as [(_ & _ & _ & _ & _ & _ & _ & _ & _ & _ & _ & _ & _ & _ & _ & Hf)|[E _]]; [|auto].
    destruct Hf as (_ & [Hf|(_ & Hf & _)] & _); left; [rewrite Hf; exact HD|exact Hf].
Qed.

(** While idle a request to disconnect changes nothing at all. *)
Theorem se_disc_idle : forall P d e d', se_step P d e d' -> e_op e = OpDisconnect ->
  fDisc (fl d') = (if ip_is_idle d then fDisc (fl d) else true) /\ fConnect (fl d') = fConnect (fl d) /\ sst d' = sst d.
Proof.
  intros P d e d' H Eo. destruct (se_cases P d e d' H) as (d1 & Hd & _ & [(oo & Eo' & Hr)|(Hn & Ea & _ & Hc)]); [congruence|].
  rewrite Eo in Hc. destruct Hc as (_ & Hc). cbn [d_call] in Hc. inversion Hc. rewrite Hd. unfold ip_disconnect in *.
  change (ip_is_idle (during (e_sch e) d)) with (ip_is_idle d) in *. destruct (ip_is_idle d); subst; auto.
Qed.

(** ** A port that did not open at once *)
Definition se_stuck (P : plat) (d : dv) : Prop :=
  sst d = SESerialError /\ rst d = REOk /\ wait d = None /\ fReset (fl d) = false /\ rssi d <> INT16_MAX /\
  se_mac_request P (emac (ext d)) = false /\ cst d = csNotConnected /\ fLock (fl d) = false.

Definition se_rescue (e : ent) : Prop :=
  e_op e = OpRequestRSSI \/ e_op e = OpResetStates \/ e_op e = OpX RequestMac \/
  exists tk L, In (aLine tk L) (e_acts e) /\ (prefixb (bs "ERROR") L = true \/ prefixb (bs "FAIL") L = true).

Lemma se_took_same : forall L d, se_whole d L -> rst d <> REWaitCiprecvdata -> se_took L d = d.
Proof.
  intros L d Hw Hr. destruct (se_took_eq L d) as [E|[(E & _)|E]]; [exact E|contradiction|].
  destruct Hw as (? & ? & _ & _ & _ & _ & X). congruence.
Qed.

Lemma se_stuck_line : forall P d ret d' L, se_stuck P d -> se_whole d L -> se_is_error L = false -> se_handles P d ret d' L -> ret = false /\ se_stuck P d'.
Proof.
  intros P d ret d' L (S1 & S2 & S3 & S4 & S5 & S6 & S7 & S8) Hw HE (r & y & Hlen & _ & HI & E).
  rewrite (se_took_same L d Hw) in * by congruence.
  pose proof (se_whole_parsed _ _ _ _ r Hw Hlen) as Hp.
  rewrite se_parse_eq in E by exact (proj1 Hp). change (lbuf (line_at L r y d)) with (L ++ NUL :: r) in E.
  assert (He : se_is_error (L ++ NUL :: r) = false).
  { unfold se_is_error in *. rewrite !prefixb_line by lfree. exact HE. }
  rewrite He in E. unfold se_noerr in E. change (sst (line_at L r y d)) with (sst d) in E. rewrite S1 in E. cbn [se_is_connected andb] in E.
  unfold se_standard_reply in E. change (wait (line_at L r y d)) with (wait d) in E. rewrite S3 in E. cbn [bind] in E.
  unfold se_special_reply in E. change (rst (line_at L r y d)) with (rst d) in E. rewrite S2 in E. cbn [bind] in E.
  change (sst (line_at L r y d)) with (sst d) in E. rewrite S1 in E. cbn [se_rank Nat.leb] in E. inversion E; subst.
  split; [reflexivity|]. unfold se_stuck. splits; assumption.
Qed.

Lemma se_stuck_out : forall P d d', se_inv d -> se_stuck P d -> se_output P d = Ok d' -> exists y, quiet (io d) y /\ d' = set_io y d.
Proof.
  intros P d d' HI (S1 & S2 & S3 & S4 & S5 & S6 & S7 & S8) E. unfold se_output in E. rewrite S3, S2 in E. cbn [re_ok negb] in E.
  pose proof HI as ((Hw & _) & Hcm).
  unfold d_space in E. destruct (s_space_q (io d) Hw) as (y & E1 & Q). rewrite E1 in E. cbn [bind] in E. exists y. split; [exact Q|].
  destruct (_ <? 20); [inversion E; reflexivity|].
  change (rssi (set_io y d)) with (rssi d) in E. destruct (rssi d =? INT16_MAX)%Z eqn:Er; [apply Z.eqb_eq in Er; contradiction|]. cbn [andb] in E.
  unfold se_send_mac in E. change (ext (set_io y d)) with (ext d) in E. change (fl (set_io y d)) with (fl d) in E.
  unfold se_mac_request in S6. destruct (emac (ext d)) as [|c0 [|c1 cm]]; try discriminate Hcm. cbn [rd nth_error bind] in E.
  assert (Hc : char_is_ff P c1 && aeqb c0 NUL && fLine (fl d) = false).
  { unfold char_is_ff, aeqb. destruct (Ascii.eqb c0 NUL); cbn [andb] in *; [|rewrite andb_false_r; reflexivity].
    destruct (char_signed P); cbn [negb andb] in *; [reflexivity|]. rewrite S6. reflexivity. }
  unfold rd in E. cbn [nth_error bind] in E. rewrite Hc in E. cbn [bind] in E.
  unfold se_machine in E. change (sst (set_io y d)) with (sst d) in E. rewrite S1 in E. inversion E; reflexivity.
Qed.

Lemma se_stuck_step : forall P d e d', se_step P d e d' -> se_stuck P d -> ~ se_rescue e -> se_stuck P d' /\ put (e_ev e) = [].
Proof.
  intros P d e d' H HS HR.
  assert (HLk : fLock (fl d) = false) by apply HS. assert (HF : fReset (fl d) = false) by apply HS.
  destruct (se_cases P d e d' H) as (d1 & Hd & HA & [(oo & Eo & _)|(Hn & Ea & Hr & Hc)]).
  - assert (Hput : put (e_ev e) = acts_put (e_acts e)).
    { destruct H as (_ & _ & _ & _ & _ & _ & Hio & _). rewrite Eo in Hio. apply Hio. }
    clear d1 Hd. destruct (se_parts P d e d' oo H Eo HLk) as (d1 & Hd & Hr).
    cut (se_stuck P d1 /\ acts_put (e_acts e) = []).
    { intros [C1 C2]. rewrite Hput, Hd. split; [exact C1|exact C2]. }
    clear Hput Hd H.
    assert (HE : forall tk L, In (aLine tk L) (e_acts e) -> se_is_error L = false).
    { intros tk L Ha. destruct (se_is_error L) eqn:E; [|reflexivity]. contradiction HR. right. right. right. exists tk, L. split; [exact Ha|]. apply se_error_dec, E. }
    assert (I : forall d1 a d2 r, In a (e_acts e) -> se_stuck P d1 -> ilabE d1 r d2 a -> se_in_ext P d1 r a d2 ->
       se_stuck P d2 /\ act_put a = []).
    { intros x1 a x2 r Ha K Hi (_ & _ & Hx). split; [|inversion Hi; reflexivity]. destruct a;
        try (destruct K as (K1 & K2 & K3 & K4 & K5 & K6 & K7 & K8); destruct Hx as (X1 & X2 & X3 & X4 & X5 & X6 & _ & X7 & _ & _ & _ & X8);
             unfold se_stuck; rewrite X1, X2, X3, X4, X5, X6, X7, X8; splits; assumption).
      destruct Hx as (_ & Hx). assert (Hw : se_whole x1 L) by (inversion Hi; assumption). exact (proj2 (se_stuck_line P _ _ _ _ K Hw (HE _ _ Ha) Hx)). }
    assert (O : forall d1 b d2, se_stuck P d1 -> olabE P d1 d2 b -> se_out_ext P d1 b d2 ->
       se_stuck P d2 /\ act_put b = []).
    { intros x1 b x2 K Ho (Hw & _ & Hx). destruct (se_stuck_out P x1 x2 Hw K Hx) as (y & Q & ->). split; [exact K|].
      destruct (olab_io (se_shape P) _ _ _ Ho) as (ev & S1 & _ & S2 & _). rewrite <- S2.
      apply quiet_ioeff in Q. destruct (ioeff_ev _ _ _ _ Q) as (ev2 & T1 & _ & T2 & _). apply sstep_log in S1, T1.
      cbn [io set_io] in S1. rewrite T1 in S1. apply app_inv_head in S1. subst ev2. exact T2. }
    assert (HSd : se_stuck P (during (e_sch e) d)) by exact HS.
    destruct Hr as [(Ea & Ho & ->)|[(_ & F & _)|(R1 & _ & a & d2 & r & Hi & Hx & Hr)]]; [| |].
    + rewrite Ea. split; [|reflexivity]. destruct oo; [exact HSd|]. destruct HSd as (_ & HSd). unfold se_stuck. split; [reflexivity|exact HSd].
    + congruence.
    + assert (Hin : In a (e_acts e)) by (destruct Hr as [(-> & _)|(b & _ & -> & _)]; left; reflexivity).
      destruct (I _ _ _ _ Hin HSd Hi Hx) as [J1 J2].
      destruct Hr as [(-> & -> & _)|(b & _ & -> & Hol & Hox)].
      * split; [exact J1|]. unfold acts_put. cbn. rewrite J2. reflexivity.
      * destruct (O _ _ _ J1 Hol Hox) as [J3 J4]. split; [exact J3|]. unfold acts_put. cbn. rewrite J2, J4. reflexivity.
  - split.
    + pose proof (se_lock_step P d e d' H HLk) as HL'.
      rewrite Hd in HL'. rewrite Hd. cut (se_stuck P d1); [intro C; exact C|]. destruct HS as (K1 & K2 & K3 & K4 & K5 & K6 & K7 & K8).
      destruct Hr as [(_ & _ & _ & _ & _ & F1 & F2 & F3 & F4 & _ & _ & _ & _ & _ & _ & Hf)|[E _]];
        [|contradiction HR; right; left; exact E].
      destruct Hf as ((G1 & _) & _ & _ & _ & G2 & G3 & _). unfold se_stuck. rewrite F1, F2, F3, F4, G1.
      assert (X1 : rssi d1 <> INT16_MAX). { destruct G3 as [->|[E _]]; [assumption|contradiction HR; left; exact E]. }
      assert (X2 : se_mac_request P (emac (ext d1)) = false).
      { destruct G2 as [->|[x Ex]]; [assumption|]. rewrite Ex in Hc. destruct Hc as (_ & _ & Hc). cbn [drv_x se_driver] in Hc.
        destruct x; cbn [se_x] in Hc.
        - injection Hc as _ <-. exact K6.
        - injection Hc as _ <-. exact K6.
        - contradiction HR. right. right. left. exact Ex.
        - destruct (se_get_mac _); [|discriminate]. cbn [bind] in Hc. inversion Hc; subst. assumption. }
      splits; assumption.
    + destruct (raw_dec e) as [R|R].
      * destruct (raw_unlocked _ _ _ _ _ (se_contract False P) d e d' H R HLk) as (_ & _ & E & _). exact E.
      * exact (proj2 (call_quiet _ _ _ _ d e d' H Ea R)).
Qed.

Lemma se_failed_run : forall P d0 e d1, se_built d0 -> isopen d0 = false -> se_mac_request P (emac (ext d0)) = false ->
  se_step P d0 e d1 -> e_op e = OpRun false -> se_stuck P d1.
Proof.
  intros P d0 e d1 HB Ho Hm Hs Eo.
  pose proof (se_built_fresh _ HB) as HF0. pose proof HF0 as (HA & _ & F1 & F2 & F3 & F4 & F5 & _ & _ & _ & _ & _ & _ & _ & _ & F6 & _).
  clear HB HF0 HA. destruct (se_parts P d0 e d1 false Hs Eo) as (x & Hd & [(_ & _ & ->)|[(R1 & _)|(R1 & _)]]); [rewrite F5; reflexivity| |congruence|congruence].
  rewrite Hd. unfold se_stuck. change (SESerialError = SESerialError /\ rst d0 = REOk /\ wait d0 = None /\ fReset (fl d0) = false /\
    rssi d0 <> INT16_MAX /\ se_mac_request P (emac (ext d0)) = false /\ cst d0 = csNotConnected /\ fLock (fl d0) = false).
  rewrite F5. splits; auto. rewrite F6. discriminate.
Qed.

(** If the first run() could not open the port, the driver sends nothing and
    never connects, even if the port opens later - as long as nobody calls
    resetStates(), requestRSSI() or requestMac() and no line begins with
    "ERROR" or "FAIL". *)
Theorem se_failed_open : forall P d0 e d1 tr d, se_built d0 -> isopen d0 = false -> se_mac_request P (emac (ext d0)) = false ->
  se_step P d0 e d1 -> e_op e = OpRun false ->
  se_hist P d1 tr d -> Forall (fun e => ~ se_rescue e) tr ->
  sst d = SESerialError /\ ip_is_connected d = false /\ Forall (fun e => put (e_ev e) = []) tr.
Proof.
  intros P d0 e d1 tr d HB Ho Hm Hs Eo Hh HF. pose proof (se_failed_run P d0 e d1 HB Ho Hm Hs Eo) as K.
  clear e Hs Eo HB Ho Hm. induction Hh as [|d1 e d2 tr d3 Hs Hh IH].
  - destruct K as (K1 & _ & _ & _ & _ & _ & K7 & _). unfold ip_is_connected. rewrite K7. auto.
  - destruct (se_stuck_step P d1 e d2 Hs K (Forall_inv HF)) as [K2 Hp].
    destruct (IH (Forall_inv_tail HF) K2) as (A & B & C). split; [exact A|]. split; [exact B|]. constructor; [exact Hp|exact C].
Qed.
