(** More about histories of the CC1352P7 driver: locking, states, disconnecting,
    a port that does not open. *)
From Coq Require Import String Ascii ZArith List Bool Arith Lia ZifyBool ZifyNat.
From Verif Require Import Base QueueSpec LineSpec SerialSpec Ring RingProofs LineRing LineRingProofs Serial SerialProofs
  SerStep TaskMacros CStr CStrProofs Dev DevProofs SimDev SimProofs SimSpec SimParse SimLog Sym DrvStep DrvCommon DrvRun DrvHist
  Espressif Cc1352 CcSpec CcProofs CcCtl CcCtlIn CcRun AtLine CcHist CcThms.
Import ListNotations.
Local Open Scope nat_scope.
Ltac Zify.zify_post_hook ::= Z.div_mod_to_equations.
Local Notation dv := (dev ccsend ccreply ccx).
Local Notation ent := (@entry ccop).

Lemma sc_cases : forall P d e d', sc_step P d e d' ->
  exists d1, d' = set_io (io d') d1 /\ sc_all False (during (e_sch e) d) /\
    ((exists oo, e_op e = OpRun oo /\ rrun (sc_shape P) oo (during (e_sch e) d) (e_acts e) d1) \/
     ((forall oo, e_op e <> OpRun oo) /\ e_acts e = [] /\ ring_delta (sc_shape P) e (during (e_sch e) d) d1 /\
      callrel (sc_driver P) (sc_shape P) (e_op e) (during (e_sch e) d) (e_out e) (e_acts e) d1)).
Proof. intros P d e d' H. exact (step_cases _ _ _ _ _ (sc_contract False P) d e d' H). Qed.

(** ** The lock: there is none *)

(** No call of this driver locks the port, so serialWrite() and serialRead()
    never do anything. *)
Lemma sc_lock_step : forall P d e d', sc_step P d e d' -> fLock (fl d) = false -> fLock (fl d') = false.
Proof.
  intros P d e d' H Hl. destruct (sc_cases P d e d' H) as (d1 & Hd & HA & [(oo & Eo & Hr)|(Hn & Ea & Hr & Hc)]); rewrite Hd; change (fLock (fl d1) = false).
  - clear Hd H. assert (Hl' : fLock (fl (during (e_sch e) d)) = false) by exact Hl.
    assert (HP : forall l x, prerun (sc_shape P) (during (e_sch e) d) l x -> fLock (fl x) = false).
    { intros l x [(_ & _ & ->)|(_ & q & _ & _ & (_ & _ & _ & G & _))]; [exact Hl'|]. rewrite G. destruct (sc_reconnects _); exact Hl'. }
    assert (HI : forall x1 a x2 r, sc_in_ext P x1 r a x2 -> fLock (fl x1) = false -> fLock (fl x2) = false).
    { intros x1 a x2 r [_ Hx] E. destruct a as [q|tk|tk1 tk2|tk L| |cmd q|n q|q|tk]; unfold sc_same, sc_ictl in Hx; intuition congruence. }
    inversion Hr as [Ho Eoo E1 E2|Ho Eoo E1 E2|Ho El E1 E2|l x1 HR Hf Hp E1 E2|l x1 a x2 HR Hp Hi Hx E1 E2|l x1 a x2 b x3 HR Hp Hi Hx Hol Hox E1 E2]; subst; cbn [sc_shape sh_iext sh_oext] in *.
    + exact Hl'.
    + exact Hl'.
    + exact Hl'.
    + eauto.
    + eauto.
    + destruct Hox as (_ & (_ & _ & _ & _ & _ & _ & E & _) & _). rewrite E. eauto.
  - destruct Hr as [(_ & _ & _ & _ & _ & _ & _ & _ & _ & _ & _ & _ & _ & _ & _ & Hf)|[E Hr]].
    + destruct Hf as (_ & _ & _ & [Hf|[x Hf]] & _); [rewrite Hf; exact Hl|]. rewrite Hf in Hc. destruct Hc as (_ & _ & Hc).
      cbn [drv_x sc_driver] in Hc. destruct x; cbn [sc_x] in Hc.
      * unfold sc_request_mac in Hc. destruct (wr _ 0 _) as [b1|]; [|discriminate]. cbn [bind] in Hc. destruct (wr b1 1 _) as [b2|]; [|discriminate]. cbn [bind] in Hc. injection Hc as _ <-. exact Hl.
      * destruct (sc_get_mac _); [|discriminate]. cbn [bind] in Hc. injection Hc as _ <-. exact Hl.
    + rewrite E in Hc. destruct Hc as (_ & _ & _ & Hc).
      destruct (sc_reset_exact False P (during (e_sch e) d) d1) as (y & -> & _); [|exact Hc|reflexivity]. exact HA.
Qed.

Theorem sc_unlocked : forall P d0 tr d, sc_built d0 -> sc_hist P d0 tr d -> fLock (fl d) = false.
Proof.
  intros P d0 tr d HB Hh. assert (F : fLock (fl d0) = false).
  { destruct (sc_built_fresh _ HB) as (_ & _ & _ & _ & _ & _ & -> & _). reflexivity. }
  clear HB. induction Hh as [|d e d1 tr d2 Hs Hh IH]; [exact F|]. apply IH. exact (sc_lock_step P d e d1 Hs F).
Qed.

Theorem sc_unlocked_raw : forall P d0 tr d e d', sc_built d0 -> sc_hist P d0 tr d -> sc_step P d e d' -> raw_access e ->
  (e_out e = DCount 0 \/ e_out e = DData [] 0) /\ taken (e_ev e) = [] /\ put (e_ev e) = [] /\ d' = set_io (io d') d.
Proof.
  intros P d0 tr d e d' HB Hh H Hr. exact (raw_unlocked _ _ _ _ _ (sc_contract False P) d e d' H Hr (sc_unlocked P d0 tr d HB Hh)).
Qed.

(** ** States *)
Lemma sc_parts : forall P d e d' oo, sc_step P d e d' -> e_op e = OpRun oo -> fLock (fl d) = false ->
  exists d1, d' = set_io (io d') d1 /\
  ((e_acts e = [] /\ isopen d = false /\
    d1 = if oo then set_isopen true (during (e_sch e) d) else set_sst SCSerialError (during (e_sch e) d)) \/
   (isopen d = true /\
    exists l dp, prerun (sc_shape P) (during (e_sch e) d) l dp /\
      (exists a d2 r, ilab sc_insend (fun _ : dv => whole_line) (fun _ : dv => partial_line) sc_clears dp r d2 a /\ sc_in_ext P dp r a d2 /\
      ((e_acts e = l ++ [a] /\ d1 = d2 /\ r = true) \/ (exists b, e_acts e = l ++ [a; b] /\ olab rc_ok (sc_says P) sc_tail sc_insend false d2 d1 b /\ sc_out_ext P d2 b d1))))).
Proof.
  intros P d e d' oo H Eo HL. destruct (sc_cases P d e d' H) as (d1 & Hd & HA & [(oo' & Eo' & Hr)|(Hn & _)]); [|exfalso; exact (Hn _ Eo)].
  exists d1. split; [exact Hd|]. rewrite Eo in Eo'. inversion Eo'; subst oo'. clear Hd H Eo Eo'.
  inversion Hr as [Ho Eoo E1 E2|Ho Eoo E1 E2|Ho El E1 E2|l x1 (R1 & R2 & R3) Hf Hp E1 E2|l x1 a x2 (R1 & R2 & R3) Hp Hi Hx E1 E2|l x1 a x2 b x3 (R1 & R2 & R3) Hp Hi Hx Hol Hox E1 E2]; subst; cbn [sc_shape sh_lock sh_goon sh_iext sh_oext] in *.
  - left. change (isopen d = false) in Ho. splits; auto.
  - left. change (isopen d = false) in Ho. splits; auto.
  - exfalso. change (fLock (fl d) = true) in El. congruence.
  - discriminate R3.
  - right. split; [exact R1|]. exists l, x1. split; [exact Hp|]. exists a, d1, true. splits; auto.
  - right. split; [exact R1|]. exists l, x1. split; [exact Hp|]. exists a, x2, false. splits; auto. right. exists b. splits; auto.
Qed.

(** A run() performs a pending reset, reads a line (one arrow), then does what
    the state asks for (a second arrow); or the port is not open. *)
Theorem sc_edges : forall P d e d', sc_step P d e d' -> fLock (fl d) = false ->
  match e_op e with
  | OpRun oo =>
      (isopen d = false /\ sst d' = (if oo then sst d else SCSerialError)) \/
      (isopen d = true /\
       exists s0 s, s0 = (if fReset (fl d) then SCSendCipclose else sst d) /\
                 (s = s0 \/ In (s0, s) (sc_diagram ++ sc_revival)) /\
                 (sst d' = s \/ In (s, sst d') (sc_diagram ++ sc_undocumented)))
  | OpResetStates => sst d' = SCNotConnected
  | _ => sst d' = sst d
  end.
Proof.
  intros P d e d' H HL. destruct (sc_cases P d e d' H) as (d1 & Hd & HA & [(oo & Eo & _)|(Hn & Ea & Hr & Hc)]).
  - rewrite Eo. clear d1 Hd. destruct (sc_parts P d e d' oo H Eo HL) as (d1 & Hd & Hr). rewrite Hd. change (sst (set_io (io d') d1)) with (sst d1). clear Hd H Eo.
    assert (I : forall d1 a d2 r, ilab sc_insend (fun _ => whole_line) (fun _ => partial_line) sc_clears d1 r d2 a -> sc_in_ext P d1 r a d2 ->
       sst d2 = sst d1 \/ In (sst d1, sst d2) (sc_diagram ++ sc_revival)).
    { intros x1 a x2 r _ (_ & Hx). destruct a; try (left; exact (proj1 Hx)). exact (proj1 (proj1 Hx)). }
    destruct Hr as [(_ & Ho & ->)|(R1 & l & dp & Hp & Hr)].
    + left. split; [exact Ho|]. destruct oo; auto.
    + right. split; [exact R1|]. exists (sst dp).
      assert (Es : sst dp = if fReset (fl d) then SCSendCipclose else sst d).
      { destruct Hp as [(F & _ & ->)|(F & q & _ & _ & (G & _))]; change (fl (during (e_sch e) d)) with (fl d) in F; rewrite F; [reflexivity|exact G]. }
      destruct Hr as (a & d2 & r & Hi & Hx & Hr).
      exists (sst d2). split; [exact Es|]. split; [exact (I _ _ _ _ Hi Hx)|]. destruct Hr as [(_ & -> & _)|(b & _ & _ & Hox)]; [left; reflexivity|].
      destruct Hox as (_ & (Hs & _) & _). rewrite in_app_iff. destruct Hs as [Hs|[Hs|Hs]]; auto.
  - rewrite Hd. change (sst (set_io (io d') d1)) with (sst d1).
    destruct Hr as [(R & _ & _ & _ & _ & _ & Es & _)|[E Hr]].
    + destruct (e_op e) eqn:Eo; try exact Es; [exact (False_ind _ (Hn _ eq_refl))|discriminate R].
    + rewrite E. rewrite E in Hc. destruct Hc as (_ & _ & _ & Hc).
      destruct (sc_reset_exact False P (during (e_sch e) d) d1) as (y & -> & _); [|exact Hc|reflexivity]. exact HA.
Qed.

(** ** Disconnecting *)

(** A recorded request is dropped only by resetStates(), or by beginning to
    close. *)
Theorem sc_disc_kept : forall P d e d', sc_step P d e d' -> fLock (fl d) = false -> fDisc (fl d) = true ->
  fDisc (fl d') = true \/ sst d' = SCSendCipclose \/ sst d' = SCFinalizeDisconnect \/ e_op e = OpResetStates.
Proof.
  intros P d e d' H HL HD. destruct (sc_cases P d e d' H) as (d1 & Hd & _ & [(oo & Eo & _)|(Hn & Ea & Hr & Hc)]).
  - clear d1 Hd. destruct (sc_parts P d e d' oo H Eo HL) as (d1 & Hd & Hr).
    rewrite Hd. change (sst (set_io (io d') d1)) with (sst d1). change (fl (set_io (io d') d1)) with (fl d1). clear Hd H.
    assert (I : forall d1 a d2 r, sc_in_ext P d1 r a d2 -> fDisc (fl d2) = fDisc (fl d1)).
    { intros x1 a x2 r (_ & Hx). destruct a; unfold sc_same, sc_ictl in Hx; tauto. }
    destruct Hr as [(_ & Ho & ->)|(R1 & l & dp & Hp & Hr)].
    + left. destruct oo; exact HD.
    + assert (Ed : fDisc (fl dp) = true).
      { destruct Hp as [(F & _ & ->)|(F & q & _ & _ & (_ & _ & _ & G & _))]; [exact HD|]. rewrite G. destruct (sc_reconnects _); exact HD. }
      destruct Hr as (a & d2 & r & Hi & Hx & Hr).
      pose proof (I _ _ _ _ Hx) as J. rewrite Ed in J.
      destruct Hr as [(_ & -> & _)|(b & _ & _ & Hox)]; [tauto|]. destruct Hox as (_ & (_ & _ & _ & Hs & _) & _).
      specialize (Hs J). tauto.
  - rewrite Hd. change (fl (set_io (io d') d1)) with (fl d1).
    destruct Hr as [(_ & _ & _ & _ & _ & _ & _ & _ & _ & _ & _ & _ & _ & _ & _ & Hf)|[E _]]; [|auto].
    destruct Hf as (_ & [Hf|(_ & Hf & _)] & _); left; [rewrite Hf; exact HD|exact Hf].
Qed.

(** While idle a request to disconnect changes nothing at all. *)
Theorem sc_disc_idle : forall P d e d', sc_step P d e d' -> e_op e = OpDisconnect ->
  fDisc (fl d') = (if ip_is_idle d then fDisc (fl d) else true) /\ fConnect (fl d') = fConnect (fl d) /\ sst d' = sst d.
Proof.
  intros P d e d' H Eo. destruct (sc_cases P d e d' H) as (d1 & Hd & _ & [(oo & Eo' & Hr)|(Hn & Ea & _ & Hc)]); [congruence|].
  rewrite Eo in Hc. destruct Hc as (_ & Hc). cbn [d_call] in Hc. inversion Hc. rewrite Hd. unfold ip_disconnect in *.
  change (ip_is_idle (during (e_sch e) d)) with (ip_is_idle d) in *. destruct (ip_is_idle d); subst; auto.
Qed.

(** ** A port that did not open at once *)
Definition sc_stuck (P : plat) (d : dv) : Prop :=
  sst d = SCSerialError /\ rst d = RCOk /\ wait d = None /\ fReset (fl d) = false /\ rssi d <> INT16_MAX /\
  mac_request P (cmac (ext d)) = false /\ cst d = csNotConnected /\ fLock (fl d) = false.

Definition sc_rescue (e : ent) : Prop :=
  e_op e = OpRequestRSSI \/ e_op e = OpResetStates \/ e_op e = OpX CRequestMac \/
  exists tk L, In (aLine tk L) (e_acts e) /\ prefixb (bs "ERROR") L = true.

Lemma sc_stuck_line : forall P d ret d' L, sc_stuck P d -> prefixb (bs "ERROR") L = false -> sc_handles P d ret d' L -> ret = false /\ sc_stuck P d'.
Proof.
  intros P d ret d' L (S1 & S2 & S3 & S4 & S5 & S6 & S7 & S8) HE (r & y & Hlen & _ & HI & E).
  unfold sc_parse in E. assert (He : sc_is_error (line_at L r y d) = Ok false).
  { unfold sc_is_error. rewrite !(lstarts_at L r (line_at L r y d) eq_refl Hlen) by (reflexivity || (cbn; lia)). cbn [bind].
    rewrite HE. change (sst (line_at L r y d)) with (sst d). rewrite S1. reflexivity. }
  rewrite He in E. cbn [bind] in E. unfold sc_standard_reply in E. change (wait (line_at L r y d)) with (wait d) in E. rewrite S3 in E. cbn [bind] in E.
  unfold sc_special_reply in E. change (rst (line_at L r y d)) with (rst d) in E. rewrite S2 in E. cbn [bind] in E.
  change (sst (line_at L r y d)) with (sst d) in E. rewrite S1 in E. cbn [sc_rank Nat.leb] in E. inversion E; subst.
  split; [reflexivity|]. unfold sc_stuck. splits; assumption.
Qed.

Lemma sc_stuck_out : forall P d d', sc_inv d -> sc_stuck P d -> sc_output P d = Ok d' -> exists y, quiet (io d) y /\ d' = set_io y d.
Proof.
  intros P d d' HI (S1 & S2 & S3 & S4 & S5 & S6 & S7 & S8) E. unfold sc_output in E. rewrite S3, S2 in E. cbn [rc_ok negb] in E.
  pose proof HI as ((Hw & _) & Hcm).
  unfold d_space in E. destruct (s_space_q (io d) Hw) as (y & E1 & Q). rewrite E1 in E. cbn [bind] in E. exists y. split; [exact Q|].
  destruct (_ <? 20); [inversion E; reflexivity|].
  change (rssi (set_io y d)) with (rssi d) in E. destruct (rssi d =? INT16_MAX)%Z eqn:Er; [apply Z.eqb_eq in Er; contradiction|]. cbn [andb] in E.
  unfold sc_send_mac in E. change (ext (set_io y d)) with (ext d) in E. change (fl (set_io y d)) with (fl d) in E.
  unfold mac_request in S6. destruct (cmac (ext d)) as [|c0 [|c1 cm]]; try discriminate Hcm. cbn [rd nth_error bind] in E.
  assert (Hc : char_is_ff P c1 && aeqb c0 NUL && fLine (fl d) = false).
  { unfold char_is_ff, aeqb. destruct (Ascii.eqb c0 NUL); cbn [andb] in *; [|rewrite andb_false_r; reflexivity].
    destruct (char_signed P); cbn [negb andb] in *; [reflexivity|]. rewrite S6. reflexivity. }
  unfold rd in E. cbn [nth_error bind] in E. rewrite Hc in E. cbn [bind] in E.
  unfold sc_machine in E. change (sst (set_io y d)) with (sst d) in E. rewrite S1 in E. inversion E; reflexivity.
Qed.

Lemma sc_stuck_step : forall P d e d', sc_step P d e d' -> sc_stuck P d -> ~ sc_rescue e -> sc_stuck P d' /\ put (e_ev e) = [].
Proof.
  intros P d e d' H HS HR.
  assert (HLk : fLock (fl d) = false) by apply HS. assert (HF : fReset (fl d) = false) by apply HS.
  destruct (sc_cases P d e d' H) as (d1 & Hd & HA & [(oo & Eo & _)|(Hn & Ea & Hr & Hc)]).
  - assert (Hput : put (e_ev e) = acts_put (e_acts e)).
    { destruct H as (_ & _ & _ & _ & _ & _ & Hio & _). rewrite Eo in Hio. apply Hio. }
    clear d1 Hd. destruct (sc_parts P d e d' oo H Eo HLk) as (d1 & Hd & Hr).
    cut (sc_stuck P d1 /\ acts_put (e_acts e) = []).
    { intros [C1 C2]. rewrite Hput, Hd. split; [exact C1|exact C2]. }
    clear Hput Hd H.
    assert (HE : forall tk L, In (aLine tk L) (e_acts e) -> prefixb (bs "ERROR") L = false).
    { intros tk L Ha. destruct (prefixb _ L) eqn:E; [|reflexivity]. contradiction HR. right. right. right. eauto. }
    assert (I : forall d1 a d2 r, In a (e_acts e) -> sc_stuck P d1 -> ilab sc_insend (fun _ => whole_line) (fun _ => partial_line) sc_clears d1 r d2 a -> sc_in_ext P d1 r a d2 ->
       sc_stuck P d2 /\ act_put a = []).
    { intros x1 a x2 r Ha K Hi (_ & Hx). split; [|inversion Hi; reflexivity]. destruct a;
        try (destruct K as (K1 & K2 & K3 & K4 & K5 & K6 & K7 & K8); destruct Hx as (X1 & X2 & X3 & X4 & X5 & X6 & _ & X7 & _ & _ & _ & X8);
             unfold sc_stuck; rewrite X1, X2, X3, X4, X5, X6, X7, X8; splits; assumption).
      destruct Hx as (_ & Hx). exact (proj2 (sc_stuck_line P _ _ _ _ K (HE _ _ Ha) Hx)). }
    assert (O : forall d1 b d2, sc_stuck P d1 -> olab rc_ok (sc_says P) sc_tail sc_insend false d1 d2 b -> sc_out_ext P d1 b d2 ->
       sc_stuck P d2 /\ act_put b = []).
    { intros x1 b x2 K Ho (Hw & _ & Hx). destruct (sc_stuck_out P x1 x2 Hw K Hx) as (y & Q & ->). split; [exact K|].
      destruct (olab_io (sc_shape P) _ _ _ Ho) as (ev & S1 & _ & S2 & _). rewrite <- S2.
      apply quiet_ioeff in Q. destruct (ioeff_ev _ _ _ _ Q) as (ev2 & T1 & _ & T2 & _). apply sstep_log in S1, T1.
      cbn [io set_io] in S1. rewrite T1 in S1. apply app_inv_head in S1. subst ev2. exact T2. }
    assert (HSd : sc_stuck P (during (e_sch e) d)) by exact HS.
    destruct Hr as [(Ea & Ho & ->)|(R1 & l & dp & Hp & Hr)].
    + rewrite Ea. split; [|reflexivity]. destruct oo; [exact HSd|]. destruct HSd as (_ & HSd). unfold sc_stuck. split; [reflexivity|exact HSd].
    + destruct Hp as [(_ & -> & ->)|(F & _)]; [|change (fReset (fl d) = true) in F; congruence].
      destruct Hr as (a & d2 & r & Hi & Hx & Hr). cbn [app] in Hr.
      assert (Hin : In a (e_acts e)) by (destruct Hr as [(-> & _)|(b & -> & _)]; left; reflexivity).
      destruct (I _ _ _ _ Hin HSd Hi Hx) as [J1 J2].
      destruct Hr as [(-> & -> & _)|(b & -> & Hol & Hox)].
      * split; [exact J1|]. unfold acts_put. cbn. rewrite J2. reflexivity.
      * destruct (O _ _ _ J1 Hol Hox) as [J3 J4]. split; [exact J3|]. unfold acts_put. cbn. rewrite J2, J4. reflexivity.
  - split.
    + pose proof (sc_lock_step P d e d' H HLk) as HL'.
      rewrite Hd in HL'. rewrite Hd. cut (sc_stuck P d1); [intro C; exact C|]. destruct HS as (K1 & K2 & K3 & K4 & K5 & K6 & K7 & K8).
      destruct Hr as [(_ & _ & _ & _ & _ & F1 & F2 & F3 & F4 & _ & _ & _ & _ & _ & _ & Hf)|[E _]];
        [|contradiction HR; right; left; exact E].
      destruct Hf as ((G1 & _) & _ & _ & _ & G2 & G3 & _). unfold sc_stuck. rewrite F1, F2, F3, F4, G1.
      assert (X1 : rssi d1 <> INT16_MAX). { destruct G3 as [->|[E _]]; [assumption|contradiction HR; left; exact E]. }
      assert (X2 : mac_request P (cmac (ext d1)) = false).
      { destruct G2 as [->|[x Ex]]; [assumption|]. rewrite Ex in Hc. destruct Hc as (_ & _ & Hc). cbn [drv_x sc_driver] in Hc.
        destruct x; cbn [sc_x] in Hc.
        - contradiction HR. right. right. left. exact Ex.
        - destruct (sc_get_mac _); [|discriminate]. cbn [bind] in Hc. inversion Hc; subst. assumption. }
      splits; assumption.
    + destruct (raw_dec e) as [R|R].
      * destruct (raw_unlocked _ _ _ _ _ (sc_contract False P) d e d' H R HLk) as (_ & _ & E & _). exact E.
      * exact (proj2 (call_quiet _ _ _ _ d e d' H Ea R)).
Qed.

Lemma sc_failed_run : forall P d0 e d1, sc_built d0 -> isopen d0 = false -> mac_request P (cmac (ext d0)) = false ->
  sc_step P d0 e d1 -> e_op e = OpRun false -> sc_stuck P d1.
Proof.
  intros P d0 e d1 HB Ho Hm Hs Eo.
  pose proof (sc_built_fresh _ HB) as HF0. pose proof HF0 as (HA & _ & F1 & F2 & F3 & F4 & F5 & _ & _ & _ & _ & _ & _ & _ & _ & F6 & _).
  clear HB HF0 HA. destruct (sc_parts P d0 e d1 false Hs Eo) as (x & Hd & [(_ & _ & ->)|(R1 & _)]); [rewrite F5; reflexivity| |congruence].
  rewrite Hd. unfold sc_stuck. change (SCSerialError = SCSerialError /\ rst d0 = RCOk /\ wait d0 = None /\ fReset (fl d0) = false /\
    rssi d0 <> INT16_MAX /\ mac_request P (cmac (ext d0)) = false /\ cst d0 = csNotConnected /\ fLock (fl d0) = false).
  rewrite F5. splits; auto. rewrite F6. discriminate.
Qed.

(** If the first run() could not open the port, the driver sends nothing and
    never connects, even if the port opens later - as long as nobody calls
    resetStates(), requestRSSI() or requestMac() and no line begins with
    "ERROR". *)
Theorem sc_failed_open : forall P d0 e d1 tr d, sc_built d0 -> isopen d0 = false -> mac_request P (cmac (ext d0)) = false ->
  sc_step P d0 e d1 -> e_op e = OpRun false ->
  sc_hist P d1 tr d -> Forall (fun e => ~ sc_rescue e) tr ->
  sst d = SCSerialError /\ ip_is_connected d = false /\ Forall (fun e => put (e_ev e) = []) tr.
Proof.
  intros P d0 e d1 tr d HB Ho Hm Hs Eo Hh HF. pose proof (sc_failed_run P d0 e d1 HB Ho Hm Hs Eo) as K.
  clear e Hs Eo HB Ho Hm. induction Hh as [|d1 e d2 tr d3 Hs Hh IH].
  - destruct K as (K1 & _ & _ & _ & _ & _ & K7 & _). unfold ip_is_connected. rewrite K7. auto.
  - destruct (sc_stuck_step P d1 e d2 Hs K (Forall_inv HF)) as [K2 Hp].
    destruct (IH (Forall_inv_tail HF) K2) as (A & B & C). split; [exact A|]. split; [exact B|]. constructor; [exact Hp|exact C].
Qed.
