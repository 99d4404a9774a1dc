(** More about histories of the SIM800 driver: locking, states, disconnecting,
    a port that does not open. *)
From Coq Require Import String Ascii ZArith List Bool Arith Lia ZifyBool ZifyNat.
From Verif Require Import Base QueueSpec LineSpec SerialSpec Ring RingProofs LineRing LineRingProofs Serial SerialProofs
  SerStep TaskMacros CStr CStrProofs Dev DevProofs SimDev SimProofs SimSpec SimParse SimLog Sym DrvStep DrvCommon DrvRun DrvHist
  Sim800 Sim8Spec Sim8Proofs Sim8Ctl Sim8CtlIn Sim8Run Sim8Hist Sim8Thms.
Import ListNotations.
Local Open Scope nat_scope.
Ltac Zify.zify_post_hook ::= Z.div_mod_to_equations.
Local Notation dv := (dev s8send s8reply simx).
Local Notation ent := (@entry simop).

Lemma s8_cases : forall P d e d', s8_step P d e d' ->
  exists d1, d' = set_io (io d') d1 /\ s8_all (during (e_sch e) d) /\
    ((exists oo, e_op e = OpRun oo /\ rrun (s8_shape P) oo (during (e_sch e) d) (e_acts e) d1) \/
     ((forall oo, e_op e <> OpRun oo) /\ e_acts e = [] /\ ring_delta (s8_shape P) e (during (e_sch e) d) d1 /\
      callrel (s8_driver P) (s8_shape P) (e_op e) (during (e_sch e) d) (e_out e) (e_acts e) d1)).
Proof. intros P d e d' H. exact (step_cases _ _ _ _ _ (s8_contract P) d e d' H). Qed.

(** ** The lock *)
Lemma s8_locked_step : forall P d e d', s8_step P d e d' -> fLock (fl d) = true ->
  e_acts e = [] /\ (~ unlocks e -> fLock (fl d') = true).
Proof.
  intros P d e d' H Hl. destruct (s8_cases P d e d' H) as (d1 & Hd & _ & [(oo & Eo & Hr)|(Hn & Ea & Hr & Hc)]).
  - destruct (locked_run (s8_shape P) oo (during (e_sch e) d) (e_acts e) d1 eq_refl Hl Hr) as [E1 E2]. split; [assumption|]. intros _. rewrite Hd.
    destruct E2 as [->|[->| ->]]; exact Hl.
  - split; [assumption|]. intro Hu. rewrite Hd. change (fLock (fl d1) = true).
    destruct Hr as [(_ & _ & _ & _ & _ & _ & _ & _ & _ & _ & _ & _ & _ & _ & _ & Hf)|[E _]].
    + destruct Hf as (_ & _ & _ & [Hf|[x Hf]] & _); [rewrite Hf; exact Hl|]. rewrite Hf in Hc. destruct Hc as (_ & _ & Hc).
      eapply sim_x_lock; [exact Hc|exact Hl|]. intros ->. apply Hu. left. assumption.
    + contradiction Hu. right. assumption.
Qed.

Theorem s8_locked_history : forall P d tr d', s8_hist P d tr d' -> fLock (fl d) = true -> Forall (fun e => ~ unlocks e) tr ->
  fLock (fl d') = true /\ Forall (fun e => ~ raw_access e -> taken (e_ev e) = [] /\ put (e_ev e) = []) tr.
Proof.
  intros P d tr d' H. induction H as [|d e d1 tr d2 Hs Hh IH]; intros Hl Hu; [auto|]. inversion Hu; subst.
  destruct (s8_locked_step P d e d1 Hs Hl) as [Ha Hk]. destruct (IH (Hk ltac:(assumption)) ltac:(assumption)) as [I1 I2].
  split; [assumption|]. constructor; [|assumption]. exact (call_quiet _ _ _ _ d e d1 Hs Ha).
Qed.

(** serialLock() returns true only if no reply is awaited, and then locks. *)
Theorem s8_lock : forall P d e d', s8_step P d e d' -> e_op e = OpX SerialLock -> e_out e = DBool true ->
  fLock (fl d') = true /\ ~ awaiting r8_ok d.
Proof.
  intros P d e d' H Eo Hout. destruct (s8_cases P d e d' H) as (d1 & Hd & _ & [(oo & Eo' & Hr)|(Hn & Ea & _ & Hc)]); [congruence|].
  rewrite Eo in Hc. destruct Hc as (_ & _ & Hc). cbn [drv_x s8_driver sim_x] in Hc. unfold sim_serial_lock in Hc. rewrite Hout in Hc.
  change (wait (during (e_sch e) d)) with (wait d) in Hc. change (rst (during (e_sch e) d)) with (rst d) in Hc.
  unfold awaiting. destruct (wait d) eqn:Ew; [inversion Hc|]. destruct (r8_ok (rst d)) eqn:Er; inversion Hc. subst d1. rewrite Hd.
  split; [reflexivity|]. intros [X|X]; [apply X; reflexivity|discriminate].
Qed.

(** serialWrite() and serialRead() do nothing unless the port is locked. *)
Theorem s8_unlocked_raw : forall P d e d', s8_step P d e d' -> raw_access e -> fLock (fl d) = false ->
  (e_out e = DCount 0 \/ e_out e = DData [] 0) /\ taken (e_ev e) = [] /\ put (e_ev e) = [] /\ d' = set_io (io d') d.
Proof. intros P d e d' H. exact (raw_unlocked _ _ _ _ _ (s8_contract P) d e d' H). Qed.

(** ** States *)
Lemma s8_parts : forall P d e d' oo, s8_step P d e d' -> e_op e = OpRun oo ->
  exists d1, d' = set_io (io d') d1 /\
  ((e_acts e = [] /\ (isopen d = false \/ fLock (fl d) = true) /\
    (isopen d = false -> d1 = if oo then set_isopen true (during (e_sch e) d) else set_sst S8SerialError (during (e_sch e) d)) /\
    (isopen d = true -> d1 = during (e_sch e) d)) \/
   (isopen d = true /\ fLock (fl d) = false /\
    exists l dp, prerun (s8_shape P) (during (e_sch e) d) l dp /\
      (exists a d2 r, ilab s8_insend (fun _ : dv => whole_line) (fun _ : dv => partial_line) s8_clears dp r d2 a /\ s8_in_ext P dp r a d2 /\
      ((e_acts e = l ++ [a] /\ d1 = d2 /\ r = true) \/ (exists b, e_acts e = l ++ [a; b] /\ olab r8_ok s8_says s8_tail s8_insend true d2 d1 b /\ s8_out_ext d2 b d1))))).
Proof.
  intros P d e d' oo H Eo. destruct (s8_cases P d e d' H) as (d1 & Hd & HA & [(oo' & Eo' & Hr)|(Hn & _)]); [|exfalso; exact (Hn _ Eo)].
  exists d1. split; [exact Hd|]. rewrite Eo in Eo'. inversion Eo'; subst oo'. clear Hd H Eo Eo'.
  inversion Hr as [Ho Eoo E1 E2|Ho Eoo E1 E2|Ho El E1 E2|l x1 (R1 & R2 & R3) Hf Hp E1 E2|l x1 a x2 (R1 & R2 & R3) Hp Hi Hx E1 E2|l x1 a x2 b x3 (R1 & R2 & R3) Hp Hi Hx Hol Hox E1 E2]; subst; cbn [s8_shape sh_lock sh_goon sh_iext sh_oext] in *.
  - left. change (isopen d = false) in Ho. splits; auto. congruence.
  - left. change (isopen d = false) in Ho. splits; auto. congruence.
  - left. change (isopen d = true) in Ho. splits; auto. congruence.
  - discriminate R3.
  - right. split; [exact R1|]. split; [exact (R2 eq_refl)|]. exists l, x1. split; [exact Hp|]. exists a, d1, true. splits; auto.
  - right. split; [exact R1|]. split; [exact (R2 eq_refl)|]. exists l, x1. split; [exact Hp|]. exists a, x2, false. splits; auto. right. exists b. splits; auto.
Qed.

(** A run() performs a pending reset, reads a line (one arrow), then does what
    the state asks for (a second arrow); or the port is not open. *)
Theorem s8_edges : forall P d e d', s8_step P d e d' ->
  match e_op e with
  | OpRun oo =>
      (isopen d = false /\ sst d' = (if oo then sst d else S8SerialError)) \/
      (fLock (fl d) = true /\ sst d' = sst d) \/
      (isopen d = true /\ fLock (fl d) = false /\
       exists s0 s, s0 = (if fReset (fl d) then s8_reset_state (sst d) else sst d) /\
                 (s = s0 \/ In (s0, s) (s8_diagram ++ s8_giveup ++ s8_revival)) /\
                 (sst d' = s \/ In (s, sst d') (s8_diagram ++ s8_undocumented)))
  | OpResetStates => sst d' = S8NotConnected
  | _ => sst d' = sst d
  end.
Proof.
  intros P d e d' H. destruct (s8_cases P d e d' H) as (d1 & Hd & _ & [(oo & Eo & _)|(Hn & Ea & Hr & Hc)]).
  - rewrite Eo. clear d1 Hd. destruct (s8_parts P d e d' oo H Eo) as (d1 & Hd & Hr). rewrite Hd. change (sst (set_io (io d') d1)) with (sst d1). clear Hd H Eo.
    assert (I : forall d1 a d2 r, ilab s8_insend (fun _ => whole_line) (fun _ => partial_line) s8_clears d1 r d2 a -> s8_in_ext P d1 r a d2 ->
       sst d2 = sst d1 \/ In (sst d1, sst d2) (s8_diagram ++ s8_giveup ++ s8_revival)).
    { intros x1 a x2 r _ (_ & Hx). destruct a; try (left; exact (proj1 Hx)). exact (proj1 (proj1 Hx)). }
    destruct Hr as [(_ & HL & H1 & H2)|(R1 & R2 & l & dp & Hp & Hr)].
    + destruct (isopen d); [|left; rewrite H1 by reflexivity; destruct oo; auto]. right. left. rewrite H2 by reflexivity. split; [destruct HL; congruence|reflexivity].
    + right. right. split; [exact R1|]. split; [exact R2|]. exists (sst dp).
      assert (Es : sst dp = if fReset (fl d) then s8_reset_state (sst d) else sst d).
      { destruct Hp as [(F & _ & ->)|(F & q & _ & _ & (G & _))]; change (fl (during (e_sch e) d)) with (fl d) in F; rewrite F; [reflexivity|exact G]. }
      destruct Hr as (a & d2 & r & Hi & Hx & Hr).
      exists (sst d2). split; [exact Es|]. split; [exact (I _ _ _ _ Hi Hx)|]. destruct Hr as [(_ & -> & _)|(b & _ & _ & Hox)]; [left; reflexivity|].
      destruct Hox as (_ & (Hs & _) & _). rewrite in_app_iff. destruct Hs as [Hs|[Hs|Hs]]; auto.
  - rewrite Hd. change (sst (set_io (io d') d1)) with (sst d1).
    destruct Hr as [(R & _ & _ & _ & _ & _ & Es & _)|[E Hr]].
    + destruct (e_op e) eqn:Eo; try exact Es; [exact (False_ind _ (Hn _ eq_refl))|discriminate R].
    + rewrite E. rewrite E in Hc. destruct Hc as (_ & _ & _ & Hc).
      destruct (s8_reset_exact P (during (e_sch e) d) d1) as (y & -> & _); [|exact Hc|reflexivity].
      apply (during_inv _ _ _ _ _ (s8_contract P)). apply H.
Qed.

(** ** Disconnecting *)

(** A recorded request is dropped only by resetStates(), or by beginning to
    close. *)
Theorem s8_disc_kept : forall P d e d', s8_step P d e d' -> fDisc (fl d) = true ->
  fDisc (fl d') = true \/ sst d' = S8SendCipclose \/ sst d' = S8SendCipshut \/ sst d' = S8FinalizeDisconnect \/ e_op e = OpResetStates.
Proof.
  intros P d e d' H HD. destruct (s8_cases P d e d' H) as (d1 & Hd & _ & [(oo & Eo & _)|(Hn & Ea & Hr & Hc)]).
  - clear d1 Hd. destruct (s8_parts P d e d' oo H Eo) as (d1 & Hd & Hr).
    rewrite Hd. change (sst (set_io (io d') d1)) with (sst d1). change (fl (set_io (io d') d1)) with (fl d1). clear Hd H.
    assert (I : forall d1 a d2 r, ilab s8_insend (fun _ => whole_line) (fun _ => partial_line) s8_clears d1 r d2 a -> s8_in_ext P d1 r a d2 ->
       fDisc (fl d2) = fDisc (fl d1) \/ sst d2 = S8SendCipshut).
    { intros x1 a x2 r _ (_ & Hx). destruct a; try (left; destruct Hx as (_ & _ & _ & _ & _ & _ & _ & _ & _ & Hx & _); exact Hx).
      destruct Hx as ((_ & _ & (_ & [Hx|(_ & _ & Hx)] & _) & _) & _); auto. }
    destruct Hr as [(_ & HL & H1 & H2)|(R1 & R2 & l & dp & Hp & Hr)].
    + left. destruct (isopen d); [rewrite H2 by reflexivity; exact HD|]. rewrite H1 by reflexivity. destruct oo; exact HD.
    + assert (Ed : fDisc (fl dp) = true).
      { destruct Hp as [(F & _ & ->)|(F & q & _ & _ & (_ & _ & _ & G & _))]; [exact HD|]. rewrite G. destruct (s8_reconnects _); exact HD. }
      destruct Hr as (a & d2 & r & Hi & Hx & Hr).
      pose proof (I _ _ _ _ Hi Hx) as J. rewrite Ed in J.
      destruct Hr as [(_ & -> & _)|(b & _ & _ & Hox)]; [tauto|]. destruct Hox as (_ & (He & _ & _ & _ & Hs & _) & _).
      destruct J as [J|J]; [specialize (Hs J); tauto|]. rewrite J in He. cbn in He.
      repeat (destruct He as [He|He]; [first [discriminate He | tauto | injection He as He; rewrite <- ?He; tauto]|]); try contradiction.
      all: intuition (try discriminate; try (injection H as H; auto); try congruence).
  - rewrite Hd. change (fl (set_io (io d') d1)) with (fl d1).
    destruct Hr as [(_ & _ & _ & _ & _ & _ & _ & _ & _ & _ & _ & _ & _ & _ & _ & Hf)|[E _]]; [|auto].
    destruct Hf as (_ & [Hf|(_ & Hf & _)] & _); left; [rewrite Hf; exact HD|exact Hf].
Qed.

(** While idle a request to disconnect changes nothing at all. *)
Theorem s8_disc_idle : forall P d e d', s8_step P d e d' -> e_op e = OpDisconnect ->
  fDisc (fl d') = (if ip_is_idle d then fDisc (fl d) else true) /\ fConnect (fl d') = fConnect (fl d) /\ sst d' = sst d.
Proof.
  intros P d e d' H Eo. destruct (s8_cases P d e d' H) as (d1 & Hd & _ & [(oo & Eo' & Hr)|(Hn & Ea & _ & Hc)]); [congruence|].
  rewrite Eo in Hc. destruct Hc as (_ & Hc). cbn [d_call] in Hc. inversion Hc. rewrite Hd. unfold ip_disconnect in *.
  change (ip_is_idle (during (e_sch e) d)) with (ip_is_idle d) in *. destruct (ip_is_idle d); subst; auto.
Qed.

(** ** A port that did not open at once *)
Definition s8_stuck (d : dv) : Prop :=
  sst d = S8SerialError /\ rst d = R8Ok /\ wait d = None /\ fReset (fl d) = false /\ rssi d <> INT16_MAX /\
  nth_error (idbuf (ext d)) 1 = Some (id_code idNone) /\ cst d = csNotConnected.

Definition s8_rescue (e : ent) : Prop :=
  e_op e = OpRequestRSSI \/ e_op e = OpResetStates \/ (exists t, e_op e = OpX (RequestID t)) \/
  exists tk L, In (aLine tk L) (e_acts e) /\ s8_error_line L.

Lemma s8_stuck_line : forall P d ret d' L, s8_stuck d -> ~ s8_error_line L -> s8_handles P d ret d' L -> ret = false /\ s8_stuck d'.
Proof.
  intros P d ret d' L (S1 & S2 & S3 & S4 & S5 & S6 & S7) HE (r & y & Hlen & _ & HI & E).
  unfold s8_parse in E. assert (He : s8_is_error (line_at L r y d) = Ok false).
  { unfold s8_error_line in HE. unfold s8_is_error. rewrite !(lstarts_line L r (line_at L r y d) eq_refl Hlen) by (reflexivity || (cbn; lia)). cbn [bind].
    destruct (prefixb _ L) eqn:E1; [tauto|]. destruct (prefixb (bs "+CME ERROR") L) eqn:E2; [tauto|]. destruct (prefixb (bs "ERROR") L) eqn:E3; [tauto|reflexivity]. }
  rewrite He in E. cbn [bind] in E. unfold s8_standard_reply in E. change (wait (line_at L r y d)) with (wait d) in E. rewrite S3 in E. cbn [bind] in E.
  unfold s8_special_reply in E. change (rst (line_at L r y d)) with (rst d) in E. rewrite S2 in E. cbn [bind] in E.
  change (sst (line_at L r y d)) with (sst d) in E. rewrite S1 in E. cbn [s8_rank Nat.leb] in E. inversion E; subst.
  split; [reflexivity|]. unfold s8_stuck. splits; assumption.
Qed.

Lemma s8_stuck_out : forall d d', serial_wf (ser (io d)) -> s8_stuck d -> s8_output d = Ok d' -> exists y, quiet (io d) y /\ d' = set_io y d.
Proof.
  intros d d' Hw (S1 & S2 & S3 & S4 & S5 & S6 & S8) E. unfold s8_output in E. rewrite S3, S2 in E. cbn [r8_ok negb] in E.
  unfold d_space in E. destruct (s_space_q (io d) Hw) as (y & E1 & Q). rewrite E1 in E. cbn [bind] in E. exists y. split; [exact Q|].
  destruct (_ <? 20); [inversion E; reflexivity|].
  change (rssi (set_io y d)) with (rssi d) in E. destruct (rssi d =? INT16_MAX)%Z eqn:Er; [apply Z.eqb_eq in Er; contradiction|]. cbn [andb] in E.
  unfold sim_send_id in E. change (ext (set_io y d)) with (ext d) in E. unfold rd in E. rewrite S6 in E. cbn [bind] in E.
  destruct (nth_error (idbuf (ext d)) 0) eqn:E0; cbn [bind] in E; [|discriminate].
  replace (aeqb (id_code idNone) (id_code idNone)) with true in E by reflexivity. cbn [negb andb bind] in E.
  unfold s8_machine in E. change (sst (set_io y d)) with (sst d) in E. rewrite S1 in E. inversion E; reflexivity.
Qed.

Lemma s8_stuck_step : forall P d e d', s8_step P d e d' -> s8_stuck d -> ~ s8_rescue e ->
  s8_stuck d' /\ (raw_access e \/ put (e_ev e) = []).
Proof.
  intros P d e d' H HS HR. destruct (s8_cases P d e d' H) as (d1 & Hd & HA & [(oo & Eo & Hr)|(Hn & Ea & Hr & Hc)]).
  - assert (Hput : put (e_ev e) = acts_put (e_acts e)).
    { destruct H as (_ & _ & _ & _ & _ & _ & Hio & _). rewrite Eo in Hio. apply Hio. }
    cut (s8_stuck d1 /\ acts_put (e_acts e) = []).
    { intros [C1 C2]. rewrite Hput, Hd. split; [exact C1|right; exact C2]. }
    clear Hput Hd H.
    assert (HE : forall tk L, In (aLine tk L) (e_acts e) -> ~ s8_error_line L) by (intros tk L Ha Hl; apply HR; right; right; right; eauto).
    assert (I : forall d1 a d2 r, In a (e_acts e) -> s8_stuck d1 -> ilab s8_insend (fun _ => whole_line) (fun _ => partial_line) s8_clears d1 r d2 a -> s8_in_ext P d1 r a d2 ->
       s8_stuck d2 /\ act_put a = []).
    { intros x1 a x2 r Ha K Hi (_ & Hx). split; [|inversion Hi; reflexivity]. destruct a;
        try (destruct K as (K1 & K2 & K3 & K4 & K5 & K6 & K7); destruct Hx as (X1 & X2 & X3 & X4 & X5 & X6 & _ & X7 & _);
             unfold s8_stuck; rewrite X1, X2, X3, X4, X5, X6, X7; splits; assumption).
      destruct Hx as (_ & Hx). exact (proj2 (s8_stuck_line P _ _ _ _ K (HE _ _ Ha) Hx)). }
    assert (O : forall d1 b d2, s8_stuck d1 -> serial_wf (ser (io d1)) -> olab r8_ok s8_says s8_tail s8_insend true d1 d2 b -> s8_out_ext d1 b d2 ->
       s8_stuck d2 /\ act_put b = []).
    { intros x1 b x2 K Hw Ho (_ & _ & Hx). destruct (s8_stuck_out x1 x2 Hw K Hx) as (y & Q & ->). split; [exact K|].
      destruct (olab_io (s8_shape P) _ _ _ Ho) as (ev & S1 & _ & S2 & _). rewrite <- S2.
      apply quiet_ioeff in Q. destruct (ioeff_ev _ _ _ _ Q) as (ev2 & T1 & _ & T2 & _). apply sstep_log in S1, T1.
      cbn [io set_io] in S1. rewrite T1 in S1. apply app_inv_head in S1. subst ev2. exact T2. }
    assert (HSd : s8_stuck (during (e_sch e) d)) by exact HS.
    assert (F0 : fReset (fl (during (e_sch e) d)) = false) by apply HSd.
    inversion Hr as [Ho Eoo E1 E2|Ho Eoo E1 E2|Ho El E1 E2|l x1 (R1 & R2 & R3) Hf Hp E1 E2|l x1 a x2 (R1 & R2 & R3) Hp Hi Hx E1 E2|l x1 a x2 b x3 (R1 & R2 & R3) Hp Hi Hx Hol Hox E1 E2]; cbn [s8_shape sh_lock sh_goon sh_iext sh_oext] in *.
    + split; [exact HSd|reflexivity].
    + split; [|reflexivity]. destruct HSd as (_ & HSd). unfold s8_stuck. split; [reflexivity|exact HSd].
    + split; [subst; exact HSd|reflexivity].
    + congruence.
    + destruct Hp as [(_ & El & Ex)|(F & _)]; [|congruence]. subst l x1 x2. rewrite <- E1 in I.
      destruct (I _ _ _ _ (or_introl eq_refl) HSd Hi Hx) as [J1 J2]. split; [exact J1|]. unfold acts_put. cbn. rewrite J2. reflexivity.
    + destruct Hp as [(_ & El & Ex)|(F & _)]; [|congruence]. subst l x1 x3. rewrite <- E1 in I.
      destruct (I _ _ _ _ (or_introl eq_refl) HSd Hi Hx) as [J1 J2].
      assert (Hw : serial_wf (ser (io x2))) by (destruct Hox as (((Hw & _) & _) & _); exact Hw).
      destruct (O _ _ _ J1 Hw Hol Hox) as [J3 J4]. split; [exact J3|]. unfold acts_put. cbn. rewrite J2, J4. reflexivity.
  - split.
    + rewrite Hd. cut (s8_stuck d1); [intro C; exact C|]. destruct HS as (K1 & K2 & K3 & K4 & K5 & K6 & K7).
      destruct Hr as [(_ & _ & _ & _ & _ & F1 & F2 & F3 & F4 & _ & _ & _ & _ & _ & _ & Hf)|[E _]];
        [|contradiction HR; right; left; exact E].
      destruct Hf as ((G1 & _) & _ & _ & _ & G2 & G3 & _). unfold s8_stuck. rewrite F1, F2, F3, F4, G1.
      assert (X1 : rssi d1 <> INT16_MAX). { destruct G3 as [->|[E _]]; [assumption|contradiction HR; left; exact E]. }
      assert (X2 : nth_error (idbuf (ext d1)) 1 = Some (id_code idNone)).
      { destruct G2 as [->|[x Ex]]; [assumption|]. rewrite Ex in Hc. destruct Hc as (_ & _ & Hc). cbn [drv_x s8_driver] in Hc.
        destruct x; cbn [sim_x] in Hc.
        - inversion Hc; subst. assumption.
        - unfold sim_serial_lock in Hc. destruct (wait _); [inversion Hc; subst; assumption|]. destruct (r8_ok _); inversion Hc; subst; assumption.
        - inversion Hc; subst. assumption.
        - contradiction HR. right. right. left. eauto.
        - destruct (sim_get_id _); [|discriminate]. cbn [bind] in Hc. inversion Hc; subst. assumption. }
      splits; assumption.
    + destruct (raw_dec e) as [R|R]; [left; exact R|]. right. exact (proj2 (call_quiet _ _ _ _ d e d' H Ea R)).
Qed.

Lemma s8_new_id : forall s opened rb wb rl ri rd_ rt, serial_wf s -> length rd_ = 24 ->
  wp False (s8_new s opened rb wb rl ri rd_ rt) (fun d => nth_error (idbuf (ext d)) 0 = Some NUL /\ nth_error (idbuf (ext d)) 1 = Some (id_code idNone)).
Proof.
  intros s opened rb wb rl ri rd_ rt H1 H9. unfold s8_new. apply wp_sim_reset_states; [exact H1|exact H9|].
  intros y ev E1 E2 E3 E4 E5 E6 E7 E8. cbn [ext idbuf set_idbuf d_raw]. destruct rd_ as [|a [|b l]]; try discriminate H9. split; reflexivity.
Qed.

Lemma s8_built_id : forall d0, s8_built d0 -> nth_error (idbuf (ext d0)) 1 = Some (id_code idNone).
Proof.
  intros d0 (s & opened & rb & wb & rl & ri & rd_ & rt & H1 & H2 & H3 & H4 & H5 & H6 & H7 & H8 & H9 & E).
  pose proof (s8_new_id s opened rb wb rl ri rd_ rt H1 H9) as Ht. rewrite E in Ht. exact (proj2 Ht).
Qed.
Lemma s8_built_id0 : forall d0, s8_built d0 -> nth_error (idbuf (ext d0)) 0 = Some NUL.
Proof.
  intros d0 (s & opened & rb & wb & rl & ri & rd_ & rt & H1 & H2 & H3 & H4 & H5 & H6 & H7 & H8 & H9 & E).
  pose proof (s8_new_id s opened rb wb rl ri rd_ rt H1 H9) as Ht. rewrite E in Ht. exact (proj1 Ht).
Qed.

Lemma s8_failed_run : forall P d0 e d1, s8_built d0 -> isopen d0 = false -> s8_step P d0 e d1 -> e_op e = OpRun false -> s8_stuck d1.
Proof.
  intros P d0 e d1 HB Ho Hs Eo.
  pose proof (s8_built_fresh _ HB) as HF0. pose proof HF0 as (HA & _ & F1 & F2 & F3 & F4 & F5 & _ & _ & _ & _ & _ & _ & _ & _ & F6 & _).
  pose proof (s8_built_id _ HB) as Hi. clear HB HF0 HA.
  destruct (s8_cases P d0 e d1 Hs) as (x & Hd & _ & [(oo & Eo' & Hr)|(Hn & _)]); [|exfalso; exact (Hn _ Eo)].
  rewrite Eo in Eo'. inversion Eo'; subst oo. rewrite Hd. cut (s8_stuck x); [intro C; exact C|]. clear Hs Hd Eo Eo'.
  inversion Hr as [Ho' Eoo E1 E2|Ho' Eoo E1 E2|Ho' El E1 E2|l x1 (R1 & R2 & R3) Hf Hp E1 E2|l x1 a x2 (R1 & R2 & R3) Hp Hi' Hx E1 E2|l x1 a x2 b x3 (R1 & R2 & R3) Hp Hi' Hx Hol Hox E1 E2];
    try discriminate; try (change (isopen d0 = true) in R1; congruence); try (change (isopen d0 = true) in Ho'; congruence).
  unfold s8_stuck. change (S8SerialError = S8SerialError /\ rst d0 = R8Ok /\ wait d0 = None /\ fReset (fl d0) = false /\
    rssi d0 <> INT16_MAX /\ nth_error (idbuf (ext d0)) 1 = Some (id_code idNone) /\ cst d0 = csNotConnected).
  rewrite F5. splits; auto. rewrite F6. discriminate.
Qed.

(** If the first run() could not open the port, the driver sends nothing and
    never connects, even if the port opens later - as long as nobody calls
    resetStates(), requestRSSI() or requestIDString(). *)
Theorem s8_failed_open : forall P d0 e d1 tr d, s8_built d0 -> isopen d0 = false -> s8_step P d0 e d1 -> e_op e = OpRun false ->
  s8_hist P d1 tr d -> Forall (fun e => ~ s8_rescue e) tr ->
  sst d = S8SerialError /\ ip_is_connected d = false /\ Forall (fun e => raw_access e \/ put (e_ev e) = []) tr.
Proof.
  intros P d0 e d1 tr d HB Ho Hs Eo Hh HF. pose proof (s8_failed_run P d0 e d1 HB Ho Hs Eo) as K.
  clear e Hs Eo HB Ho. induction Hh as [|d1 e d2 tr d3 Hs Hh IH].
  - destruct K as (K1 & _ & _ & _ & _ & _ & K7). unfold ip_is_connected. rewrite K7. auto.
  - destruct (s8_stuck_step P d1 e d2 Hs K (Forall_inv HF)) as [K2 Hp].
    destruct (IH (Forall_inv_tail HF) K2) as (A & B & C). split; [exact A|]. split; [exact B|]. constructor; [exact Hp|exact C].
Qed.
