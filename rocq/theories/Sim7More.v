(** More about histories of the SIM7x00 driver: locking, states, disconnecting,
    a port that does not open. *)
From Coq Require Import String Ascii ZArith List Bool Arith Lia ZifyBool ZifyNat.
From Verif Require Import Base QueueSpec LineSpec SerialSpec Ring RingProofs LineRing LineRingProofs Serial SerialProofs
  SerStep TaskMacros CStr CStrProofs Dev DevProofs SimDev SimProofs SimSpec SimParse SimLog Sym DrvStep DrvCommon DrvRun DrvHist
  Sim7x00 Sim7Spec Sim7Proofs Sim7Ctl Sim7CtlIn Sim7Run Sim7Hist Sim7Thms.
Import ListNotations.
Local Open Scope nat_scope.
Ltac Zify.zify_post_hook ::= Z.div_mod_to_equations.
Local Notation dv := (dev s7send s7reply simx).
Local Notation ent := (@entry simop).

Lemma s7_cases : forall P d e d', s7_step P d e d' ->
  exists d1, d' = set_io (io d') d1 /\ s7_all (during (e_sch e) d) /\
    ((exists oo, e_op e = OpRun oo /\ rrun (s7_shape P) oo (during (e_sch e) d) (e_acts e) d1) \/
     ((forall oo, e_op e <> OpRun oo) /\ e_acts e = [] /\ ring_delta (s7_shape P) e (during (e_sch e) d) d1 /\
      callrel (s7_driver P) (s7_shape P) (e_op e) (during (e_sch e) d) (e_out e) (e_acts e) d1)).
Proof. intros P d e d' H. exact (step_cases _ _ _ _ _ (s7_contract P) d e d' H). Qed.

(** ** The lock *)
Lemma s7_locked_step : forall P d e d', s7_step P d e d' -> fLock (fl d) = true ->
  e_acts e = [] /\ (~ unlocks e -> fLock (fl d') = true).
Proof.
  intros P d e d' H Hl. destruct (s7_cases P d e d' H) as (d1 & Hd & _ & [(oo & Eo & Hr)|(Hn & Ea & Hr & Hc)]).
  - destruct (locked_run (s7_shape P) oo (during (e_sch e) d) (e_acts e) d1 eq_refl Hl Hr) as [E1 E2]. split; [assumption|]. intros _. rewrite Hd.
    destruct E2 as [->|[->| ->]]; exact Hl.
  - split; [assumption|]. intro Hu. rewrite Hd. change (fLock (fl d1) = true).
    destruct Hr as [(_ & _ & _ & _ & _ & _ & _ & _ & _ & _ & _ & _ & _ & _ & _ & Hf)|[E _]].
    + destruct Hf as (_ & _ & _ & [Hf|[x Hf]] & _); [rewrite Hf; exact Hl|]. rewrite Hf in Hc. destruct Hc as (_ & _ & Hc).
      eapply sim_x_lock; [exact Hc|exact Hl|]. intros ->. apply Hu. left. assumption.
    + contradiction Hu. right. assumption.
Qed.

Theorem s7_locked_history : forall P d tr d', s7_hist P d tr d' -> fLock (fl d) = true -> Forall (fun e => ~ unlocks e) tr ->
  fLock (fl d') = true /\ Forall (fun e => ~ raw_access e -> taken (e_ev e) = [] /\ put (e_ev e) = []) tr.
Proof.
  intros P d tr d' H. induction H as [|d e d1 tr d2 Hs Hh IH]; intros Hl Hu; [auto|]. inversion Hu; subst.
  destruct (s7_locked_step P d e d1 Hs Hl) as [Ha Hk]. destruct (IH (Hk ltac:(assumption)) ltac:(assumption)) as [I1 I2].
  split; [assumption|]. constructor; [|assumption]. exact (call_quiet _ _ _ _ d e d1 Hs Ha).
Qed.

(** serialLock() returns true only if no reply is awaited, and then locks. *)
Theorem s7_lock : forall P d e d', s7_step P d e d' -> e_op e = OpX SerialLock -> e_out e = DBool true ->
  fLock (fl d') = true /\ ~ awaiting r7_ok d.
Proof.
  intros P d e d' H Eo Hout. destruct (s7_cases P d e d' H) as (d1 & Hd & _ & [(oo & Eo' & Hr)|(Hn & Ea & _ & Hc)]); [congruence|].
  rewrite Eo in Hc. destruct Hc as (_ & _ & Hc). cbn [drv_x s7_driver sim_x] in Hc. unfold sim_serial_lock in Hc. rewrite Hout in Hc.
  change (wait (during (e_sch e) d)) with (wait d) in Hc. change (rst (during (e_sch e) d)) with (rst d) in Hc.
  unfold awaiting. destruct (wait d) eqn:Ew; [inversion Hc|]. destruct (r7_ok (rst d)) eqn:Er; inversion Hc. subst d1. rewrite Hd.
  split; [reflexivity|]. intros [X|X]; [apply X; reflexivity|discriminate].
Qed.

(** serialWrite() and serialRead() do nothing unless the port is locked. *)
Theorem s7_unlocked_raw : forall P d e d', s7_step P d e d' -> raw_access e -> fLock (fl d) = false ->
  (e_out e = DCount 0 \/ e_out e = DData [] 0) /\ taken (e_ev e) = [] /\ put (e_ev e) = [] /\ d' = set_io (io d') d.
Proof. intros P d e d' H. exact (raw_unlocked _ _ _ _ _ (s7_contract P) d e d' H). Qed.

(** ** States *)
Definition s7_reset_state (s : s7send) : s7send :=
  if (3 <=? s7_rank s) && (s7_rank s <=? 17) then S7Connecting else S7NotConnected.

(** A run() reads a line (one arrow), then does what the state asks for (a
    second arrow); or it performs a pending reset; or the port is not open. *)
Theorem s7_edges : forall P d e d', s7_step P d e d' ->
  match e_op e with
  | OpRun oo =>
      (isopen d = false /\ sst d' = (if oo then sst d else S7SerialError)) \/
      (fLock (fl d) = true /\ sst d' = sst d) \/
      (fReset (fl d) = true /\ sst d' = s7_reset_state (sst d)) \/
      (isopen d = true /\ fLock (fl d) = false /\ fReset (fl d) = false /\
       exists s, (s = sst d \/ In (sst d, s) (s7_diagram ++ s7_retry ++ s7_revival)) /\
                 (sst d' = s \/ In (s, sst d') (s7_diagram ++ s7_undocumented)))
  | OpResetStates => sst d' = S7NotConnected
  | _ => sst d' = sst d
  end.
Proof.
  intros P d e d' H. destruct (s7_cases P d e d' H) as (d1 & Hd & _ & [(oo & Eo & Hr)|(Hn & Ea & Hr & Hc)]).
  - rewrite Eo. rewrite Hd. change (sst (set_io (io d') d1)) with (sst d1). clear Hd H.
    assert (I : forall d1 a d2 r, ilab s7_insend (fun _ => whole_line) (fun _ => partial_line) s7_clears d1 r d2 a -> s7_in_ext P d1 r a d2 ->
       sst d2 = sst d1 \/ In (sst d1, sst d2) (s7_diagram ++ s7_retry ++ s7_revival)).
    { intros x1 a x2 r _ (_ & Hx). destruct a; try (left; exact (proj1 Hx)). exact (proj1 (proj1 Hx)). }
    inversion Hr as [Ho Eoo|Ho Eoo|Ho El|l x1 (R1 & R2 & R3) Hf Hp|l x1 a x2 (R1 & R2 & R3) Hp Hi Hx|l x1 a x2 b x3 (R1 & R2 & R3) Hp Hi Hx Hol Hox]; subst; cbn [s7_shape sh_lock sh_goon sh_iext sh_oext] in *.
    + left. split; [exact Ho|reflexivity].
    + left. split; [exact Ho|reflexivity].
    + right. left. split; [exact El|reflexivity].
    + right. right. left. destruct Hp as [(F & _)|(F & q & _ & _ & (G & _))]; [congruence|]. split; [exact F|exact G].
    + right. right. right. destruct Hp as [(F & -> & ->)|(F & q & -> & _)]; [|discriminate (R3 eq_refl)].
      split; [exact R1|]. split; [exact (R2 eq_refl)|]. split; [exact F|]. exists (sst d1). split; [|left; reflexivity]. exact (I _ _ _ _ Hi Hx).
    + right. right. right. destruct Hp as [(F & -> & ->)|(F & q & -> & _)]; [|discriminate (R3 eq_refl)].
      split; [exact R1|]. split; [exact (R2 eq_refl)|]. split; [exact F|]. exists (sst x2). split; [exact (I _ _ _ _ Hi Hx)|].
      destruct Hox as (_ & (Hs & _) & _). rewrite in_app_iff. destruct Hs as [Hs|[Hs|Hs]]; auto.
  - rewrite Hd. change (sst (set_io (io d') d1)) with (sst d1).
    destruct Hr as [(R & _ & _ & _ & _ & _ & Es & _)|[E Hr]].
    + destruct (e_op e) eqn:Eo; try exact Es; [exact (False_ind _ (Hn _ eq_refl))|discriminate R].
    + rewrite E. rewrite E in Hc. destruct Hc as (_ & _ & _ & Hc).
      destruct (s7_reset_exact P (during (e_sch e) d) d1) as (y & -> & _); [|exact Hc|reflexivity].
      apply (during_inv _ _ _ _ _ (s7_contract P)). apply H.
Qed.

(** ** Disconnecting *)

(** A recorded request is dropped only by a reset, by resetStates(), or by
    beginning to close. *)
Theorem s7_disc_kept : forall P d e d', s7_step P d e d' -> fDisc (fl d) = true ->
  fDisc (fl d') = true \/ sst d' = S7SendNetclose \/ sst d' = S7FinalizeDisconnect \/
  (exists oo q, e_op e = OpRun oo /\ e_acts e = [aReset q]) \/ e_op e = OpResetStates.
Proof.
  intros P d e d' H HD. destruct (s7_cases P d e d' H) as (d1 & Hd & _ & [(oo & Eo & Hr)|(Hn & Ea & Hr & Hc)]).
  - rewrite Hd. change (sst (set_io (io d') d1)) with (sst d1). change (fl (set_io (io d') d1)) with (fl d1). clear Hd H.
    assert (I : forall d1 a d2 r, ilab s7_insend (fun _ => whole_line) (fun _ => partial_line) s7_clears d1 r d2 a -> s7_in_ext P d1 r a d2 ->
       fDisc (fl d2) = fDisc (fl d1)).
    { intros x1 a x2 r _ (_ & Hx). destruct a; try (destruct Hx as (_ & _ & _ & _ & _ & _ & _ & _ & _ & Hx & _); exact Hx). destruct Hx as ((_ & _ & (_ & Hx & _) & _) & _). exact Hx. }
    inversion Hr as [Ho Eoo E1 E2|Ho Eoo E1 E2|Ho El E1 E2|l x1 (R1 & R2 & R3) Hf Hp E1 E2|l x1 a x2 (R1 & R2 & R3) Hp Hi Hx E1 E2|l x1 a x2 b x3 (R1 & R2 & R3) Hp Hi Hx Hol Hox E1 E2]; subst; cbn [s7_shape sh_lock sh_goon sh_iext sh_oext] in *; auto.
    + right. right. right. left. destruct Hp as [(F & _)|(F & q & E & _)]; [congruence|]. exists oo, q. rewrite Eo, E. auto.
    + destruct Hp as [(F & -> & ->)|(F & q & -> & _)]; [|discriminate (R3 eq_refl)].
      left. rewrite (I _ _ _ _ Hi Hx). exact HD.
    + destruct Hp as [(F & -> & ->)|(F & q & -> & _)]; [|discriminate (R3 eq_refl)].
      pose proof (I _ _ _ _ Hi Hx) as J. destruct Hox as (_ & (_ & _ & _ & _ & Hs & _) & _).
      destruct Hs as [Hs|[Hs|Hs]]; auto. rewrite J. exact HD.
  - rewrite Hd. change (fl (set_io (io d') d1)) with (fl d1).
    destruct Hr as [(_ & _ & _ & _ & _ & _ & _ & _ & _ & _ & _ & _ & _ & _ & _ & Hf)|[E _]]; [|auto].
    destruct Hf as (_ & [Hf|(_ & Hf & _)] & _); left; [rewrite Hf; exact HD|exact Hf].
Qed.

(** While idle a request to disconnect changes nothing at all. *)
Theorem s7_disc_idle : forall P d e d', s7_step P d e d' -> e_op e = OpDisconnect ->
  fDisc (fl d') = (if ip_is_idle d then fDisc (fl d) else true) /\ fConnect (fl d') = fConnect (fl d) /\ sst d' = sst d.
Proof.
  intros P d e d' H Eo. destruct (s7_cases P d e d' H) as (d1 & Hd & _ & [(oo & Eo' & Hr)|(Hn & Ea & _ & Hc)]); [congruence|].
  rewrite Eo in Hc. destruct Hc as (_ & Hc). cbn [d_call] in Hc. inversion Hc. rewrite Hd. unfold ip_disconnect in *.
  change (ip_is_idle (during (e_sch e) d)) with (ip_is_idle d) in *. destruct (ip_is_idle d); subst; auto.
Qed.

(** ** A port that did not open at once *)
Definition s7_stuck (d : dv) : Prop :=
  sst d = S7SerialError /\ rst d = R7Ok /\ wait d = None /\ fReset (fl d) = false /\ rssi d <> INT16_MAX /\
  nth_error (idbuf (ext d)) 1 = Some (id_code idNone) /\ cst d = csNotConnected.

Definition s7_rescue (e : ent) : Prop :=
  e_op e = OpRequestRSSI \/ e_op e = OpResetStates \/ exists t, e_op e = OpX (RequestID t).

Lemma s7_stuck_line : forall P d ret d' L, s7_stuck d -> s7_handles P d ret d' L -> ret = false /\ s7_stuck d'.
Proof.
  intros P d ret d' L (S1 & S2 & S3 & S4 & S5 & S6 & S7) (r & y & _ & _ & _ & E).
  unfold s7_parse, s7_standard_reply in E. change (wait (line_at L r y d)) with (wait d) in E. rewrite S3 in E. cbn [bind] in E.
  unfold s7_special_reply in E. change (rst (line_at L r y d)) with (rst d) in E. rewrite S2 in E. cbn [bind] in E.
  change (sst (line_at L r y d)) with (sst d) in E. rewrite S1 in E. cbn [s7_rank Nat.leb] in E. inversion E; subst.
  split; [reflexivity|]. unfold s7_stuck. splits; assumption.
Qed.

Lemma s7_stuck_out : forall d d', serial_wf (ser (io d)) -> s7_stuck d -> s7_output d = Ok d' -> exists y, quiet (io d) y /\ d' = set_io y d.
Proof.
  intros d d' Hw (S1 & S2 & S3 & S4 & S5 & S6 & S7) E. unfold s7_output in E. rewrite S3, S2 in E. cbn [r7_ok negb] in E.
  unfold d_space in E. destruct (s_space_q (io d) Hw) as (y & E1 & Q). rewrite E1 in E. cbn [bind] in E. exists y. split; [exact Q|].
  destruct (_ <? 20); [inversion E; reflexivity|].
  change (rssi (set_io y d)) with (rssi d) in E. destruct (rssi d =? INT16_MAX)%Z eqn:Er; [apply Z.eqb_eq in Er; contradiction|]. cbn [andb] in E.
  unfold sim_send_id in E. change (ext (set_io y d)) with (ext d) in E. unfold rd in E. rewrite S6 in E. cbn [bind] in E.
  destruct (nth_error (idbuf (ext d)) 0) eqn:E0; cbn [bind] in E; [|discriminate].
  replace (aeqb (id_code idNone) (id_code idNone)) with true in E by reflexivity. cbn [negb andb bind] in E.
  unfold s7_machine in E. change (sst (set_io y d)) with (sst d) in E. rewrite S1 in E. inversion E; reflexivity.
Qed.

Lemma s7_stuck_step : forall P d e d', s7_step P d e d' -> s7_stuck d -> ~ s7_rescue e ->
  s7_stuck d' /\ (raw_access e \/ put (e_ev e) = []).
Proof.
  intros P d e d' H HS HR. destruct (s7_cases P d e d' H) as (d1 & Hd & HA & [(oo & Eo & Hr)|(Hn & Ea & Hr & Hc)]).
  - assert (Hput : put (e_ev e) = acts_put (e_acts e)).
    { destruct H as (_ & _ & _ & _ & _ & _ & Hio & _). rewrite Eo in Hio. apply Hio. }
    cut (s7_stuck d1 /\ acts_put (e_acts e) = []).
    { intros [C1 C2]. rewrite Hput, Hd. split; [exact C1|right; exact C2]. }
    clear Hput Hd H.
    assert (I : forall d1 a d2 r, s7_stuck d1 -> ilab s7_insend (fun _ => whole_line) (fun _ => partial_line) s7_clears d1 r d2 a -> s7_in_ext P d1 r a d2 ->
       s7_stuck d2 /\ act_put a = []).
    { intros x1 a x2 r K Hi (_ & Hx). split; [|inversion Hi; reflexivity]. destruct a;
        try (destruct K as (K1 & K2 & K3 & K4 & K5 & K6 & K7); destruct Hx as (X1 & X2 & X3 & X4 & X5 & X6 & _ & X7 & _);
             unfold s7_stuck; rewrite X1, X2, X3, X4, X5, X6, X7; splits; assumption).
      destruct Hx as (_ & Hx). exact (proj2 (s7_stuck_line P _ _ _ _ K Hx)). }
    assert (O : forall d1 b d2, s7_stuck d1 -> serial_wf (ser (io d1)) -> olab r7_ok s7_says s7_tail s7_insend true d1 d2 b -> s7_out_ext d1 b d2 ->
       s7_stuck d2 /\ act_put b = []).
    { intros x1 b x2 K Hw Ho (_ & _ & Hx). destruct (s7_stuck_out x1 x2 Hw K Hx) as (y & Q & ->). split; [exact K|].
      destruct (olab_io (s7_shape P) _ _ _ Ho) as (ev & S1 & _ & S2 & _). rewrite <- S2.
      apply quiet_ioeff in Q. destruct (ioeff_ev _ _ _ _ Q) as (ev2 & T1 & _ & T2 & _). apply sstep_log in S1, T1.
      cbn [io set_io] in S1. rewrite T1 in S1. apply app_inv_head in S1. subst ev2. exact T2. }
    inversion Hr as [Ho Eoo E1 E2|Ho Eoo E1 E2|Ho El E1 E2|l x1 (R1 & R2 & R3) Hf Hp E1 E2|l x1 a x2 (R1 & R2 & R3) Hp Hi Hx E1 E2|l x1 a x2 b x3 (R1 & R2 & R3) Hp Hi Hx Hol Hox E1 E2]; subst; cbn [s7_shape sh_lock sh_goon sh_iext sh_oext] in *.
    + split; [exact HS|reflexivity].
    + split; [|reflexivity]. destruct HS as (_ & HS). split; [reflexivity|exact HS].
    + split; [exact HS|reflexivity].
    + destruct HS as (_ & _ & _ & F & _). change (fReset (fl d) = true) in Hf. congruence.
    + destruct Hp as [(F & -> & ->)|(F & q & -> & _)]; [|discriminate (R3 eq_refl)].
      destruct (I (during (e_sch e) d) _ _ _ HS Hi Hx) as [J1 J2]. split; [exact J1|]. unfold acts_put. cbn. rewrite J2. reflexivity.
    + destruct Hp as [(F & -> & ->)|(F & q & -> & _)]; [|discriminate (R3 eq_refl)].
      destruct (I (during (e_sch e) d) _ _ _ HS Hi Hx) as [J1 J2].
      assert (Hw : serial_wf (ser (io x2))) by (destruct Hox as (((Hw & _) & _) & _); exact Hw).
      destruct (O _ _ _ J1 Hw Hol Hox) as [J3 J4]. split; [exact J3|]. unfold acts_put. cbn. rewrite J2, J4. reflexivity.
  - split.
    + rewrite Hd. cut (s7_stuck d1); [intro C; exact C|]. destruct HS as (K1 & K2 & K3 & K4 & K5 & K6 & K7).
      destruct Hr as [(_ & _ & _ & _ & _ & F1 & F2 & F3 & F4 & _ & _ & _ & _ & _ & _ & Hf)|[E _]];
        [|contradiction HR; right; left; exact E].
      destruct Hf as ((G1 & _) & _ & _ & _ & G2 & G3 & _). unfold s7_stuck. rewrite F1, F2, F3, F4, G1.
      assert (X1 : rssi d1 <> INT16_MAX). { destruct G3 as [->|[E _]]; [assumption|contradiction HR; left; exact E]. }
      assert (X2 : nth_error (idbuf (ext d1)) 1 = Some (id_code idNone)).
      { destruct G2 as [->|[x Ex]]; [assumption|]. rewrite Ex in Hc. destruct Hc as (_ & _ & Hc). cbn [drv_x s7_driver] in Hc.
        destruct x; cbn [sim_x] in Hc.
        - inversion Hc; subst. assumption.
        - unfold sim_serial_lock in Hc. destruct (wait _); [inversion Hc; subst; assumption|]. destruct (r7_ok _); inversion Hc; subst; assumption.
        - inversion Hc; subst. assumption.
        - contradiction HR. right. right. eauto.
        - destruct (sim_get_id _); [|discriminate]. cbn [bind] in Hc. inversion Hc; subst. assumption. }
      splits; assumption.
    + destruct (raw_dec e) as [R|R]; [left; exact R|]. right. exact (proj2 (call_quiet _ _ _ _ d e d' H Ea R)).
Qed.

Lemma s7_new_id : forall s opened rb wb rl ri rd_ rt, serial_wf s -> length rd_ = 24 ->
  wp False (s7_new s opened rb wb rl ri rd_ rt) (fun d => nth_error (idbuf (ext d)) 0 = Some NUL /\ nth_error (idbuf (ext d)) 1 = Some (id_code idNone)).
Proof.
  intros s opened rb wb rl ri rd_ rt H1 H9. unfold s7_new. apply wp_sim_reset_states; [exact H1|exact H9|].
  intros y ev E1 E2 E3 E4 E5 E6 E7 E8. cbn [ext idbuf set_idbuf d_raw]. destruct rd_ as [|a [|b l]]; try discriminate H9. split; reflexivity.
Qed.

Lemma s7_built_id : forall d0, s7_built d0 -> nth_error (idbuf (ext d0)) 1 = Some (id_code idNone).
Proof.
  intros d0 (s & opened & rb & wb & rl & ri & rd_ & rt & H1 & H2 & H3 & H4 & H5 & H6 & H7 & H8 & H9 & E).
  pose proof (s7_new_id s opened rb wb rl ri rd_ rt H1 H9) as Ht. rewrite E in Ht. exact (proj2 Ht).
Qed.
Lemma s7_built_id0 : forall d0, s7_built d0 -> nth_error (idbuf (ext d0)) 0 = Some NUL.
Proof.
  intros d0 (s & opened & rb & wb & rl & ri & rd_ & rt & H1 & H2 & H3 & H4 & H5 & H6 & H7 & H8 & H9 & E).
  pose proof (s7_new_id s opened rb wb rl ri rd_ rt H1 H9) as Ht. rewrite E in Ht. exact (proj1 Ht).
Qed.

Lemma s7_failed_run : forall P d0 e d1, s7_built d0 -> isopen d0 = false -> s7_step P d0 e d1 -> e_op e = OpRun false -> s7_stuck d1.
Proof.
  intros P d0 e d1 HB Ho Hs Eo.
  pose proof (s7_built_fresh _ HB) as HF0. pose proof HF0 as (HA & _ & F1 & F2 & F3 & F4 & F5 & _ & _ & _ & _ & _ & _ & _ & _ & F6 & _).
  pose proof (s7_built_id _ HB) as Hi. clear HB HF0 HA.
  destruct (s7_cases P d0 e d1 Hs) as (x & Hd & _ & [(oo & Eo' & Hr)|(Hn & _)]); [|exfalso; exact (Hn _ Eo)].
  rewrite Eo in Eo'. inversion Eo'; subst oo. rewrite Hd. cut (s7_stuck x); [intro C; exact C|]. clear Hs Hd Eo Eo'.
  inversion Hr as [Ho' Eoo E1 E2|Ho' Eoo E1 E2|Ho' El E1 E2|l x1 (R1 & R2 & R3) Hf Hp E1 E2|l x1 a x2 (R1 & R2 & R3) Hp Hi' Hx E1 E2|l x1 a x2 b x3 (R1 & R2 & R3) Hp Hi' Hx Hol Hox E1 E2];
    try discriminate; try (change (isopen d0 = true) in R1; congruence); try (change (isopen d0 = true) in Ho'; congruence).
  unfold s7_stuck. change (S7SerialError = S7SerialError /\ rst d0 = R7Ok /\ wait d0 = None /\ fReset (fl d0) = false /\
    rssi d0 <> INT16_MAX /\ nth_error (idbuf (ext d0)) 1 = Some (id_code idNone) /\ cst d0 = csNotConnected).
  rewrite F5. splits; auto. rewrite F6. discriminate.
Qed.

(** If the first run() could not open the port, the driver sends nothing and
    never connects, even if the port opens later - as long as nobody calls
    resetStates(), requestRSSI() or requestIDString(). *)
Theorem s7_failed_open : forall P d0 e d1 tr d, s7_built d0 -> isopen d0 = false -> s7_step P d0 e d1 -> e_op e = OpRun false ->
  s7_hist P d1 tr d -> Forall (fun e => ~ s7_rescue e) tr ->
  sst d = S7SerialError /\ ip_is_connected d = false /\ Forall (fun e => raw_access e \/ put (e_ev e) = []) tr.
Proof.
  intros P d0 e d1 tr d HB Ho Hs Eo Hh HF. pose proof (s7_failed_run P d0 e d1 HB Ho Hs Eo) as K.
  clear e Hs Eo HB Ho. induction Hh as [|d1 e d2 tr d3 Hs Hh IH].
  - destruct K as (K1 & _ & _ & _ & _ & _ & K7). unfold ip_is_connected. rewrite K7. auto.
  - destruct (s7_stuck_step P d1 e d2 Hs K (Forall_inv HF)) as [K2 Hp].
    destruct (IH (Forall_inv_tail HF) K2) as (A & B & C). split; [exact A|]. split; [exact B|]. constructor; [exact Hp|exact C].
Qed.
