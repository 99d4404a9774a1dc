(** Theorems about histories of the CC1352P7 driver. *)
From Coq Require Import String Ascii ZArith List Bool Arith Lia ZifyBool ZifyNat.
From Verif Require Import Base QueueSpec LineSpec SerialSpec Ring RingProofs LineRing LineRingProofs Serial SerialProofs
  SerStep TaskMacros CStr CStrProofs Dev DevProofs SimDev SimProofs SimSpec SimParse SimLog Sym DrvStep DrvCommon DrvRun DrvHist
  Espressif Cc1352 CcSpec CcProofs CcCtl CcCtlIn CcRun CcHist.
Import ListNotations.
Local Open Scope nat_scope.
Ltac Zify.zify_post_hook ::= Z.div_mod_to_equations.
Local Notation dv := (dev ccsend ccreply ccx).
Local Notation ent := (@entry ccop).

(** A driver object just constructed, on a serial port in any state, with
    non-empty buffers of a size the counters can hold. *)
Definition sc_built (d : dv) : Prop :=
  exists s opened rb wb raw_lbuf raw_mac raw_typ,
    serial_wf s /\ fits (rsize (lr (srx s))) /\ fits (rsize (lr (stx s))) /\ rb <> [] /\ wb <> [] /\ fits (length wb) /\
    length raw_lbuf = 61 /\ length raw_mac = 24 /\
    sc_new s opened rb wb raw_lbuf raw_mac raw_typ = Ok d.

(** Calls with valid arguments: pointers to strings, and arrays as long as the
    length passed with them. *)
Definition sc_valid (h : list (dop ccop * list (list isr))) : Prop := Forall (fun p => goodop sc_goodx (fst p)) h.

(** The histories: calls, interrupts, results, port events and actions. *)
Definition sc_hist (P : plat) : dv -> list ent -> dv -> Prop := hist (sc_driver P) (sc_shape P) (sc_all False) sc_goodx.
Definition sc_step (P : plat) : dv -> ent -> dv -> Prop := estep (sc_driver P) (sc_shape P) (sc_all False) sc_goodx.

Lemma sc_built_fresh : forall d, sc_built d -> sc_fresh False d.
Proof.
  intros d (s & o & rb & wb & rl & rm & rt & H1 & H2 & H3 & H4 & H5 & H6 & H7 & H8 & E).
  destruct (sc_new_ok False s o rb wb rl rm rt H1 H2 H3 H4 H5 H6 H7 H8 ltac:(tauto)) as (d' & E' & F & _). congruence.
Qed.

Theorem sc_every_run : forall P d0 h d outs, sc_built d0 -> sc_valid h -> d_run (sc_driver P) d0 h = Ok (d, outs) ->
  exists tr, sc_hist P d0 tr d /\ map (fun e => (e_op e, e_sch e)) tr = h /\ map (fun e => (e_out e, e_ev e)) tr = outs.
Proof.
  intros P d0 h d outs Hb Hv E. apply sc_built_fresh in Hb. destruct Hb as [HI _].
  destruct (run_hist _ _ _ _ _ (sc_contract False P) h d0 d outs HI Hv E) as (tr & A & _ & B & C). exists tr. auto.
Qed.

(** ** Memory safety *)
Lemma d_run_app : forall {SS RS X XO} (D : driver SS RS X XO) h1 h2 d d2 o, d_run D d (h1 ++ h2) = Ok (d2, o) ->
  exists d1 o1 o2, d_run D d h1 = Ok (d1, o1) /\ d_run D d1 h2 = Ok (d2, o2).
Proof.
  intros SS RS X XO D. induction h1 as [|[op sch] h1 IH]; intros h2 d d2 o E; cbn [app d_run] in *.
  - eauto 6.
  - destruct (d_step D op sch d) as [[[out ev] d1]|]; cbn [bind] in *; [|discriminate].
    destruct (d_run D d1 (h1 ++ h2)) as [[d3 o3]|] eqn:E1; cbn [bind] in E; [|discriminate].
    assert (d3 = d2) by congruence. subst d3. destruct (IH _ _ _ _ E1) as (d4 & o4 & o5 & A & B). rewrite A. cbn [bind]. eauto 6.
Qed.

Lemma sc_all_weak : forall (N : Prop) d, sc_all N d -> sc_all False d.
Proof. intros N d (A & B & C & D & E). unfold sc_all. splits; auto. intros []. Qed.

(** The one unsafe call: getMac() while the buffer holds no NUL, which only
    happens if requestMac() was never called. *)
Theorem sc_safe : forall P d0 h u, sc_built d0 -> sc_valid h -> d_run (sc_driver P) d0 h = UB u ->
  exists h1 sch h2 d1 outs, h = h1 ++ (OpX CGetMac, sch) :: h2 /\ d_run (sc_driver P) d0 h1 = Ok (d1, outs) /\
    ~ In NUL (cmac (ext d1)) /\ (forall sch', ~ In (OpX CRequestMac, sch') h1).
Proof.
  intros P d0 h u Hb Hv E. apply sc_built_fresh in Hb. destruct Hb as [HI _].
  destruct (run_safe _ _ _ _ _ (sc_contract False P) h d0 u HI Hv E) as (h1 & o & sch & h2 & d1 & outs & E1 & E2 & I1 & B).
  destruct o as [| | | | | | | | | | | | | | | | | |x]; cbn [sc_may_fail] in B; try contradiction. destruct x; [contradiction|].
  assert (Hn : ~ In NUL (cmac (ext d1))).
  { destruct B as (_ & _ & B). unfold during in B. ddev d1. exact B. }
  exists h1, sch, h2, d1, outs. splits; auto. intros sch' Hin. apply Hn.
  apply in_split in Hin as (ha & hb & Eh). rewrite Eh in E2.
  assert (Hg : sc_valid (ha ++ (OpX CRequestMac, sch') :: hb)).
  { rewrite <- Eh. unfold sc_valid in *. rewrite E1 in Hv. apply Forall_app in Hv. apply Hv. }
  unfold sc_valid in Hg. apply Forall_app in Hg as [Ga Gb]. inversion Gb as [|? ? Gc Gd]. subst.
  destruct (d_run_app _ _ _ _ _ _ E2) as (da & oa & ob & Ea & Eb).
  destruct (run_hist _ _ _ _ _ (sc_contract False P) ha d0 da oa HI Ga Ea) as (_ & _ & Ia & _).
  cbn [d_run] in Eb. pose proof (step_ok _ _ _ _ _ (sc_contract False P) (OpX CRequestMac) sch' da Ia Gc) as Hs.
  destruct (d_step (sc_driver P) (OpX CRequestMac) sch' da) as [[[out ev] db]|] eqn:Es; [|discriminate]. cbn [bind wp fst snd] in *.
  destruct (d_run (sc_driver P) db hb) as [[dc oc]|] eqn:Ec; cbn [bind] in Eb; [|discriminate].
  assert (dc = d1) by congruence. subst dc.
  assert (Ib : sc_all True db).
  { destruct Hs as [l (_ & (A1 & A2 & A3 & A4 & _) & _)]. unfold sc_all. splits; auto. intros _.
    unfold d_step in Es. cbn [d_call drv_x sc_driver sc_x] in Es. unfold sc_request_mac in Es.
    assert (Hcm : length (cmac (ext da)) = 24) by apply Ia.
    ddev da. dsimp. unfold wr in Es. rewrite Hcm in Es. cbn [Nat.ltb Nat.leb bind] in Es. rewrite list_set_length, Hcm in Es. cbn [Nat.ltb Nat.leb bind] in Es.
    dsimp. destruct (run_isrs _ _) as [[s1 ev1]|]; cbn [bind] in Es; [|discriminate].
    match type of Es with Ok (_, _, ?w) = _ => assert (Ew : db = w) by congruence end. subst db. gs.
    destruct (cmac ex0) as [|a [|b cm]]; try discriminate Hcm. left. reflexivity. }
  destruct (run_hist _ _ _ _ _ (sc_contract True P) hb db d1 oc Ib Gd Ec) as (_ & _ & (_ & _ & _ & _ & Id) & _). exact (Id I).
Qed.

(** ** Connected only after the modem confirmed *)
Definition sc_confirm (c : bool) (a : act) : bool :=
  match a with
  | aLine _ L => c || prefixb (bs "OK") L
  | aCommand cmd _ => if prefixb (bs "AT+CIPSTART=") cmd then false else c
  | _ => c
  end.
Definition sc_confirmed (tr : list ent) : bool := fold_left (act_log sc_confirm (fun _ => false)) tr false.

Lemma sc_says_cases : forall P d cmd d', sc_says P d cmd d' ->
  (prefixb (bs "AT+CIPSTART=") cmd = true -> sst d = SCSendCipstart).
Proof.
  intros P d cmd d' H Hp. destruct H as [(_ & -> & _)|[(_ & -> & _)|[(c & Hs & -> & _)|(_ & _ & n & -> & _)]]].
  - discriminate Hp.
  - discriminate Hp.
  - unfold sc_command in Hs. destruct (sst d); inversion Hs; subst; try reflexivity; discriminate Hp.
  - discriminate Hp.
Qed.

Lemma sc_conf_mono : forall (C C' : Prop) d, (C -> C') -> sc_conf C d -> sc_conf C' d.
Proof. intros C C' d H (K1 & K2 & K3 & K4). unfold sc_conf. splits; auto. intro E. destruct (K1 E) as [?|[?|?]]; auto. Qed.

Lemma sc_conf_fields : forall C d d', sst d' = sst d -> wait d' = wait d -> rst d' = rst d -> cst d' = cst d -> fReset (fl d') = fReset (fl d) ->
  sc_conf C d -> sc_conf C d'.
Proof. intros C d d' E1 E2 E3 E4 E5. unfold sc_conf, ip_is_connected. rewrite E1, E2, E3, E4, E5. auto. Qed.

Lemma sc_reset_exact : forall N P d d', sc_all N d -> drv_reset (sc_driver P) d = Ok d' -> exists y, d' = sc_reseted y d /\ rxav y = 0 /\ lring_is (srx (ser y)) [].
Proof.
  intros N P d d' (HI & _) E. cbn [drv_reset sc_driver] in E.
  assert (H : wp False (sc_reset_states d) (fun d' => exists y, d' = sc_reseted y d /\ rxav y = 0 /\ lring_is (srx (ser y)) [])).
  { unfold sc_reset_states. apply wp_reset_states; [apply HI|]. intros y ev E1 E2 E3 E4 E5 E6 E7 E8. exists y. splits; auto. }
  rewrite E in H. exact H.
Qed.

Lemma sc_ictl_conf : forall L d d' (C : Prop), sc_ictl L d d' -> (prefixb sc_opened L = true -> C) -> sc_conf C d -> sc_conf C d'.
Proof. intros L d d' C (_ & _ & _ & H & _). auto. Qed.

Lemma sc_same_conf : forall d d' C, sc_same d d' -> sc_conf C d -> sc_conf C d'.
Proof. intros d d' C (A1 & A2 & A3 & A4 & A5 & A6 & A7 & A8 & _). apply sc_conf_fields; assumption. Qed.

Theorem sc_conf_history : forall P d0 tr d, sc_fresh False d0 -> sc_hist P d0 tr d -> sc_conf (sc_confirmed tr = true) d.
Proof.
  intros P d0 tr d HF Hh. unfold sc_confirmed.
  apply (act_ghost _ _ _ _ _ (sc_contract False P) _ (fun c d => sc_conf (c = true) d) sc_confirm (fun _ => false) (fun _ => True)) with (d := d0); auto.
  - intros a d1 (K1 & K2 & K3 & K4). unfold sc_conf. cbn [sst set_sst sh_error sc_shape sc_rank wait fl rst]. splits; auto.
    + discriminate.
    + intros [?|?]; [lia|auto].
    + lia.
  - intros a d1 q d2 (K1 & K2 & K3 & K4) Hr (_ & _ & _ & _ & _ & _ & _ & Hc & _) (R1 & R2 & R3 & R4 & _). cbn [sc_confirm].
    unfold sc_conf, ip_is_connected in *. rewrite R1, R2, Hc. cbn [sc_rank]; splits; auto; try discriminate.
    all: try (intros [?|?]; [lia|discriminate]). all: lia.
  - intros a d1 r d2 b HK Hl [_ Hx]. destruct b; cbn [sc_confirm]; try exact (sc_same_conf _ _ _ Hx HK); try (inversion Hl; fail).
    destruct Hx as [Hx _]. eapply sc_ictl_conf; [exact Hx|intro E; unfold sc_opened in E; rewrite E; apply orb_true_r|].
    revert HK. apply sc_conf_mono. intros ->. reflexivity.
  - intros e a d1 d2 b _ HK Hl (_ & Hx & _).
    assert (HG : sc_conf (a = true) d2) by (destruct Hx as (_ & _ & _ & _ & _ & _ & _ & Hx & _); auto).
    destruct Hl; cbn [sc_confirm]; auto. destruct (prefixb _ cmd) eqn:Ep; [|exact HG].
    apply (sc_conf_mono False); [intros []|].
    destruct Hx as (_ & _ & _ & _ & _ & _ & _ & _ & _ & _ & _ & Hx).
    apply (Hx ltac:(eapply (sc_says_cases P); [match goal with H : sh_says _ _ _ _ |- _ => exact H end|assumption])) with (C := a = true); [|exact HK].
    match goal with H : ~ awaiting _ _ |- _ => revert H end. clear. unfold awaiting, sc_shape, sh_ok. intro H.
    destruct (rst d1) eqn:E; auto; contradiction H; right; reflexivity.
  - intros e a d1 d2 _ _ HK _ _ _ Hf E1 E2 E3 E4. revert HK. apply sc_conf_fields; auto. apply Hf.
  - intros a d1 d2 HI _ _ E. destruct (sc_reset_exact _ P d1 d2 HI E) as (y & -> & _). unfold sc_conf. cbn. splits; try discriminate; auto.
    all: try (intros [?|?]; [lia|discriminate]).
  - apply Forall_forall. auto.
  - destruct HF as (_ & _ & F1 & F2 & F3 & F4 & _). unfold sc_conf, ip_is_connected. rewrite F1, F2, F4. cbn. splits; try discriminate; auto.
    all: try (intros [?|?]; [lia|discriminate]).
Qed.

Theorem sc_connected_confirmed : forall P d0 tr d, sc_built d0 -> sc_hist P d0 tr d -> ip_is_connected d = true -> sc_confirmed tr = true.
Proof. intros P d0 tr d Hb Hh Hc. apply sc_built_fresh in Hb. apply (sc_conf_history P d0 tr d Hb Hh). exact Hc. Qed.

(** ** Commands and replies stay paired *)

(** What begins the line that ends the reply to a command. *)
Definition sc_expects (cmd : bytes) : bytes := if prefixb (bs "AT+CIPRECVDATA=") cmd then bs "+CIPRECVDATA" else bs "OK".
(** The lines that end it in place: errors. *)
Definition sc_answers (s L : bytes) : bool := prefixb s L || prefixb (bs "ERROR") L || prefixb (bs "SEND FAIL") L.
(** What is awaited; [None]: something was sent although a reply was awaited. *)
Definition sc_pair (o : option (option bytes)) (a : act) : option (option bytes) :=
  match o with
  | None => None
  | Some w =>
      match a with
      | aCommand cmd _ => match w with None => Some (Some (sc_expects cmd)) | Some _ => None end
      | aAnnounce _ _ => match w with None => Some (Some (bs ">")) | Some _ => None end
      | aPayload _ => match w with None => Some (Some (bs "OK")) | Some _ => None end
      | aReceive _ => match w with None => Some (Some (bs "OK")) | Some _ => None end
      | aReset _ => Some None
      | aLine _ L => match w with Some x => if sc_answers x L then Some None else o | None => o end
      | _ => o
      end
  end.
Definition sc_awaited (tr : list ent) : option (option bytes) :=
  fold_left (act_log sc_pair (fun o => match o with None => None | Some _ => Some None end)) tr (Some None).

Definition sc_waiting (o : option (option bytes)) (d : dv) : Prop :=
  exists w, o = Some w /\ (forall s, w = Some s -> wait d = Some s \/ (s = bs "+CIPRECVDATA" /\ rst d = RCParseCiprecvdata)).

Lemma sc_waiting_fields : forall o d d', wait d' = wait d -> rst d' = rst d -> sc_waiting o d -> sc_waiting o d'.
Proof. intros o d d' E1 E2. unfold sc_waiting. rewrite E1, E2. auto. Qed.

Lemma sc_says_expects : forall P d cmd d', sc_says P d cmd d' ->
  wait d' = Some (sc_expects cmd) \/ (sc_expects cmd = bs "+CIPRECVDATA" /\ rst d' = RCParseCiprecvdata).
Proof.
  intros P d cmd d' H. destruct H as [(_ & -> & (_ & E1 & E2))|[(_ & -> & (_ & E1 & E2))|[(c & Hs & -> & (_ & E1 & E2))|(_ & (_ & _ & E2) & n & -> & _)]]].
  - left. exact E1.
  - left. exact E1.
  - left. unfold sc_command in Hs. destruct (sst d); try discriminate Hs; injection Hs as <-; try destruct (_ =? _)%Z; exact E1.
  - right. split; [reflexivity|exact E2].
Qed.

(** After a payload, sent or received, the driver waits for "OK". *)
Lemma sc_output_after : forall P (U : Prop) d, sc_inv d ->
  (sst d = SCSendCipstart -> not_str (host d) -> U) ->
  wp U (sc_output P d) (fun d' => (sst d = SCSendDataState -> sst d' <> SCSendDataState -> wait d' = Some (bs "OK") /\ rst d' = RCOk) /\
    ((0 < toRead d)%Z -> toRead d' = 0%Z -> wait d' = Some (bs "OK") /\ rst d' = RCOk)).
Proof.
  intros P U d H HU. unfold sc_output. destruct (wait d) eqn:Ew.
  { cbn [wp]. split; [congruence|lia]. }
  destruct (rst d) eqn:Er; cbn [rc_ok negb wp].
  all: try (split; [congruence|lia]).
  open_inv d H. subst. syms.
  all: try (match goal with |- wp _ (sc_machine _) _ =>
       unfold sc_machine, at_handle_connect, at_handle_disconnect; gs; destruct ss0; gs; syms end).
  all: try (apply HU; [reflexivity | unfold not_str; congruence]).
  all: clear Hwf Hr Ht Hrw Hrs Hww Hws Hwf2 Hl Hw Hpo Hcm HU; cases; gs.
  all: split; first [discriminate | (intros; congruence) | (intros; lia) | (intros _ _; split; reflexivity)].
Qed.

Theorem sc_pair_history : forall P d0 tr d, sc_fresh False d0 -> sc_hist P d0 tr d -> sc_waiting (sc_awaited tr) d.
Proof.
  intros P d0 tr d HF Hh. unfold sc_awaited.
  assert (KT : forall (d : dv) s, wait d = Some s -> sc_waiting (Some (Some s)) d).
  { intros d1 s E. eexists. split; [reflexivity|]. intros s' E'. assert (s = s') by congruence. subst. left. exact E. }
  assert (KN : forall d : dv, sc_waiting (Some None) d) by (intro d1; eexists; split; [reflexivity|]; discriminate).
  apply (act_ghost _ _ _ _ _ (sc_contract False P) _ sc_waiting sc_pair _ (fun _ => True)) with (d := d0); auto.
  - intros a d1 q d2 (w & -> & _) _ _ (_ & R2 & R3 & _). apply KN.
  - intros a d1 r d2 b HK Hl [_ Hx]. destruct Hl.
    + destruct a; exact (sc_waiting_fields _ _ _ ltac:(eassumption) ltac:(eassumption) HK).
    + destruct a; exact (sc_waiting_fields _ _ _ ltac:(eassumption) ltac:(eassumption) HK).
    + destruct HK as (w & -> & K2). destruct Hx as [(_ & _ & _ & _ & _ & _ & _ & _ & _ & _ & _ & _ & X1 & X2) Hx].
      match goal with H : wait d2 = _ \/ _ |- _ => rename H into Hw end.
      cbn [sc_pair]. destruct w as [s|]; [|apply KN].
      destruct (sc_answers s L) eqn:Ea; [apply KN|].
      exists (Some s). split; [reflexivity|]. intros s' E. assert (s = s') by congruence. subst s'.
      unfold sc_answers in Ea. apply orb_false_elim in Ea as [Ea Ea3]. apply orb_false_elim in Ea as [Ea1 Ea2].
      destruct (K2 s eq_refl) as [K4|[-> K4]].
      * left. destruct Hw as [-> | [_ Hc]]; [assumption|]. exfalso. cbn [sh_clears sc_shape] in Hc.
        destruct Hc as [(w' & Hw' & Hc)|[Hc|[_ Hc]]]; congruence.
      * right. split; [reflexivity|]. destruct (X1 K4) as [X|X]; [assumption|congruence].
  - intros e a d1 d2 b _ (w & -> & K2) Hl (I1 & _ & Eo).
    assert (Haf : (sst d1 = SCSendDataState -> sst d2 <> SCSendDataState -> wait d2 = Some (bs "OK") /\ rst d2 = RCOk) /\
      ((0 < toRead d1)%Z -> toRead d2 = 0%Z -> wait d2 = Some (bs "OK") /\ rst d2 = RCOk)).
    { pose proof (sc_output_after P True d1 I1 ltac:(auto)) as Hq. rewrite Eo in Hq. exact Hq. }
    destruct Haf as [Hsent Hrecv].
    assert (NW : ~ awaiting rc_ok d1 -> w = None).
    { intro Hn. destruct w as [s|]; [|reflexivity]; exfalso; apply Hn; unfold awaiting.
      destruct (K2 s eq_refl) as [->|[_ ->]]; [left; discriminate|right; reflexivity]. }
    destruct Hl; cbn [sc_pair].
    + apply (sc_waiting_fields _ d1); [assumption..|]. exists w. splits; auto.
    + match goal with H : sh_says _ _ _ _ |- _ => pose proof (sc_says_expects _ _ _ _ H) as S1 end.
      rewrite NW by assumption. eexists. split; [reflexivity|]. intros s E. assert (s = sc_expects cmd) by congruence. subst s. exact S1.
    + rewrite NW by assumption. apply KT. assumption.
    + rewrite NW by assumption. apply KT.
      assert (X1 : sst d1 = SCSendDataState) by (match goal with H : sh_insend _ (sst d1) = true |- _ => cbn in H; destruct (sst d1); try discriminate; reflexivity end).
      assert (X2 : sst d2 <> SCSendDataState) by (match goal with H : sh_insend _ (sst d2) = false |- _ => cbn in H; intro X; rewrite X in H; discriminate end).
      apply (Hsent X1 X2).
    + rewrite NW by assumption. apply KT. apply Hrecv; assumption.
  - intros e a d1 d2 _ _ HK _ _ _ _ _ E2 E3 _. exact (sc_waiting_fields _ _ _ E3 E2 HK).
  - intros a d1 d2 HI (w & -> & _) _ E. apply KN.
  - apply Forall_forall. auto.
Qed.
