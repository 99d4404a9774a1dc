(** The SIM800 driver sends what was written if the modem answers. *)
From Coq Require Import String Ascii ZArith List Bool Arith Lia ZifyBool ZifyNat.
From Verif Require Import Base QueueSpec LineSpec SerialSpec Ring RingProofs LineRing LineRingProofs Serial SerialProofs
  SerStep TaskMacros CStr CStrProofs Dev DevProofs SimDev SimProofs SimSpec SimParse SimLog Sym DrvStep DrvCommon DrvRun DrvHist DrvActs DrvStuck DrvHand SimHand DrvSend
  Sim800 Sim8Spec Sim8Proofs Sim8Ctl Sim8CtlIn Sim8Run Sim8Hist Sim8Thms Sim8More Sim8Line Sim8Req Sim8Rest Sim8Stuck Sim8Hand.
Import ListNotations.
Local Open Scope nat_scope.
Ltac Zify.zify_post_hook ::= Z.div_mod_to_equations.
Local Notation dv := (dev s8send s8reply simx).
Local Notation ent := (@entry simop).

(** Connected with something to send: all of it is announced. *)
Lemma s8_announce_turn : forall d, s8_inv d -> sst d = S8Connected -> rst d = R8Ok -> 0 < avail (wbuf d) ->
  txav (io d) + MIN_SPACE_AVAILABLE + avail (wbuf d) <= txsz (io d) ->
  wp True (s8_machine d) (fun x => wroteb (io d) (io x) (cipsend true (Z.of_nat (avail (wbuf d))) ++ s8_tail d) /\
    x = set_sst S8SendData (set_cst csTransmitting (set_wait (Some (bs ">")) (set_toWrite (Z.of_nat (avail (wbuf d))) (set_io (io x) d))))).
Proof.
  intros d H Hss Hrr Hav Hroom. pose proof H as (_ & Hip' & _). open_inv d H. cbn [sst rst] in Hss, Hrr. subst ss0 rs0. unfold s8_machine, s8_connected. gs. cbn [wbuf io] in Hav, Hroom.
  destruct (Nat.ltb_spec 0 (avail wb0)); [|lia]. apply wp_bind. apply wp_prepare_all; [wfser|gs; sfits|gs; sfits|exact Hroom|]. gs. intros y Hy.
  syms. split; [|reflexivity]. merge. exact W0.
Qed.

Lemma s8_payload_turn : forall d, s8_inv d -> sst d = S8SendData -> ring_ok (wbuf d) -> toWrite d = Z.of_nat (avail (wbuf d)) ->
  txav (io d) + avail (wbuf d) <= txsz (io d) ->
  wp True (s8_machine d) (fun x => exists r, ioeff (io d) (io x) [] (contents (wbuf d)) /\ ring_ok r /\ contents r = [] /\ avail r = 0 /\
    x = set_sst S8Connected (set_wait (Some (bs "0, SEND OK")) (set_toWrite (u64 (-1)) (set_wbuf r (set_io (io x) d))))).
Proof.
  intros d H Hss Hok Ht Hroom. pose proof H as ((Hw & _ & _ & _ & _ & _ & Hsz & _) & _). unfold s8_machine. rewrite Hss. apply wp_bind.
  apply wp_send_all; [assumption|assumption|assumption|assumption|assumption|]. intros y r I1 R1 R2 R3 R4. cbn [wp]. exists r. splits; auto.
Qed.

(** The run() that announces. *)
Lemma s8_announces : forall P N p d e d' t, s8_step P d e d' -> roomy N d e -> hears p e -> s8_going d -> s8_fits p d t ->
  sst d = S8Connected -> 0 < avail (wbuf d) -> 22 + avail (wbuf d) <= N -> (Z.of_nat (avail (wbuf d)) < 100000)%Z ->
  length (announcement true (avail (wbuf d)) [CR; LF]) <= N ->
  put (e_ev e) = announcement true (avail (wbuf d)) [CR; LF] /\ s8_going d' /\
  sst d' = S8SendData /\ wait d' = Some (bs ">") /\ rst d' = R8Ok /\ s8_params d' = s8_params d /\ s8_address d' = t /\
  fIp (fl d') = fIp (fl d) /\ fDisc (fl d') = fDisc (fl d) /\ fData (fl d') = fData (fl d) /\ wbuf d' = wbuf d /\ toWrite d' = Z.of_nat (avail (wbuf d)).
Proof.
  intros P N p d e d' t Hs Hr Hh Hg Hf E Ha HN H5 Hlen.
  destruct (s8_ready P N p d e d' t Hs Hr Hh Hg Hf ltac:(lia)) as (dm & d1 & y & HI & (M1 & M2 & M3 & M5 & M6) & Hw & Hrs & Hst & Hpa & Had & (Z1 & Z2 & Z3 & Z4) & ((_ & _ & Kw & _ & K5 & K6) & Kt) & Ht & Q & Hm & Ed & Hput).
  assert (HIy : s8_inv (set_io y dm)) by (split; [apply dok_quiet; [apply HI|exact Q]|apply HI]).
  pose proof (quiet_ioeff _ _ Q) as QI. pose proof (ioeff_av _ _ _ _ QI) as [_ A]. pose proof (ioeff_txsz _ _ _ _ QI) as A2. cbn [length] in A.
  pose proof (s8_announce_turn (set_io y dm) HIy) as T. cbn [sst rst wbuf io set_io] in T. rewrite Kw in T.
  specialize (T ltac:(congruence) Hrs Ha ltac:(unfold MIN_SPACE_AVAILABLE; lia)). rewrite Hm in T. cbn [wp] in T. destruct T as [T1 T2].
  unfold s8_tail in T1.
  rewrite cipsend_announcement in T1 by exact H5.
  remember (io d1) as z eqn:Ez in T2. clear Ez. subst d1. rewrite Ed.
  destruct (wroteb_quiet _ _ _ _ Q T1) as (q & I1 & _ & I2). splits; auto.
  - rewrite (Hput q I1). apply I2. lia.
  - exact (conj M1 (conj M2 (conj M3 (conj M5 M6)))).
Qed.

(** The run() that sends the data. *)
Lemma s8_passes : forall P N d e d' t, s8_step P d e d' -> roomy N d e -> hears (reply (bs ">")) e -> s8_going d -> s8_fits (reply (bs ">")) d t ->
  sst d = S8SendData -> ring_ok (wbuf d) -> toWrite d = Z.of_nat (avail (wbuf d)) -> 20 <= N -> avail (wbuf d) <= N ->
  put (e_ev e) = contents (wbuf d) /\ s8_going d' /\
  sst d' = S8Connected /\ wait d' = Some (bs "0, SEND OK") /\ rst d' = R8Ok /\ s8_params d' = s8_params d /\ s8_address d' = t /\
  fIp (fl d') = fIp (fl d) /\ fDisc (fl d') = fDisc (fl d) /\ fData (fl d') = fData (fl d) /\ ring_ok (wbuf d') /\ contents (wbuf d') = [] /\ avail (wbuf d') = 0.
Proof.
  intros P N d e d' t Hs Hr Hh Hg Hf E Hok Hto H20 HN.
  destruct (s8_ready P N _ d e d' t Hs Hr Hh Hg Hf H20) as (dm & d1 & y & HI & (M1 & M2 & M3 & M5 & M6) & Hw & Hrs & Hst & Hpa & Had & (Z1 & Z2 & Z3 & Z4) & ((_ & _ & Kw & _ & K5 & K6) & Kt) & Ht & Q & Hm & Ed & Hput).
  assert (HIy : s8_inv (set_io y dm)) by (split; [apply dok_quiet; [apply HI|exact Q]|apply HI]).
  pose proof (quiet_ioeff _ _ Q) as QI. pose proof (ioeff_av _ _ _ _ QI) as [_ A]. pose proof (ioeff_txsz _ _ _ _ QI) as A2. cbn [length] in A.
  pose proof (s8_payload_turn (set_io y dm) HIy) as T. cbn [sst rst wbuf io toWrite set_io] in T. rewrite Kw, Kt in T.
  specialize (T ltac:(congruence) Hok Hto ltac:(lia)). rewrite Hm in T. cbn [wp] in T. destruct T as (r & T1 & T2 & T3 & T4 & T5).
  pose proof (Hput _ (ioeff_trans _ _ _ _ _ _ _ QI T1)) as Hp. cbn [app] in Hp.
  remember (io d1) as z eqn:Ez in T5. clear Ez. subst d1. rewrite Ed. splits; auto.
  exact (conj M1 (conj M2 (conj M3 (conj M5 M6)))).
Qed.

(** Connected with nothing to do. *)
Lemma s8_settles : forall P N p d e d' t, s8_step P d e d' -> roomy N d e -> hears p e -> s8_going d -> s8_fits p d t -> 20 <= N ->
  sst d = S8Connected -> avail (wbuf d) = 0 -> fData (fl d) = false -> fDisc (fl d) = false -> fIp (fl d) = true ->
  put (e_ev e) = [] /\ s8_going d' /\ cst d' = csConnected /\
  sst d' = S8Connected /\ wait d' = None /\ rst d' = R8Ok /\ s8_params d' = s8_params d /\ s8_address d' = t /\
  fIp (fl d') = fIp (fl d) /\ fDisc (fl d') = false /\ fData (fl d') = false /\ wbuf d' = wbuf d.
Proof.
  intros P N p d e d' t Hs Hr Hh Hg Hf HN E F1 F2 F3 F4.
  destruct (s8_ready P N p d e d' t Hs Hr Hh Hg Hf HN) as (dm & d1 & y & HI & (M1 & M2 & M3 & M5 & M6) & Hw & Hrs & Hst & Hpa & Had & (Z1 & Z2 & Z3 & Z4) & ((_ & _ & Kw & _) & Kt) & Ht & Q & Hm & Ed & Hput).
  unfold s8_machine in Hm. change (sst (set_io y dm)) with (sst dm) in Hm. rewrite Hst, E in Hm. unfold s8_connected in Hm.
  change (wbuf (set_io y dm)) with (wbuf dm) in Hm. rewrite Kw, F1 in Hm. change (fl (set_io y dm)) with (fl dm) in Hm. rewrite Z4, F2 in Hm.
  change (fl (set_cst csConnected (set_io y dm))) with (fl dm) in Hm. rewrite Z1, F4 in Hm. unfold at_handle_disconnect in Hm.
  change (fl (set_cst csConnected (set_io y dm))) with (fl dm) in Hm. rewrite Z3, F3 in Hm. cbn [Nat.ltb Nat.leb snd] in Hm.
  apply ok_inj in Hm. subst d1. rewrite Ed. clear Ed. split; [apply Hput, quiet_ioeff; exact Q|]. split; [exact (conj M1 (conj M2 (conj M3 (conj M5 M6))))|]. splits; auto; cbn [fl sst rst wait wbuf cst set_io set_cst]; congruence.
Qed.

Definition s8_send_replies : list (option (bytes -> Prop)) := [None; reply (bs ">"); reply (bs "0, SEND OK")].

Theorem s8_sends : forall P N d tr d', dialogue (s8_step P) s8_noise N s8_send_replies d tr d' ->
  s8_going d -> sst d = S8Connected -> wait d = None -> rst d = R8Ok -> fIp (fl d) = true -> fDisc (fl d) = false -> fData (fl d) = false ->
  ring_ok (wbuf d) -> contents (wbuf d) <> [] -> 22 + length (contents (wbuf d)) <= N -> (Z.of_nat (length (contents (wbuf d))) < 100000)%Z ->
  length (announcement true (length (contents (wbuf d))) [CR; LF]) <= N ->
  sent tr = announcement true (length (contents (wbuf d))) [CR; LF] ++ contents (wbuf d) /\
  contents (wbuf d') = [] /\ ip_write_buffer_processed d' = true /\ ip_is_connected d' = true /\
  s8_going d' /\ sst d' = S8Connected /\ wait d' = None /\ rst d' = R8Ok /\ fIp (fl d') = fIp (fl d) /\ fDisc (fl d') = false /\ fData (fl d') = false /\
  ring_ok (wbuf d') /\ s8_params d' = s8_params d /\ s8_address d' = s8_address d.
Proof.
  intros P N d tr d' Hd Hg Hs Hw Hrs F0 F1 F2 Hok Hne HN H5 Hlen. unfold s8_send_replies in Hd.
  pose proof (contents_length _ (proj1 Hok)) as Hl. rewrite Hl in *.
  assert (Ha : 0 < avail (wbuf d)) by (rewrite <- Hl; destruct (contents (wbuf d)); [contradiction|cbn; lia]).
  destruct (s8_meet P N _ _ d tr d' _ Hd Hg (f8_none d Hw Hrs)) as (x0 & e0 & d0 & tr0 & E0 & (J1 & J2 & J3 & J4 & J5 & J6 & J7 & J8 & J9 & J10) & J11 & J12 & Hs0 & Hr0 & Hh0 & Hd0).
  assert (Jw : wbuf x0 = wbuf d) by congruence.
  destruct (s8_announces P N _ x0 e0 d0 _ Hs0 Hr0 Hh0 J1 J12) as (A1 & A2 & A3 & A4 & A5 & A6 & A7 & A8 & A9 & A10 & A11 & A12); rewrite ?Jw; try assumption; try congruence.
  rewrite Jw in A11, A12. rewrite Jw in A1.
  destruct (s8_meet P N _ _ d0 tr0 d' _ Hd0 A2 (f8_reply d0 _ A4 (or_introl A5) ltac:(cbn; tauto))) as (x1 & e1 & d1 & tr1 & E1 & (L1 & L2 & L3 & L4 & L5 & L6 & L7 & L8 & L9 & L10) & L11 & L12 & Hs1 & Hr1 & Hh1 & Hd1).
  assert (Lw : wbuf x1 = wbuf d) by congruence. assert (Lt : toWrite x1 = Z.of_nat (avail (wbuf d))) by congruence.
  destruct (s8_passes P N x1 e1 d1 _ Hs1 Hr1 Hh1 L1 L12) as (B1 & B2 & B3 & B4 & B5 & B6 & B7 & B8 & B9 & B10 & B11 & B12 & B13); rewrite ?Lw; try assumption; try congruence; try lia.
  rewrite Lw in B1.
  destruct (s8_meet P N _ _ d1 tr1 d' _ Hd1 B2 (f8_reply d1 _ B4 (or_introl B5) ltac:(cbn; tauto))) as (x2 & e2 & d2 & tr2 & E2 & (G1 & G2 & G3 & G4 & G5 & G6 & G7 & G8 & G9 & G10) & G11 & G12 & Hs2 & Hr2 & Hh2 & Hd2).
  assert (Gw : wbuf x2 = wbuf d1) by congruence.
  destruct (s8_settles P N _ x2 e2 d2 _ Hs2 Hr2 Hh2 G1 G12) as (C1 & C2 & C3 & C4 & C5 & C6 & C7 & C8 & C9 & C10 & C11 & C12); try congruence; try lia.
  destruct (dialogue_end (s8_step P) s8_noise N d2 tr2 d' (fun x => s8_going x /\ cst x = csConnected /\ sst x = S8Connected /\ wait x = None /\ rst x = R8Ok /\ s8_params x = s8_params d /\
    s8_address x = s8_address d /\ fIp (fl x) = fIp (fl d) /\ fDisc (fl x) = false /\ fData (fl x) = false /\ wbuf x = wbuf d1)) as [E3 (D1 & D2 & D3 & D4 & D5 & D6 & D7 & D8 & D9 & D10 & D11)].
  - apply s8_look_keeps. intros y x Hx. exact Hx.
  - exact Hd2.
  - splits; auto; congruence.
  - split; [rewrite E0, E1, E2, E3, A1, B1, C1; rewrite !app_nil_r; reflexivity|]. rewrite D11. unfold ip_is_connected. rewrite D2. splits; auto.
    unfold ip_write_buffer_processed. rewrite D11, B13, D2. reflexivity.
Qed.
