(** The SIM7x00 driver: identification requests are answered (C81). *)
From Coq Require Import String Ascii ZArith List Bool Arith Lia ZifyBool ZifyNat.
From Verif Require Import Base QueueSpec LineSpec SerialSpec Ring RingProofs LineRing LineRingProofs Serial SerialProofs
  SerStep TaskMacros CStr CStrProofs Dev DevProofs DevProps SimDev SimProofs SimSpec SimParse SimLog Sym DrvStep DrvCommon DrvRun DrvHist DrvActs DrvHand SimHand DrvSend DrvFetch DrvTalk DrvSession SimQuery Session HandCheck
  Sim7x00 Sim7Spec Sim7Proofs Sim7Run Sim7Hist Sim7Thms Sim7More Sim7Hand Sim7Send Sim7Session Sim7Query Sim7Props Sim7HandProps Sim7SendProps Sim7SessionProps.
Import ListNotations.
Local Open Scope nat_scope.
Local Notation dv := (dev s7send s7reply simx).
Local Notation ent := (@entry simop).

Definition s7_id_replies (t : idtype) (s : bytes) : list (option (bytes -> Prop)) := [None; Some (id_answer t s); reply (bs "OK")].

(** Between the parts of a session, requestIDString() makes the next run() send the command
    for exactly the kind asked for, the modem's answer is what getIDString() returns, and
    the session can go on. *)
Theorem C81_sim7_answered : forall P N c t s d e d1 tr d2, s7_between c d -> s7_step P d e d1 -> e_op e = OpX (RequestID t) -> t <> idNone ->
  dialogue (s7_step P) s7_murmur N (s7_id_replies t s) d1 tr d2 -> 40 <= N ->
  sent tr = commands [id_question (bs "AT+CICCID") t] /\ s7_between c d2 /\ s7_params d2 = s7_params d /\ s7_address d2 = s7_address d /\ rbuf d2 = rbuf d /\ payloads (e :: tr) = [] /\
  forall e' d3, s7_step P d2 e' d3 -> e_op e' = OpX GetID -> e_out e' = DStr (Some (firstn 23 (upto CR s))).
Proof.
  intros P N c t s d e d1 tr d2 HB Hs Eo Hne Hd HN. pose proof (s7_between_calm c d HB) as HC. pose proof HB as (R & F1 & F2 & F3 & F4 & F5 & F6 & Fm & F7 & F8 & F9). pose proof (empty_avail _ F8 F9) as F10.
  assert (G : s7_going d /\ wait d = None /\ rst d = R7Ok /\ (sst d = S7Connected \/ sst d = S7NotConnected)) by (destruct c; [destruct R as (R1 & _ & _ & R2 & R3 & R4)|destruct R as (R1 & R2 & R3 & R4 & _)]; auto).
  destruct G as ((G1 & G2 & G3 & G4 & _) & Gw & Gr & Gs).
  destruct (call_silent _ _ _ _ _ _ _ _ _ _ _ Hs ltac:(rewrite Eo; reflexivity)) as [Pe _].
  pose proof Hs as (((_ & _ & Hid & _) & _) & _ & _ & E & _). rewrite Eo in E. destruct (called _ _ _ _ _ _ _ E) as (z & x & Ex & Ed). cbn [d_call drv_x s7_driver sim_x] in Ex.
  unfold sim_request_id in Ex. change (ext (set_io z d)) with (ext d) in Ex. rewrite wr_ok in Ex by lia. cbn [bind] in Ex. rewrite wr_ok in Ex by (rewrite list_set_length; lia). cbn [bind] in Ex. rewrite wr_ok in Ex by (rewrite !list_set_length; lia). cbn [bind] in Ex.
  apply ok_inj in Ex. apply pair_eq in Ex as [_ <-]. set (b := list_set (list_set (list_set (idbuf (ext d)) 0 NUL) 1 (id_code t)) 2 (id_code t)) in *.
  assert (B0 : nth_error b 0 = Some NUL /\ nth_error b 1 = Some (id_code t) /\ nth_error b 2 = Some (id_code t) /\ length b = 24).
  { unfold b. rewrite !list_set_length. splits; auto.
    - rewrite !nth_list_set_ne by lia. apply nth_list_set_eq. lia.
    - rewrite nth_list_set_ne by lia. apply nth_list_set_eq. rewrite list_set_length. lia.
    - apply nth_list_set_eq. rewrite !list_set_length. lia. }
  destruct B0 as (B0 & B1 & B2 & B3).
  assert (K1 : idbuf (ext d1) = b) by (rewrite Ed; reflexivity).
  assert (C1 : s7_calm (rbuf d) (Some (wbuf d)) false false d1) by (rewrite Ed; exact HC).
  assert (S1 : s7_stage d1 None R7Ok b d1) by (unfold s7_stage, s7_awake; splits; auto; rewrite Ed; auto).
  assert (Q1 : s7_params d1 = s7_params d /\ s7_address d1 = s7_address d /\ sst d1 = sst d /\ fIp (fl d1) = fIp (fl d)) by (rewrite Ed; splits; reflexivity).
  assert (Hharm : forall L, s7_murmur L -> s7_harmless L).
  { intros L [HL _]. apply s7_noise_inv in HL as (L1 & L2 & L3 & L4 & L5 & L6 & L7). unfold s7_harmless.
    pose proof (no_prefix (bs "+NETOPEN") (bs ": 1") L L2) as Y1. pose proof (no_prefix (bs "+CIPOPEN") (bs ": 0,") L L3) as Y2. pose proof (no_prefix (bs "+CDNSGIP") (bs ": 0") L L5) as Y3.
    splits; auto. intro Z. change (bs "+CIPOPEN" ++ bs ": 0,") with (bs "+CIPOPEN: 0,") in Y2. congruence. }
  assert (Hansw : forall L, id_answer t s L -> s7_harmless L).
  { intros L (L1 & _ & _ & _ & _ & L6). pose proof (id_reply_calm L s L1) as (L7 & L8). pose proof (id_reply_net L s L1) as L9. unfold s7_harmless.
    pose proof (no_prefix (bs "+C") (bs "IPRXGET: 1,0") L L7) as Y1. pose proof (no_prefix (bs "+N") (bs "ETOPEN: 1") L L9) as Y2. pose proof (no_prefix (bs "+C") (bs "DNSGIP: 0") L L7) as Y3.
    pose proof (no_prefix (bs "+IP") (bs "CLOSE: 0,") L L8) as Y4. pose proof (no_prefix (bs "+C") (bs "IPOPEN: 0,") L L7) as Y5. splits; auto. intro Z. change (bs "+C" ++ bs "IPOPEN: 0,") with (bs "+CIPOPEN: 0,") in Y5. congruence. }
  assert (Hlook : forall x e x', s7_step P x e x' -> looks (e_op e) = true -> s7_calm (rbuf d) (Some (wbuf d)) false false x -> s7_calm (rbuf d) (Some (wbuf d)) false false x' /\ payload e = []).
  { intros x e0 x' H1 H2 H3. destruct (s7_looks P x e0 x' H1 H2) as (-> & _ & H4). split; [exact H3|exact H4]. }
  assert (Hkeep : s7_calm (rbuf d) (Some (wbuf d)) false false d2 /\ payloads tr = []).
  { refine (dialogue_keeps _ s7_murmur s7_harmless N _ Hharm Hlook _ _ d1 tr d2 Hd _ C1).
    - intros x e0 x' H1 H2 H3 H4. exact (s7_calm_run P N _ _ _ _ x e0 x' H1 H2 H3 H4).
    - unfold s7_id_replies. repeat (apply Forall_cons); [exact I|exact Hansw| |apply Forall_nil]. intros L HL. apply (s7_reply_harmless "OK"); [cbn; tauto|exact HL]. }
  destruct Hkeep as [C2 Pt].
  (* the request is sent *)
  unfold s7_id_replies in Hd.
  destruct (dialogue_next (s7_step P) s7_murmur N None [Some (id_answer t s); reply (bs "OK")] d1 tr d2 (fun x => exists y, x = set_io y d1)) with (3 := Hd) as (tr1 & e1 & tr2 & x1 & x2 & E1 & T1 & (y1 & ->) & Hs1 & Hr1 & Hh1 & Hd1).
  { intros x e0 x' H1 H2 (y & ->). destruct (s7_looks P _ e0 x' H1 H2) as (-> & H3 & _). split; [eexists; reflexivity|exact H3]. }
  { discriminate. }
  { exists (io d1). destruct d1; reflexivity. }
  assert (Cq : exists q, id_command s7_iccid_command t = Some q /\ id_question (bs "AT+CICCID") t = q) by (destruct t; try contradiction; eexists; split; reflexivity). destruct Cq as (q & Cq1 & Cq2).
  destruct (s7_asks P N t (set_io y1 d1) e1 x2 q Hs1 Hr1 Hh1 ltac:(lia)) as (T2 & S2 & _); auto; try (change (ext (set_io y1 d1)) with (ext d1); rewrite K1; assumption); try (change (fl (set_io y1 d1)) with (fl d1); rewrite Ed; assumption).
  change (ext (set_io y1 d1)) with (ext d1) in S2. rewrite K1 in S2. change (s7_stage d1 (Some (bs "OK")) R7RequestID (list_set b 1 (id_code idNone)) x2) in S2.
  assert (C3 : s7_calm (rbuf d) (Some (wbuf d)) false false x2) by exact (proj1 (s7_calm_run P N _ _ _ _ (set_io y1 d1) e1 x2 Hs1 Hr1 (or_introl Hh1) C1)).
  (* the answer *)
  assert (Hok : Some (bs "OK") <> None) by discriminate.
  set (b1 := list_set b 1 (id_code idNone)) in *.
  assert (B4 : nth_error b1 2 = Some (id_code t) /\ length b1 = 24) by (unfold b1; rewrite nth_list_set_ne, list_set_length by lia; auto). destruct B4 as [B4 B5].
  destruct (dialogue_next (s7_step P) s7_murmur N (Some (id_answer t s)) [reply (bs "OK")] x2 tr2 d2 (fun x => s7_stage d1 (Some (bs "OK")) R7RequestID b1 x /\ s7_calm (rbuf d) (Some (wbuf d)) false false x)) with (3 := Hd1) as (tr3 & e2 & tr4 & x3 & x4 & E2 & T3 & (S3 & C4) & Hs2 & Hr2 & Hh2 & Hd2).
  { intros x e0 x' H1 H2 [H3 H4]. destruct (s7_looks P x e0 x' H1 H2) as (-> & H5 & _). split; [split; [exact H3|exact H4]|exact H5]. }
  { intros p Hp x e0 x' H1 H2 H3 [H4 H5]. destruct H3 as [H3|(tk & L & I1 & I2 & _)].
    - destruct (s7_stage_none P N d1 (Some (bs "OK")) R7RequestID b1 x e0 x' H1 H2 H3 (or_introl Hok) H4) as [A1 A2]. split; [split; [exact A1|]|exact A2]. exact (proj1 (s7_calm_run P N _ _ _ _ x e0 x' H1 H2 (or_introl H3) H5)).
    - assert (H3 : hears (Some s7_murmur) e0) by (exists tk, L; auto). destruct (s7_stage_murmur P N d1 _ x e0 x' H1 H2 H3 H4) as [A1 A2]. split; [split; [exact A1|]|exact A2].
      refine (proj1 (s7_calm_run P N _ _ _ _ x e0 x' H1 H2 (or_intror _) H5)). exists tk, L. auto. }
  { split; assumption. }
  destruct (s7_stage_answer P N d1 b1 t s x3 e2 x4 Hs2 Hr2 Hh2 S3 B4 B5) as (r & S4 & T4).
  assert (C5 : s7_calm (rbuf d) (Some (wbuf d)) false false x4).
  { refine (proj1 (s7_calm_run P N _ _ _ _ x3 e2 x4 Hs2 Hr2 (or_intror _) C4)). destruct Hh2 as (tk & L & I1 & I2). exists tk, L. auto. }
  assert (Hs' : nulfree s = true /\ upto CR s <> []) by (destruct Hh2 as (_ & L & _ & (_ & _ & A & B & _)); auto). destruct Hs' as [Hn Hu].
  destruct (id_kept_text s r b1 Hn Hu) as [B6 B7]. set (b2 := id_kept s r b1) in *.
  (* OK *)
  destruct (dialogue_next (s7_step P) s7_murmur N (reply (bs "OK")) [] x4 tr4 d2 (fun x => s7_stage d1 (Some (bs "OK")) R7Ok b2 x /\ s7_calm (rbuf d) (Some (wbuf d)) false false x)) with (3 := Hd2) as (tr5 & e3 & tr6 & x5 & x6 & E3 & T5 & (S5 & C6) & Hs3 & Hr3 & Hh3 & Hd3).
  { intros x e0 x' H1 H2 [H3 H4]. destruct (s7_looks P x e0 x' H1 H2) as (-> & H5 & _). split; [split; [exact H3|exact H4]|exact H5]. }
  { intros p Hp x e0 x' H1 H2 H3 [H4 H5]. destruct H3 as [H3|(tk & L & I1 & I2 & _)].
    - destruct (s7_stage_none P N d1 (Some (bs "OK")) R7Ok b2 x e0 x' H1 H2 H3 (or_introl Hok) H4) as [A1 A2]. split; [split; [exact A1|]|exact A2]. exact (proj1 (s7_calm_run P N _ _ _ _ x e0 x' H1 H2 (or_introl H3) H5)).
    - assert (H3 : hears (Some s7_murmur) e0) by (exists tk, L; auto). destruct (s7_stage_noise P N d1 _ x e0 x' H1 H2 H3 H4) as [A1 A2]. split; [split; [exact A1|]|exact A2].
      refine (proj1 (s7_calm_run P N _ _ _ _ x e0 x' H1 H2 (or_intror _) H5)). exists tk, L. auto. }
  { split; assumption. }
  destruct C6 as (_ & _ & _ & _ & _ & _ & D1 & _ & _ & _ & _ & _ & _ & _ & _ & _ & D2 & D3 & D4). destruct (D2 _ eq_refl) as (W1 & W2 & _).
  destruct (s7_stage_done P N d1 b2 x5 e3 x6 Hs3 Hr3 Hh3 S5 B6) as (S6 & T6 & H6); try lia; auto; try congruence.
  { destruct D4 as [[D4 _]|D4]; [discriminate D4|exact D4]. } { destruct D3 as [[D3 _]|D3]; [discriminate D3|exact D3]. } { destruct Q1 as (_ & _ & -> & _). exact Gs. }
  destruct (dialogue_end (s7_step P) s7_murmur N x6 tr6 d2 (fun x => s7_stage d1 None R7Ok b2 x /\ cst x = cst x6)) as (T7 & S7 & H7); [|exact Hd3|split; [exact S6|reflexivity]|].
  { intros x e0 x' H1 H2 [H3 H4]. destruct (s7_looks P x e0 x' H1 H2) as (-> & H5 & _). split; [split; [exact H3|exact H4]|exact H5]. }
  destruct Q1 as (Q1 & Q2 & Q3 & Q4). destruct S7 as (U0 & U1 & U2 & U3 & U4 & U5 & U6 & U7 & U8). destruct C2 as (_ & _ & _ & M1 & M2 & M3 & M4 & M5 & _ & _ & _ & M6 & _ & _ & _ & _ & M7 & M8 & M9). destruct (M7 _ eq_refl) as (W3 & _).
  assert (Hg : s7_going d2) by (unfold s7_going; destruct U0 as (U0 & U0' & U0''); rewrite U4; splits; auto).
  splits.
  - rewrite E1, sent_app, T1, sent_cons, T2, E2, sent_app, T3, sent_cons, T4, E3, sent_app, T5, sent_cons, T6, T7, Cq2. unfold commands. cbn [map concat app]. rewrite !app_nil_r. reflexivity.
  - unfold s7_between. rewrite M5, W3. splits; auto; [|destruct M8 as [[M8 _]|M8]; [discriminate M8|exact M8]|destruct M9 as [[M9 _]|M9]; [discriminate M9|exact M9]].
    destruct c; [destruct R as (_ & _ & R2 & R3 & _)|destruct R as (_ & R3 & _ & _ & R2)].
    + unfold s7_at_ease, ip_is_connected. rewrite H7, H6 by congruence. splits; auto; congruence.
    + unfold s7_at_rest. splits; auto; try congruence. destruct M9 as [[M9 _]|M9]; [discriminate M9|exact M9].
  - congruence.
  - congruence.
  - exact M5.
  - rewrite payloads_cons, Pe, Pt. reflexivity.
  - intros e' d3 Hs4 Eo4. pose proof Hs4 as (((_ & _ & _ & _ & _ & Hnul) & _) & _ & _ & E4 & _). rewrite Eo4 in E4. destruct (called _ _ _ _ _ _ _ E4) as (z4 & x7 & Ex & _). cbn [d_call drv_x s7_driver sim_x] in Ex.
    unfold sim_get_id in Ex. change (wait (set_io z4 d2)) with (wait d2) in Ex. change (ext (set_io z4 d2)) with (ext d2) in Ex. rewrite U2, U4 in Ex. rewrite U4 in Hnul.
    destruct (id_got b2 Hnul B6 ltac:(rewrite B7; destruct (upto CR s); [contradiction|discriminate])) as (c0 & G5 & G6 & G7).
    rewrite G5 in Ex. cbn [bind] in Ex. rewrite G6, G7, B7 in Ex. cbn [bind] in Ex. apply ok_inj in Ex. apply pair_eq in Ex as [<- _]. reflexivity.
Qed.

Definition s7_asks_id : @script simop := [call (OpX (RequestID idModel))].
Definition s7_id_answers : @script simop := runs_ 1 ++ dialog [crlf (bs ""); crlf (bs "+CREG: 1")] ++ [modem (bs "SIMCOM_")] ++ dialog [crlf (bs "SIM7600E"); crlf (bs "OK")].
Definition s7_id_check : list (option (bytes -> bool)) := [None; Some (id_answerb (crlf (bs "SIMCOM_SIM7600E"))); Some (prefixb (bs "OK"))].
Example C81_sim7_answered_case : exists d0 tr0 d e d1 tr d2 e' d3, s7_built d0 /\ s7_hist PA d0 tr0 d /\ s7_between false d /\
  s7_step PA d e d1 /\ e_op e = OpX (RequestID idModel) /\ dialogue (s7_step PA) s7_murmur 64 (s7_id_replies idModel (crlf (bs "SIMCOM_SIM7600E"))) d1 tr d2 /\
  s7_step PA d2 e' d3 /\ e_op e' = OpX GetID /\ sent tr = crlf (bs "AT+CGMM") /\ e_out e' = DStr (Some (bs "SIMCOM_SIM7600E")).
Proof.
  destruct s7_ex_built as (d0 & E0 & Hb).
  set (h := s7_prepare ++ s7_asks_id ++ s7_id_answers ++ [call (OpX GetID)]).
  assert (Hrun : exists d outs, d_run (s7_driver PA) d0 h = Ok (d, outs)).
  { assert (H : then_ (s7_driver PA) s7_ex h (fun _ => true) = true) by (vm_compute; reflexivity). unfold then_ in H. rewrite E0 in H.
    destruct (d_run (s7_driver PA) d0 h) as [[d outs]|u]; [eauto|discriminate H]. }
  destruct Hrun as (d3 & outs & Hrun).
  assert (Hv : s7_valid h). { apply (validb_ok _ (fun x => match x with SetApn p => strb p | _ => true end)); [intros [] H; try exact I; apply strb_ok, H|vm_compute; reflexivity]. }
  destruct (s7_every_run PA d0 h d3 outs Hb Hv Hrun) as (tra & Ha & Em & _). unfold h in Em.
  destruct (hist_part _ _ _ _ _ _ _ _ _ Ha Em) as (tr0 & trb & d & o1 & _ & M0 & Mb & H0 & Hb1 & R1).
  destruct (hist_part _ _ _ _ _ _ _ _ _ Hb1 Mb) as (tre & trc & d1 & o2 & _ & Me & Mc & He & Hc1 & R2).
  destruct (hist_one _ _ _ _ _ _ _ _ _ He Me) as (e & tre' & d1' & -> & Eo & _ & Me' & Hs & He' & _). apply map_eq_nil in Me'. subst tre'. inversion He'; subst. clear He'.
  destruct (hist_part _ _ _ _ _ _ _ _ _ Hc1 Mc) as (tr & trd & d2 & o3 & _ & Mt & Md & Ht & Hd1 & R3).
  destruct (hist_one _ _ _ _ _ _ _ _ _ Hd1 Md) as (e' & trd' & d3' & -> & Eo' & _ & Md' & Hs' & Hd' & _). apply map_eq_nil in Md'. subst trd'. inversion Hd'; subst. clear Hd'.
  assert (C1 : then_ (s7_driver PA) s7_ex s7_prepare (fun x => match d_run (s7_driver PA) x s7_asks_id with
    Ok (y, _) => talks (s7_driver PA) (fun L => silentb s7_quiet_words L && no_idb L) (fun _ => true) 64 s7_id_check s7_id_answers y | _ => false end) = true) by (vm_compute; reflexivity).
  apply (then_at _ _ _ _ _ _ _ _ _ _ _ E0 R1) in C1. cbv beta in C1. rewrite R2 in C1.
  assert (HB : s7_between false d).
  { refine (proj1 (C79_sim7_prepared PA false d0 tr0 d (proj1 (C79_sim7_fresh d0 Hb _)) H0 _)).
    - clear -E0. assert (H : then_ (s7_driver PA) s7_ex [] (fun x => isopen x) = true) by (vm_compute; reflexivity). unfold then_ in H. rewrite E0 in H. exact H.
    - apply Forall_forall. intros x Hx. assert (Hi : In (e_op x, e_sch x) s7_prepare) by (rewrite <- M0; exact (in_map (fun e => (e_op e, e_sch e)) tr0 x Hx)).
      destruct Hi as [Hi|[Hi|[]]]; injection Hi as <- _; reflexivity. }
  assert (HD : dialogue (s7_step PA) s7_murmur 64 (s7_id_replies idModel (crlf (bs "SIMCOM_SIM7600E"))) d1 tr d2).
  { rewrite <- Mt in C1. refine (dialogue_same _ _ _ _ _ _ _ _ _ _ _ (talks_dialogue (s7_driver PA) (s7_shape PA) s7_all s7_goodx s7_murmur (fun L => silentb s7_quiet_words L && no_idb L) _ (fun _ => true) _ 64 tr d1 d2 Ht _ C1) _ _).
    - intros L HL. apply andb_prop in HL as [HL1 HL2]. split; [apply (proj1 (silentb_ok _ L)), HL1|]. unfold no_idb in HL2. destruct (id_reply L); [discriminate HL2|reflexivity].
    - intros x _. split; [exact whole_ends|intros L H; exact H].
    - apply Forall2_cons; [exact I|]. apply Forall2_cons; [intro L; apply id_answerb_ok; discriminate|]. apply Forall2_cons; [intro; apply iff_refl|apply Forall2_nil]. }
  cbn [fst call] in Eo, Eo'. assert (Hlt : 40 <= 64) by lia.
  destruct (C81_sim7_answered PA 64 false idModel _ d e d1 tr d2 HB Hs Eo ltac:(discriminate) HD Hlt) as (Z1 & _ & _ & _ & _ & _ & Z2).
  exists d0, tr0, d, e, d1, tr, d2, e', d3. splits; auto.
  rewrite (Z2 e' d3 Hs' Eo'). reflexivity.
Qed.

Print Assumptions C81_sim7_answered.
