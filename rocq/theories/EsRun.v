(** The control flow of the Espressif driver: a whole run. *)
From Coq Require Import String Ascii ZArith List Bool Arith Lia ZifyBool ZifyNat.
From Verif Require Import Base QueueSpec LineSpec SerialSpec Ring RingProofs LineRing LineRingProofs Serial SerialProofs
  SerStep TaskMacros CStr CStrProofs Dev DevProofs SimDev SimProofs SimSpec Sym DrvStep DrvCommon Espressif EsSpec EsFill EsProofs EsCtl EsCtlIn.
Import ListNotations.
Local Open Scope nat_scope.
Ltac Zify.zify_post_hook ::= Z.div_mod_to_equations.
Local Notation dv := (dev essend esreply espx).

Lemma se_standard_cases : forall (U : Prop) d, se_inv d -> parsed (lbuf d) ->
  wp U (se_standard_reply d) (fun d' =>
    d' = d \/ (exists w, wait d = Some w /\ prefixb w (lbuf d) = true /\ d' = set_wait None d)).
Proof.
  intros U d H Hp. open_inv d H. unfold se_standard_reply. gs. destruct wt0; symsi.
  all: cases; first [left; reflexivity | right; eexists; splits; [reflexivity|eassumption|reflexivity]].
Qed.

(** A data or a close notice, or the loss of the network. *)
Definition se_notice (P : plat) (d d' : dv) : Prop :=
  d' = d \/
  (exists v, prefixb (bs "+IPD") (lbuf d) = true /\ strtol P (skipn 5 (lbuf d)) = Ok v /\ typ d = TCP /\ d' = on_data true (set_toReceive (u64 (i32 v)) d)) \/
  (exists v, prefixb (bs "+IPD") (lbuf d) = true /\ strtol P (skipn 5 (lbuf d)) = Ok v /\ typ d <> TCP /\
     d' = on_data true (on_line false (set_toRead (u64 (toRead d + i32 v)) d))) \/
  (prefixb (bs "CLOSED") (lbuf d) = true /\ d' = on_ip false d) \/
  (prefixb (bs "WIFI DISCONNECT") (lbuf d) = true /\ d' = set_wait None (set_sst SEFinalizeDisconnect d)).
Lemma se_unsol_cases : forall P (U : Prop) (d : dv), eparsed (lbuf d) ->
  wp U (se_unsolicited P d) (se_notice P d).
Proof.
  intros P U d Hp. unfold se_notice. apply wp_se_unsolicited; [assumption|intros..].
  - right. left. exists v. splits; auto. lia.
  - right. right. left. exists v. splits; auto. lia.
  - auto 8.
  - auto 8.
  - auto.
Qed.

Lemma se_ictl_wait : forall d d' w, wait d = Some w -> prefixb w (lbuf d) = true -> se_ictl (lbuf d) (set_wait None d) d' -> se_ictl (lbuf d) d d'.
Proof.
  intros d d' w Hw Hm (A1 & A2 & A3 & A4 & A5 & A6). unfold se_ictl.
  ddev d. unfold se_cfg, se_sync, se_send_fail in *. dsimp. split; [exact A1|]. split; [exact A2|]. split; [exact A3|].
  split; [|split; [exact A5|exact A6]].
  intros C HO (K1 & K2 & K3 & K4). apply A4; [exact HO|]. unfold se_conf. gs. dsimp. splits; auto. intro E.
    right. destruct (K1 E) as [K|[K|K]]; auto. right. apply HO. congruence.
Qed.

Lemma se_ictl_noerr : forall d d', se_ictl (lbuf d) (se_noerr d) d' -> se_ictl (lbuf d) d d'.
Proof.
  intros d d'. unfold se_noerr. destruct (_ && _) eqn:E; [|auto]. apply andb_true_iff in E as [E1 E2]. apply se_connected_is in E1.
  intros (A1 & A2 & A3 & A4 & A5 & A6 & A7 & A8). unfold se_ictl.
  ddev d. unfold se_cfg, se_sync, se_send_fail in *. dsimp. subst ss0. split; [exact A1|]. split; [exact A2|]. split; [exact A3|].
  split; [|split; [exact A5|split; [exact A6|split; [|exact A8]]]].
  - intros C HO (K1 & K2 & K3 & K4). apply A4; [exact HO|]. unfold se_conf, ip_is_connected. gs. dsimp. cbn [se_rank] in *. splits; auto; try discriminate; intros; lia.
  - right. destruct A7 as [A7|[A7 _]]; auto.
Qed.

Lemma se_error_ctl : forall d, se_error_line (lbuf d) ->
  se_ictl (lbuf d) d (set_wait None (set_cst csGeneralError (on_reset true d))).
Proof.
  intros d Hp. unfold se_ictl, se_move. ddev d. unfold se_cfg, se_sync, se_line, se_tline, se_conf. dsimp. splits; auto.
  - intros C HO (K1 & K2 & K3 & K4). gs. unfold ip_is_connected. gs. splits; auto. discriminate.
  - intros; lia.
Qed.

Lemma se_ictl_check : forall P d d1 d2, se_ictl (lbuf d) d d1 -> 10 <= se_rank (sst d1) ->
  lbuf d1 = lbuf d -> typ d1 = typ d -> se_notice P d1 d2 -> se_ictl (lbuf d) d d2.
Proof.
  intros P d d1 d2 H HR HL HT HC. pose proof H as HH.
  destruct HH as (A1 & A2 & (A3 & A3' & A3'') & A4 & A5 & A6 & A7 & A8 & A9 & (A10 & A10') & A11 & A12 & A13 & A14 & A15 & A16 & A17).
  destruct HC as [->|[(v & E & _ & ET & ->)|[(v & E & _ & ET & ->)|[[E ->]|[E ->]]]]]; [assumption| | | |]; unfold se_ictl; rewrite HL in E.
  - unfold se_cfg, se_sync, se_tline, se_conf, ip_is_connected in *. ddev d1; dsimp. splits; auto.
  - unfold se_cfg, se_sync, se_tline, se_conf, ip_is_connected in *. ddev d1; dsimp. splits; auto.
    + intro. congruence.
    + right. right. splits; auto. congruence.
  - unfold se_cfg, se_sync, se_tline, se_conf, ip_is_connected in *. ddev d1; dsimp. splits; auto.
  - assert (HM : 10 <= se_rank (sst d)).
    { destruct A1 as [A1|[[_ A1]|[_ [A1 _]]]]; [rewrite <- A1; exact HR| |exact A1].
      exfalso. exact (no_prefix2 _ (bs "WIFI DISCONNECT") _ A1 eq_refl E). }
    assert (HTR : toRead d1 = toRead d /\ fLine (fl d1) = fLine (fl d)).
    { destruct A16 as [A16|[A16|(A16 & _)]]; [exact A16| |]; exfalso; exact (no_prefix2 _ (bs "WIFI DISCONNECT") _ A16 eq_refl E). }
    unfold se_cfg, se_sync, se_tline, se_conf, ip_is_connected, se_move in *. ddev d1; dsimp. cbn [se_rank]. splits; auto.
    + intros _. apply A2. left. lia.
    + intros C HO K. destruct (A4 C HO K) as (K1 & K2 & K3 & K4). splits; auto; [discriminate| |intro; lia].
      intros [?|?]; [lia|auto].
    + intros. lia.
Qed.

Lemma se_parse_ctl : forall P (U : Prop) d, se_inv d -> eparsed (lbuf d) -> lbfill d = 0 -> se_sync d ->
  (rst d = REParseCiprecvdata -> prefixb (bs "+CIPRECVDATA") (lbuf d) = true) ->
  wp U (se_parse P d) (fun p => se_ictl (lbuf d) d (snd p) /\ (rst d = REParseCiprecvdata -> rst (snd p) = REOk) /\
    (fst p = true -> se_error_line (lbuf d)) /\ (fst p = false -> fReset (fl (snd p)) = fReset (fl d))).
Proof.
  intros P U d H Hp Hf Hs HP.
  rewrite se_parse_eq by apply Hp.
  destruct (se_is_error (lbuf d)) eqn:He.
  { apply se_error_dec in He. cbn [wp fst snd]. splits; auto; [apply se_error_ctl; exact He| |discriminate]. intro Hr. apply HP in Hr.
    exfalso. destruct He as [He|He]; [exact (no_prefix2 _ (bs "ERROR") _ Hr eq_refl He)|exact (no_prefix2 _ (bs "FAIL") _ Hr eq_refl He)]. }
  destruct (se_noerr_parsed d H Hf) as (P0 & _ & R0 & S0). pose proof (se_ictl_noerr d) as T0.
  assert (X0 : fReset (fl (se_noerr d)) = fReset (fl d)) by (unfold se_noerr; destruct (_ && _); reflexivity).
  assert (Y0 : typ (se_noerr d) = typ d) by (unfold se_noerr; destruct (_ && _); reflexivity).
  set (d0 := se_noerr d) in *. clearbody d0.
  assert (F0 : lbfill d0 = 0) by (destruct P0 as (_ & K & _); unfold pkeep in K; intuition congruence).
  assert (L0 : lbuf d0 = lbuf d) by apply P0.
  assert (I0 : se_inv d0) by apply P0.
  assert (Q0 : se_sync d0) by (unfold se_sync; rewrite R0, S0; exact Hs).
  apply wp_bind. eapply wp_mono; [apply se_standard_cases; [exact I0|rewrite L0; apply Hp]|]. intros p Hc.
  assert (HN : se_inv (set_wait None d0)) by (clear - I0; open_inv d0 I0; inv_leaf).
  assert (HX : forall d1, se_inv d1 -> lbuf d1 = lbuf d -> lbfill d1 = 0 -> rst d1 = rst d -> se_sync d1 -> fReset (fl d1) = fReset (fl d) -> typ d1 = typ d ->
     (forall d2, se_ictl (lbuf d) d1 d2 -> se_ictl (lbuf d) d d2) ->
     wp U (bind (se_special_reply P d1) (fun d0 =>
        if se_rank SEConnected <=? se_rank (sst d0)
             then let* d2 := se_unsolicited P d0 in Ok (false, d2) else Ok (false, d0)))
        (fun p => se_ictl (lbuf d) d (snd p) /\ (rst d = REParseCiprecvdata -> rst (snd p) = REOk) /\
    (fst p = true -> se_error_line (lbuf d)) /\ (fst p = false -> fReset (fl (snd p)) = fReset (fl d)))).
  { intros d1 I1 L1 F1 R1 S1 X1 Y1 T1.
    assert (Hp1 : eparsed (lbuf d1)) by (rewrite L1; exact Hp).
    pose proof (se_special_parsed P U d1 I1 Hp1 F1) as Q1.
    pose proof (se_special_ctl P U d1 I1 Hp1 F1 S1) as Q2.
    destruct (se_special_reply P d1) as [d2|u]; cbn [bind wp snd] in *; [|exact Q1].
    destruct Q2 as [Q2 Q3]. rewrite L1 in Q2, Q3. rewrite R1 in Q3.
    destruct Q1 as ((_ & (_ & Hk2 & _ & Hlf2) & _ & HL2) & _).
    assert (HY2 : typ d2 = typ d1) by apply Hk2.
    assert (HX2 : fReset (fl d2) = fReset (fl d)).
    { pose proof Q2 as (_ & _ & _ & _ & _ & _ & _ & [E|[_ E]] & _); [congruence|]. exfalso. apply se_error_dec in E. congruence. }
    destruct (se_rank SEConnected <=? se_rank (sst d2)) eqn:Er.
    2:{ cbn [wp fst snd]. splits; auto. discriminate. }
    apply wp_bind. eapply wp_mono; [apply se_unsol_cases; rewrite HL2; exact Hp1|].
    intros d3 Hd3. cbn [wp fst snd]. splits.
    - apply T1. rewrite <- L1. rewrite <- L1 in Q2. eapply se_ictl_check; eauto.
      + apply Nat.leb_le in Er. exact Er.
    - intro Hr. specialize (Q3 Hr (HP Hr)). destruct Hd3 as [->|[(v & _ & _ & _ & ->)|[(v & _ & _ & _ & ->)|[[_ ->]|[_ ->]]]]]; exact Q3.
    - discriminate.
    - intros _. rewrite <- HX2. destruct Hd3 as [->|[(v & _ & _ & _ & ->)|[(v & _ & _ & _ & ->)|[[_ ->]|[_ ->]]]]]; reflexivity. }
  rewrite <- L0 in T0. destruct Hc as [->|(w & Hw & Hm & ->)].
  - apply HX; auto. rewrite <- L0. exact T0.
  - apply HX; auto. rewrite <- L0. intros d2 K. apply T0. apply se_ictl_wait with w; auto.
Qed.

(** Nothing but bytes of an unfinished line, or of discarded payload. *)
Definition se_same (d d' : dv) : Prop :=
  sst d' = sst d /\ rst d' = rst d /\ cst d' = cst d /\ wait d' = wait d /\ rssi d' = rssi d /\ ext d' = ext d /\
  fConnect (fl d') = fConnect (fl d) /\ fReset (fl d') = fReset (fl d) /\ fData (fl d') = fData (fl d) /\
  fDisc (fl d') = fDisc (fl d) /\ fIp (fl d') = fIp (fl d) /\ fLock (fl d') = fLock (fl d).

Definition se_in (d d' : dv) : Prop :=
  se_same d d' \/
  exists tk, ioeff (io d) (io d') tk [] /\ se_whole d (pending d ++ tk) /\ se_ictl (pending d ++ tk) d d'.

Lemma se_header_prefix : forall r L, se_header r L = true -> prefixb (bs "+CIPRECVDATA") L = true.
Proof.
  intros r L H. unfold se_header in H. apply andb_true_iff in H as [_ H]. apply orb_true_iff in H.
  assert (HX : forall c, prefixb (bs "+CIPRECVDATA" ++ [c]) L = true -> prefixb (bs "+CIPRECVDATA") L = true).
  { intros c Hc. apply prefixb_spec in Hc as [u ->]. rewrite <- app_assoc. apply prefixb_spec. eauto. }
  destruct H as [H|H]; apply andb_true_iff in H as [_ H]; exact (HX _ H).
Qed.

Lemma se_ictl_line : forall L r d y d', se_ends (typ d) (rst d) L = true -> (rst (se_took L d) = REParseCiprecvdata -> rst d' = REOk) ->
  se_ictl (L ++ NUL :: r) (set_lbfill 0 (set_lbuf (L ++ NUL :: r) (set_io y (se_took L d)))) d' -> se_ictl L d d'.
Proof.
  intros L r d y d' HE HR H.
  assert (HP : forall lit, forallb (fun c => negb (Ascii.eqb c NUL)) lit = true -> prefixb lit (L ++ NUL :: r) = prefixb lit L).
  { intros lit Hl. apply prefixb_line. intro Hin. rewrite forallb_forall in Hl. apply Hl in Hin. rewrite Ascii.eqb_refl in Hin. discriminate. }
  unfold se_ictl, se_error_line, se_move, se_send_fail in *.
  rewrite (HP se_opened eq_refl), (HP (bs "ERROR") eq_refl), (HP (bs "FAIL") eq_refl), (HP (bs "SEND FAIL") eq_refl),
    (HP (bs "+CWJAP:") eq_refl), (HP (bs "No AP") eq_refl), (HP mac_lit eq_refl), (HP (bs "CLOSED") eq_refl), (HP (bs "+IPD") eq_refl),
    (HP (bs "+CIPRECVDATA") eq_refl), (HP (bs "WIFI DISCONNECT") eq_refl) in H.
  destruct (se_took_eq L d) as [E|[(Ew & Eh & E)|E]]; [| |congruence]; rewrite E in *.
  - clear E HR. unfold se_conf, se_cfg, se_sync, ip_is_connected in *. ddev d. dsimp. exact H.
  - specialize (HR eq_refl). pose proof (se_header_prefix _ _ Eh) as Hpx. clear E Eh HE.
    destruct H as (A1 & A2 & (A3 & A3' & A3'') & A4 & A5 & A6 & A7 & A8 & A9 & (A10 & A10') & A11 & A12 & A13 & A14 & A15 & A16 & A17).
    unfold se_conf, se_cfg, se_sync, ip_is_connected in *. ddev d. dsimp. subst rs0. cbn [se_receipt] in *.
    splits; auto.
    + destruct A9 as [A9|[A9 _]]; [left; exact A9|discriminate].
    + destruct A11 as [B9|[B9 _]]; [left; exact B9|discriminate].
Qed.

Lemma se_took_ready : forall L d, se_ends (typ d) (rst d) L = true -> rst d <> REParseCiprecvdata -> rst (se_took L d) = REParseCiprecvdata ->
  prefixb (bs "+CIPRECVDATA") L = true.
Proof.
  intros L d HE HN HT. destruct (se_took_eq L d) as [E|[(Ew & Eh & E)|E]]; [congruence| |congruence]. exact (se_header_prefix _ _ Eh).
Qed.

Lemma se_input_ctl : forall P (U : Prop) d, se_inv d -> se_line d -> se_sync d -> rst d <> REParseCiprecvdata ->
  wp U (se_input P d) (fun p => se_in d (snd p) /\ se_line (snd p) /\ rst (snd p) <> REParseCiprecvdata /\
    (fst p = false -> fReset (fl (snd p)) = fReset (fl d)) /\ (typ d = TCP -> se_tline d -> se_tline (snd p))).
Proof.
  intros P U d H HL HS HN.
  pose proof H as Hi. destruct Hi as (Hd & Hcm).
  unfold se_input in *. pose proof (se_fill_ok d ltac:(apply Hd) ltac:(apply Hd)) as Hf.
  destruct (se_fill d) as [[b d1]|u] eqn:Ef; cbn [wp bind] in *; [|contradiction].
  destruct b.
  - destruct Hf as [[E _]|(y & tk & lb & r & E & F & HI & Hlb & Htk & Hwl & Hlb2)]; [discriminate|].
    inversion E. subst d1. clear E. set (L := pending d ++ tk) in *.
    assert (HE : se_ends (typ d) (rst d) L = true) by (destruct Hwl as (? & ? & _ & _ & _ & _ & X); exact X).
    assert (Hp : eparsed lb) by (rewrite Hlb2; eapply se_whole_parsed; [exact Hwl|rewrite <- Hlb2; exact Hlb]).
    pose proof (se_took_ready L d HE HN) as Htr.
    destruct (se_took_keep L d) as (T1 & T2 & T3 & T4 & T5 & T6 & _ & _ & _ & T7 & _).
    pose proof (se_took_inv L d H) as Ht.
    assert (Hst : se_sync (se_took L d)).
    { unfold se_sync in *. rewrite T5. destruct (se_took_eq L d) as [E|[(Ew & Eh & E)|E]]; [rewrite E; exact HS| |congruence].
      intros _. apply HS. rewrite Ew. reflexivity. }
    pose proof (se_ictl_line L r d y) as TR. set (dt := se_took L d) in *.
    assert (H1 : se_inv (set_lbfill 0 (set_lbuf lb (set_io y dt)))).
    { pose proof (proj1 Hp) as Hp'. rewrite <- T1 in HI. clearbody dt. clear - Ht HI Hp'. open_inv dt Ht. inv_leaf. }
    assert (HPR : rst (set_lbfill 0 (set_lbuf lb (set_io y dt))) = REParseCiprecvdata ->
       prefixb (bs "+CIPRECVDATA") (lbuf (set_lbfill 0 (set_lbuf lb (set_io y dt)))) = true).
    { intro Hr. change (rst dt = REParseCiprecvdata) in Hr. apply Htr in Hr. change (prefixb (bs "+CIPRECVDATA") lb = true). rewrite Hlb2. rewrite prefixb_line by lfree. exact Hr. }
    pose proof (se_parse_parsed P U _ H1 Hp eq_refl) as Q1.
    pose proof (se_parse_ctl P U _ H1 Hp eq_refl Hst HPR) as Q2.
    destruct (se_parse P (set_lbfill 0 (set_lbuf lb (set_io y dt)))) as [[ret d2]|]; cbn [wp fst snd] in *; [|exact Q2].
    destruct Q1 as ((_ & (K1 & K2 & K3 & K4) & _) & _). destruct Q2 as (Q2 & Q3 & Q4 & Q5). dsimp.
    assert (Q6 : se_ictl L d d2). { rewrite Hlb2 in Q2. apply TR; auto. }
    splits.
    + right. exists tk. splits; [rewrite K1; exact HI|exact Hwl|exact Q6].
    + intros _. rewrite K4. reflexivity.
    + destruct Q6 as (_ & _ & _ & _ & _ & _ & _ & _ & _ & _ & _ & _ & _ & _ & [Q|Q] & _); congruence.
    + rewrite <- T6. exact Q5.
    + intros Hty Htl. destruct Q6 as (_ & _ & _ & _ & _ & Q & _). apply Q; auto.
      destruct Hd as (_ & _ & _ & _ & _ & _ & _ & _ & _ & _ & Htr0 & _).
      destruct (Z.eq_dec (toRead d) 0) as [|N]; [assumption|]. destruct Htl as [L1 _]; [lia|congruence].
  - destruct Hf as [[_ Hf]|(y & tk & lb & r & E & _)]; [|discriminate].
    assert (Hk : wp U (if fDisc (fl d1) && se_is_receiving (sst d1) then (let* d := at_flush_read_buffer d1 in Ok (false, d)) else Ok (false, d1))
             (fun p => se_same d (snd p) /\ se_line (snd p) /\ (se_tline d -> se_tline (snd p)))).
    2:{ eapply wp_mono; [exact Hk|]; intros [rr dd]; cbn [fst snd]; intros (X1 & X2 & X3); splits; auto; [left; assumption| |].
        - destruct X1 as (_ & -> & _). exact HN.
        - intros _. apply X1. }
    assert (E1 : exists y (tk : bytes) lb, d1 = set_lbfill (lbfill d + length tk) (set_lbuf lb (set_io y d)) /\ (fLine (fl d) = false -> tk = []) /\ serial_wf (ser y)).
    { destruct Hf as [[E F]|[(y & tk & lb & E & F & HI & _)|(y & tk & lb & r & E & _)]]; inversion E; subst d1.
      - exists (io d), [], (lbuf d). splits; auto; [destruct d; cbn; rewrite Nat.add_0_r; reflexivity|apply Hd].
      - exists y, tk, lb. splits; auto; [congruence|exact (ioeff_wf _ _ _ _ HI)]. }
    destruct E1 as (y & tk & lb & -> & Ht & Hy). clear Hf Ef.
    assert (HL' : se_line (set_lbfill (lbfill d + length tk) (set_lbuf lb (set_io y d)))).
    { unfold se_line in *. gs. intro F. rewrite (Ht F), (HL F). reflexivity. }
    destruct (fDisc _ && _) eqn:Ed.
    + apply wp_bind. assert (Htr : (0 <= toRead d)%Z) by apply Hd. apply wp_flush_read_buffer; [exact Hy|exact Htr|].
      clear Hd Hcm H HS Htr HN. intros y2 tk2 _ _ Hle. unfold se_line, se_tline in *. unfold se_same. ddev d. dsimp. cbn [wp snd].
      destruct (_ =? _)%Z eqn:Eq; gs; splits; auto; try (intros; lia); try discriminate; try (intros X ?; apply X; lia).
    + cbn [wp snd]. split; [|split; [exact HL'|auto]]. unfold se_same. ddev d. dsimp. splits; reflexivity.
Qed.
