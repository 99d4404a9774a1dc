(** The control flow of the CC1352P7 driver: a whole run. *)
From Coq Require Import String Ascii ZArith List Bool Arith Lia ZifyBool ZifyNat.
From Verif Require Import Base QueueSpec LineSpec SerialSpec Ring RingProofs LineRing LineRingProofs Serial SerialProofs
  SerStep TaskMacros CStr CStrProofs Dev DevProofs SimDev SimProofs SimSpec Sym DrvStep DrvCommon Espressif Cc1352 CcSpec CcProofs CcCtl CcCtlIn.
Import ListNotations.
Local Open Scope nat_scope.
Ltac Zify.zify_post_hook ::= Z.div_mod_to_equations.
Local Notation dv := (dev ccsend ccreply ccx).


Lemma sc_standard_cases : forall (U : Prop) d, sc_inv d -> parsed (lbuf d) ->
  wp U (sc_standard_reply d) (fun d' =>
    d' = d \/ (exists w, wait d = Some w /\ prefixb w (lbuf d) = true /\ d' = set_wait None d)).
Proof.
  intros U d H Hp. open_inv d H. unfold sc_standard_reply. gs. destruct wt0; symsi.
  all: cases; first [left; reflexivity | right; eexists; splits; [reflexivity|eassumption|reflexivity]].
Qed.

(** A data or a close notice. *)
Definition sc_notice (P : plat) (d d' : dv) : Prop :=
  d' = d \/
  (exists v, prefixb (bs "+IPD") (lbuf d) = true /\ strtol P (skipn 5 (lbuf d)) = Ok v /\ d' = on_data true (set_toReceive (u64 v) d)) \/
  (prefixb (bs "CLOSED") (lbuf d) = true /\ d' = on_ip false d).
Lemma sc_unsol_cases : forall P (U : Prop) (d : dv), cparsed (lbuf d) ->
  wp U (sc_unsolicited P d) (sc_notice P d).
Proof. intros P U d Hp. unfold sc_notice. symsj; eauto 6. Qed.

Lemma sc_ictl_wait : forall d d' w, wait d = Some w -> prefixb w (lbuf d) = true -> sc_ictl (lbuf d) (set_wait None d) d' -> sc_ictl (lbuf d) d d'.
Proof.
  intros d d' w Hw Hm (A1 & A2 & A3 & A4 & A5 & A6 & A7 & A8 & A9 & A10 & A11 & A12 & A13 & A14). unfold sc_ictl.
  ddev d. unfold sc_cfg, sc_sync, sc_line_in in *. dsimp. splits; auto; try apply A3.
  - intros C HO (K1 & K2 & K3 & K4). apply A4; [exact HO|]. unfold sc_conf. gs. dsimp. splits; auto. intro E.
    right. destruct (K1 E) as [K|[K|K]]; auto. right. apply HO. congruence.
Qed.

Lemma sc_error_ctl : forall d, sc_error_line d (lbuf d) ->
  sc_ictl (lbuf d) d (set_wait None (set_cst csGeneralError (on_reset true d))).
Proof.
  intros d Hp. unfold sc_ictl. ddev d. unfold sc_cfg, sc_sync, sc_line_in, sc_line, sc_conf. dsimp. splits; auto.
  - intros C HO (K1 & K2 & K3 & K4). gs. unfold ip_is_connected. gs. splits; auto. discriminate.
  - intros (A & ->) _. split; [lia|congruence].
Qed.

Lemma sc_ictl_check : forall P d d1 d2, sc_ictl (lbuf d) d d1 -> 5 <= sc_rank (sst d1) -> sc_line_in d -> lbfill d1 = 0 ->
  lbuf d1 = lbuf d -> sc_notice P d1 d2 -> sc_ictl (lbuf d) d d2.
Proof.
  intros P d d1 d2 H HR HLin Hlf HL HC. pose proof H as HH.
  destruct HH as (A1 & A2 & A3 & A4 & A5 & A6 & A7 & A8 & A9 & A10 & A11 & A12 & A13 & A14).
  destruct HC as [->|[(v & E & _ & ->)|[E ->]]]; [assumption| |]; unfold sc_ictl; specialize (A6 HLin Hlf); rewrite HL in E;
    unfold sc_cfg, sc_sync, sc_line in *; ddev d1; dsimp; splits; auto; try apply A3; try apply A6.
Qed.

Lemma sc_parse_ctl : forall P (U : Prop) d, sc_inv d -> cparsed (lbuf d) -> lbfill d = 0 -> sc_line_in d -> sc_sync d ->
  wp U (sc_parse P d) (fun p => sc_ictl (lbuf d) d (snd p)).
Proof.
  intros P U d H Hp Hf Hl Hs.
  unfold sc_parse. rewrite sc_is_error_eq by apply Hp. cbn [bind].
  destruct (_ || _) eqn:He. { apply sc_error_dec in He. cbn [wp snd]. apply sc_error_ctl. exact He. }
  apply wp_bind. eapply wp_mono; [apply sc_standard_cases; [assumption|apply Hp]|]. intros p Hc.
  assert (HN : sc_inv (set_wait None d)) by (clear - H; open_inv d H; inv_leaf).
  assert (HX : forall d1, sc_inv d1 -> lbuf d1 = lbuf d -> lbfill d1 = 0 -> rst d1 = rst d -> sc_line_in d1 -> sc_sync d1 ->
     (forall d2, sc_ictl (lbuf d1) d1 d2 -> sc_ictl (lbuf d) d d2) ->
     wp U (bind (sc_special_reply P d1) (fun d0 =>
        if sc_rank SCConnected <=? sc_rank (sst d0)
             then let* d2 := sc_unsolicited P d0 in Ok (false, d2) else Ok (false, d0)))
        (fun p => sc_ictl (lbuf d) d (snd p))).
  { intros d1 I1 L1 F1 R1 Li1 S1 T1.
    assert (Hp1 : cparsed (lbuf d1)) by (rewrite L1; exact Hp).
    pose proof (sc_special_parsed P U d1 I1 Hp1 F1) as Q1.
    pose proof (sc_special_ctl P U d1 I1 Hp1 F1 Li1 S1) as Q2.
    destruct (sc_special_reply P d1) as [d2|u]; cbn [bind wp snd] in *; [|exact Q2].
    destruct (sc_rank SCConnected <=? sc_rank (sst d2)) eqn:Er; [|apply T1; exact Q2].
    destruct Q1 as ((_ & (_ & _ & _ & Hlf2) & _ & HL2) & _). apply wp_bind. eapply wp_mono; [apply sc_unsol_cases; rewrite HL2; exact Hp1|].
    intros d3 Hd3. cbn [wp snd]. apply T1. eapply sc_ictl_check; eauto.
    - apply Nat.leb_le in Er. exact Er.
    - congruence. }
  destruct Hc as [->|(w & Hw & Hm & ->)].
  - apply HX; auto.
  - apply HX; auto; unfold sc_line_in in *; gs; auto. intros d2. apply sc_ictl_wait with w; auto.
Qed.

(** Nothing but bytes of an unfinished line, or of discarded payload. *)
Definition sc_same (d d' : dv) : Prop :=
  sst d' = sst d /\ rst d' = rst d /\ cst d' = cst d /\ wait d' = wait d /\ rssi d' = rssi d /\ ext d' = ext d /\
  fConnect (fl d') = fConnect (fl d) /\ fReset (fl d') = fReset (fl d) /\ fData (fl d') = fData (fl d) /\
  fDisc (fl d') = fDisc (fl d) /\ fIp (fl d') = fIp (fl d) /\ fLock (fl d') = fLock (fl d).

Definition sc_in (d d' : dv) : Prop :=
  sc_same d d' \/
  exists tk, ioeff (io d) (io d') tk [] /\ whole_line (pending d ++ tk) /\ sc_ictl (pending d ++ tk) d d'.

Lemma sc_ictl_line : forall L r d y d',
  sc_ictl (L ++ NUL :: r) (set_lbfill 0 (set_lbuf (L ++ NUL :: r) (set_io y d))) d' -> sc_ictl L d d'.
Proof.
  intros L r d y d' H.
  assert (HP : forall lit, forallb (fun c => negb (Ascii.eqb c NUL)) lit = true -> prefixb lit (L ++ NUL :: r) = prefixb lit L).
  { intros lit Hl. apply prefixb_line. intro Hin. rewrite forallb_forall in Hl. apply Hl in Hin. rewrite Ascii.eqb_refl in Hin. discriminate. }
  unfold sc_ictl, sc_error_line in *.
  rewrite (HP sc_opened eq_refl), (HP (bs "ERROR") eq_refl), (HP (bs "SEND FAIL") eq_refl),
    (HP (bs "+CSQ:") eq_refl), (HP mac_lit eq_refl), (HP (bs "CLOSED") eq_refl), (HP (bs "+IPD") eq_refl),
    (HP (bs "+CIPRECVDATA") eq_refl) in H.
  unfold sc_conf, sc_cfg, sc_sync, sc_line_in, ip_is_connected in *. ddev d. dsimp. exact H.
Qed.

Lemma sc_input_ctl : forall P (U : Prop) d, sc_inv d -> sc_line d -> sc_sync d ->
  wp U (sc_input P d) (fun p => sc_in d (snd p) /\ sc_line (snd p)).
Proof.
  intros P U d H HL HS. pose proof (sc_input_step P U d H) as Hin.
  pose proof H as Hi. destruct Hi as (Hd & Hcm).
  unfold sc_input in *. pose proof (fill_ok _ _ _ d ltac:(apply Hd) ltac:(apply Hd)) as Hf.
  destruct (at_fill d) as [[b d1]|u] eqn:Ef; cbn [wp bind] in *; [|contradiction].
  destruct b.
  - destruct Hf as [[E F]|[(y & tk & lb & E & _)|(y & tk & lb & r & E & F & HI & Hlb & Htk & Hwl & Hlb2)]];
      inversion E. subst d1. clear E.
    assert (Hp : cparsed lb) by (rewrite Hlb2; apply whole_cparsed; [exact Hwl|rewrite <- Hlb2; exact Hlb]).
    assert (H1 : sc_inv (set_lbfill 0 (set_lbuf lb (set_io y d)))).
    { pose proof (proj1 Hp) as Hp'. clear - H HI Hp'. open_inv d H. inv_leaf. }
    assert (Hli : sc_line_in (set_lbfill 0 (set_lbuf lb (set_io y d)))).
    { unfold sc_line_in. gs. split; [assumption|]. destruct HL as [L1 _]. destruct Hd as (_ & _ & _ & _ & _ & _ & _ & _ & _ & _ & Ht & _).
      destruct (Z.eq_dec (toRead d) 0) as [|N]; [assumption|]. destruct L1 as [L1 _]; [lia|congruence]. }
    pose proof (sc_parse_parsed P U _ H1 Hp eq_refl) as Q1.
    pose proof (sc_parse_ctl P U _ H1 Hp eq_refl Hli HS) as Q2.
    destruct (sc_parse P (set_lbfill 0 (set_lbuf lb (set_io y d)))) as [[ret d2]|]; cbn [wp snd] in *; [|exact Q2].
    destruct Q1 as ((_ & (K1 & K2 & K3 & K4) & _) & _). dsimp. split.
    + right. exists tk. splits; [rewrite K1; exact HI|exact Hwl|]. rewrite Hlb2 in Q2. eapply sc_ictl_line; exact Q2.
    + destruct Q2 as (_ & _ & _ & _ & _ & Q & _). apply Q; auto.
  - assert (Hk : wp U (if fDisc (fl d1) && sc_is_receiving (sst d1) then (let* d := at_flush_read_buffer d1 in Ok (false, d)) else Ok (false, d1))
             (fun p => sc_same d (snd p) /\ sc_line (snd p))); [|eapply wp_mono; [exact Hk|]; intros [rr dd]; cbn [snd]; intros [X1 X2]; split; [left|]; assumption].
    clear Hin.
    assert (E1 : exists y (tk : bytes) lb, d1 = set_lbfill (lbfill d + length tk) (set_lbuf lb (set_io y d)) /\ (fLine (fl d) = false -> tk = []) /\ serial_wf (ser y)).
    { destruct Hf as [[E F]|[(y & tk & lb & E & F & HI & _)|(y & tk & lb & r & E & _)]]; inversion E; subst d1.
      - exists (io d), [], (lbuf d). splits; auto; [destruct d; cbn; rewrite Nat.add_0_r; reflexivity|apply Hd].
      - exists y, tk, lb. splits; auto; [congruence|exact (ioeff_wf _ _ _ _ HI)]. }
    destruct E1 as (y & tk & lb & -> & Ht & Hy). clear Hf Ef.
    assert (HL' : sc_line (set_lbfill (lbfill d + length tk) (set_lbuf lb (set_io y d)))).
    { unfold sc_line in *. gs. split; [apply HL|]. intro F. rewrite (Ht F), (proj2 HL F). reflexivity. }
    destruct (fDisc _ && _) eqn:Ed.
    + apply wp_bind. assert (Htr : (0 <= toRead d)%Z) by apply Hd. apply wp_flush_read_buffer; [exact Hy|exact Htr|].
      clear Hd Hcm H HS Htr. intros y2 tk2 _ _ Hle. unfold sc_line in *. unfold sc_same. ddev d. dsimp. cbn [wp snd].
      destruct (_ =? _)%Z eqn:Eq; gs; splits; auto; try (intro; lia); try discriminate; try (intro; apply HL'; lia).
      * apply HL'.
    + cbn [wp snd]. split; [|exact HL']. unfold sc_same. ddev d. dsimp. splits; reflexivity.
Qed.
