(** The control flow of the SIM800 driver: a whole run. *)
From Coq Require Import String Ascii ZArith List Bool Arith Lia ZifyBool ZifyNat.
From Verif Require Import Base QueueSpec LineSpec SerialSpec Ring RingProofs LineRing LineRingProofs Serial SerialProofs
  SerStep TaskMacros CStr CStrProofs Dev DevProofs SimDev SimProofs SimSpec Sym DrvStep DrvCommon Sim800 Sim8Spec Sim8Proofs Sim8Ctl Sim8CtlIn.
Import ListNotations.
Local Open Scope nat_scope.
Ltac Zify.zify_post_hook ::= Z.div_mod_to_equations.
Local Notation dv := (dev s8send s8reply simx).


Lemma s8_standard_cases : forall (U : Prop) d, s8_inv d -> parsed (lbuf d) ->
  wp U (s8_standard_reply d) (fun d' =>
    d' = d \/ (exists w, wait d = Some w /\ prefixb w (lbuf d) = true /\ d' = set_wait None d)).
Proof.
  intros U d H Hp. open_inv d H. unfold s8_standard_reply. gs. destruct wt0; symsi.
  all: cases; first [left; reflexivity | right; eexists; splits; [reflexivity|eassumption|reflexivity]].
Qed.

Lemma s8_check_cases : forall (U : Prop) (d : dv), parsed (lbuf d) ->
  wp U (sim_check_connection (bs "0, CLOSED") d) (fun d' =>
    d' = d \/
    (prefixb (bs "+CIPRXGET: 1,0") (lbuf d) = true /\ d' = on_data true d) \/
    (prefixb (bs "0, CLOSED") (lbuf d) = true /\ d' = on_ip false (set_wait None d))).
Proof. intros U d Hp. symsi; auto 6. Qed.

Lemma s8_ictl_wait : forall d d' w, wait d = Some w -> prefixb w (lbuf d) = true -> s8_ictl (lbuf d) (set_wait None d) d' -> s8_ictl (lbuf d) d d'.
Proof.
  intros d d' w Hw Hm (A1 & A2 & A3 & A4 & A5 & A6 & A7 & A8 & A9 & A10 & A11 & A12 & A13 & A14). unfold s8_ictl.
  ddev d. unfold s8_cfg, s8_sync, s8_line_in in *. dsimp. splits; auto; try apply A3; try apply A10.
  - intros C HO (K1 & K2 & K3 & K4). apply A4; [exact HO|]. unfold s8_conf. gs. dsimp. splits; auto. intro E.
    right. destruct (K1 E) as [K|[K|K]]; auto. right. apply HO. congruence.
Qed.

Lemma s8_error_ctl : forall d, s8_error_line (lbuf d) ->
  s8_ictl (lbuf d) d (set_wait None (set_cst csGeneralError (on_reset true d))).
Proof.
  intros d Hp. unfold s8_ictl. ddev d. unfold s8_cfg, s8_sync, s8_line_in, s8_line, s8_conf. dsimp. splits; auto.
  - intros C HO (K1 & K2 & K3 & K4). gs. unfold ip_is_connected. gs. splits; auto. discriminate.
  - intros (A & ->) _. split; [lia|congruence].
Qed.

Lemma s8_ictl_check : forall d d1 d2, s8_ictl (lbuf d) d d1 -> 12 <= s8_rank (sst d1) -> s8_line_in d -> lbfill d1 = 0 ->
  (lbuf d1 = lbuf d \/ prefixb (bs "+CDNSGIP: 1") (lbuf d1) = true) ->
  (d2 = d1 \/ (prefixb (bs "+CIPRXGET: 1,0") (lbuf d1) = true /\ d2 = on_data true d1) \/
   (prefixb (bs "0, CLOSED") (lbuf d1) = true /\ d2 = on_ip false (set_wait None d1))) ->
  s8_ictl (lbuf d) d d2.
Proof.
  intros d d1 d2 H HR HLin Hlf HL HC. pose proof H as HH.
  destruct HH as (A1 & A2 & A3 & A4 & A5 & A6 & A7 & A8 & A9 & A10 & A11 & A12 & A13 & A14).
  destruct HC as [->|[[E ->]|[E ->]]]; [assumption| |]; unfold s8_ictl; specialize (A6 HLin Hlf);
    unfold s8_cfg, s8_sync, s8_line in *; ddev d1; dsimp; splits; auto; try apply A3; try apply A10; try apply A6.
  - right. split; [reflexivity|]. destruct HL as [<-|HL]; [assumption|]. pose proof (prefix_clash _ _ _ HL E) as X. discriminate X.
  - intros C HO HK. specialize (A4 C HO HK). destruct A4 as (K1 & K2 & K3 & K4). unfold s8_conf. gs. dsimp. splits; auto.
    intro Z. subst. cbn in HR. lia.
  - right. split; [reflexivity|]. destruct HL as [<-|HL]; [assumption|]. pose proof (prefix_clash _ _ _ HL E) as X. discriminate X.
Qed.

Lemma s8_parse_ctl : forall P (U : Prop) d, s8_inv d -> parsed (lbuf d) -> lbfill d = 0 -> s8_line_in d -> s8_sync d ->
  (forall a, rst d = R8Cdnsgip -> dns_good (lbuf d) -> dns_ip (str_body (lbuf d)) = Some a -> 15 < length a -> U) ->
  wp U (s8_parse P d) (fun p => s8_ictl (lbuf d) d (snd p)).
Proof.
  intros P U d H Hp Hf Hl Hs HU.
  unfold s8_parse. rewrite s8_is_error_eq by assumption. cbn [bind].
  destruct (_ || _) eqn:He. { apply s8_error_dec in He. cbn [wp snd]. apply s8_error_ctl. exact He. }
  apply wp_bind. eapply wp_mono; [apply s8_standard_cases; assumption|]. intros p Hc.
  assert (HN : s8_inv (set_wait None d)) by (clear - H; open_inv d H; inv_leaf).
  assert (HX : forall d1, s8_inv d1 -> lbuf d1 = lbuf d -> lbfill d1 = 0 -> rst d1 = rst d -> s8_line_in d1 -> s8_sync d1 ->
     (forall d2, s8_ictl (lbuf d1) d1 d2 -> s8_ictl (lbuf d) d d2) ->
     wp U (bind (s8_special_reply P d1) (fun d0 =>
        if s8_rank S8Connected <=? s8_rank (sst d0)
             then let* d2 := sim_check_connection (bs "0, CLOSED") d0 in Ok (false, d2) else Ok (false, d0)))
        (fun p => s8_ictl (lbuf d) d (snd p))).
  { intros d1 I1 L1 F1 R1 Li1 S1 T1.
    assert (Hp1 : parsed (lbuf d1)) by (rewrite L1; exact Hp).
    assert (HU1 : forall a, rst d1 = R8Cdnsgip -> dns_good (lbuf d1) -> dns_ip (str_body (lbuf d1)) = Some a -> 15 < length a -> U)
      by (intro a; rewrite R1, L1; apply HU).
    pose proof (s8_special_parsed P U d1 I1 Hp1 F1 HU1) as Q1.
    pose proof (s8_special_ctl P U d1 I1 Hp1 F1 Li1 S1 HU1) as Q2.
    destruct (s8_special_reply P d1) as [d2|u]; cbn [bind wp snd] in *; [|exact Q2].
    destruct (s8_rank S8Connected <=? s8_rank (sst d2)) eqn:Er; [|apply T1; exact Q2].
    destruct Q1 as ((_ & Hp2 & (_ & _ & _ & Hlf2) & _ & HL2) & _). apply wp_bind. eapply wp_mono; [apply s8_check_cases; exact Hp2|].
    intros d3 Hd3. cbn [wp snd]. apply T1. eapply s8_ictl_check; eauto.
    - apply Nat.leb_le in Er. exact Er.
    - congruence.
    - tauto. }
  destruct Hc as [->|(w & Hw & Hm & ->)].
  - apply HX; auto.
  - apply HX; auto; unfold s8_line_in in *; gs; auto. intros d2. apply s8_ictl_wait with w; auto.
Qed.

(** Nothing but bytes of an unfinished line, or of discarded payload. *)
Definition s8_same (d d' : dv) : Prop :=
  sst d' = sst d /\ rst d' = rst d /\ cst d' = cst d /\ wait d' = wait d /\ rssi d' = rssi d /\ ext d' = ext d /\
  fConnect (fl d') = fConnect (fl d) /\ fReset (fl d') = fReset (fl d) /\ fData (fl d') = fData (fl d) /\
  fDisc (fl d') = fDisc (fl d) /\ fIp (fl d') = fIp (fl d) /\ fLock (fl d') = fLock (fl d).

Definition s8_in (d d' : dv) : Prop :=
  s8_same d d' \/
  exists tk, ioeff (io d) (io d') tk [] /\ whole_line (pending d ++ tk) /\ s8_ictl (pending d ++ tk) d d'.

Lemma s8_ictl_line : forall L r d y d', ~ In NUL L \/ True -> 
  s8_ictl (L ++ NUL :: r) (set_lbfill 0 (set_lbuf (L ++ NUL :: r) (set_io y d))) d' -> s8_ictl L d d'.
Proof.
  intros L r d y d' _ H.
  assert (HP : forall lit, forallb (fun c => negb (Ascii.eqb c NUL)) lit = true -> prefixb lit (L ++ NUL :: r) = prefixb lit L).
  { intros lit Hl. apply prefixb_line. intro Hin. rewrite forallb_forall in Hl. apply Hl in Hin. rewrite Ascii.eqb_refl in Hin. discriminate. }
  unfold s8_ictl, s8_error_line in *.
  rewrite (HP s8_opened eq_refl), (HP (bs "ERROR") eq_refl), (HP (bs "+PDP: DEACT") eq_refl), (HP (bs "+CME ERROR") eq_refl), (HP (bs "0, CONNECT FAIL") eq_refl), (HP (bs "+CDNSGIP: 0") eq_refl),
    (HP (bs "+CSQ: ") eq_refl), (HP (bs "+CDNSGIP: 1") eq_refl), (HP (bs "0, CLOSED") eq_refl), (HP (bs "+CIPRXGET: 1,0") eq_refl),
    (HP (bs "+CIPRXGET: 2,0,") eq_refl) in H.
  unfold s8_conf, s8_cfg, s8_sync, s8_line_in, ip_is_connected in *. ddev d. dsimp. exact H.
Qed.

Lemma s8_input_ctl : forall P (U : Prop) d, s8_inv d -> s8_line d -> s8_sync d -> (s8_long_dns d -> U) ->
  wp U (s8_input P d) (fun p => s8_in d (snd p) /\ s8_line (snd p)).
Proof.
  intros P U d H HL HS HU. pose proof (s8_input_step P U d H HU) as Hin.
  pose proof H as Hi. destruct Hi as (Hd & Hip & Hid & Hmx & Hipn & Hidn).
  unfold s8_input in *. pose proof (fill_ok _ _ _ d ltac:(apply Hd) ltac:(apply Hd)) as Hf.
  destruct (at_fill d) as [[b d1]|u] eqn:Ef; cbn [wp bind] in *; [|contradiction].
  destruct b.
  - destruct Hf as [[E F]|[(y & tk & lb & E & _)|(y & tk & lb & r & E & F & HI & Hlb & Htk & Hwl & Hlb2)]];
      inversion E. subst d1. clear E.
    assert (Hp : parsed lb) by (exact (fill_parsed _ _ _ Hlb2 Hlb)).
    assert (H1 : s8_inv (set_lbfill 0 (set_lbuf lb (set_io y d)))).
    { clear - H HI Hp. open_inv d H. inv_leaf. }
    assert (HD : forall a, rst d = R8Cdnsgip -> dns_good lb -> dns_ip (str_body lb) = Some a -> 15 < length a -> U).
    { intros a A1 A2 A3 A4. apply HU. exists (set_lbfill 0 (set_lbuf lb (set_io y d))), a. splits; auto. }
    assert (Hli : s8_line_in (set_lbfill 0 (set_lbuf lb (set_io y d)))).
    { unfold s8_line_in. gs. split; [assumption|]. destruct HL as [L1 _]. destruct Hd as (_ & _ & _ & _ & _ & _ & _ & _ & _ & _ & Ht & _).
      destruct (Z.eq_dec (toRead d) 0) as [|N]; [assumption|]. destruct L1 as [L1 _]; [lia|congruence]. }
    pose proof (s8_parse_parsed P U _ H1 Hp eq_refl HD) as Q1.
    pose proof (s8_parse_ctl P U _ H1 Hp eq_refl Hli HS HD) as Q2.
    destruct (s8_parse P (set_lbfill 0 (set_lbuf lb (set_io y d)))) as [[ret d2]|]; cbn [wp snd] in *; [|exact Q2].
    destruct Q1 as ((_ & _ & (K1 & K2 & K3 & K4) & _) & _). dsimp. split.
    + right. exists tk. splits; [rewrite K1; exact HI|exact Hwl|]. rewrite Hlb2 in Q2. eapply s8_ictl_line; [right; exact I|exact Q2].
    + destruct Q2 as (_ & _ & _ & _ & _ & Q & _). apply Q; auto.
  - assert (Hr : wp U (if fDisc (fl d1) && s8_is_receiving (sst d1) then (let* d := at_flush_read_buffer d1 in Ok (false, d)) else Ok (false, d1))
             (fun p => dok (snd p) /\ sst (snd p) = sst d /\ rst (snd p) = rst d /\ ext (snd p) = ext d /\
               istep s8_insend (fun _ => whole_line) (fun _ => partial_line) s8_clears (fun _ => False) d (fst p) (snd p)))
      by (apply (input_rest _ _ _ s8_insend s8_clears U (s8_is_receiving (sst d1)) d d1 Hd Hf)).
    assert (Hk : wp U (if fDisc (fl d1) && s8_is_receiving (sst d1) then (let* d := at_flush_read_buffer d1 in Ok (false, d)) else Ok (false, d1))
             (fun p => s8_same d (snd p) /\ s8_line (snd p))); [|eapply wp_mono; [exact Hk|]; intros [rr dd]; cbn [snd]; intros [X1 X2]; split; [left|]; assumption].
    clear Hr Hin.
    assert (E1 : exists y (tk : bytes) lb, d1 = set_lbfill (lbfill d + length tk) (set_lbuf lb (set_io y d)) /\ (fLine (fl d) = false -> tk = []) /\ serial_wf (ser y)).
    { destruct Hf as [[E F]|[(y & tk & lb & E & F & HI & _)|(y & tk & lb & r & E & _)]]; inversion E; subst d1.
      - exists (io d), [], (lbuf d). splits; auto; [destruct d; cbn; rewrite Nat.add_0_r; reflexivity|apply Hd].
      - exists y, tk, lb. splits; auto; [congruence|exact (ioeff_wf _ _ _ _ HI)]. }
    destruct E1 as (y & tk & lb & -> & Ht & Hy). clear Hf Ef.
    assert (HL' : s8_line (set_lbfill (lbfill d + length tk) (set_lbuf lb (set_io y d)))).
    { unfold s8_line in *. gs. split; [apply HL|]. intro F. rewrite (Ht F), (proj2 HL F). reflexivity. }
    destruct (fDisc _ && _) eqn:Ed.
    + apply wp_bind. assert (Htr : (0 <= toRead d)%Z) by apply Hd. apply wp_flush_read_buffer; [exact Hy|exact Htr|].
      clear Hd Hip Hid Hmx Hipn H HS HU Htr. intros y2 tk2 _ _ Hle. unfold s8_line in *. unfold s8_same. ddev d. dsimp. cbn [wp snd].
      destruct (_ =? _)%Z eqn:Eq; gs; splits; auto; try (intro; lia); try discriminate; try (intro; apply HL'; lia).
      * apply HL'.
    + cbn [wp snd]. split; [|exact HL']. unfold s8_same. ddev d. dsimp. splits; reflexivity.
Qed.
