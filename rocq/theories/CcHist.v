(** Histories of calls to the CC1352P7 driver: it meets the contract of DrvRun.v. *)
From Coq Require Import String Ascii ZArith List Bool Arith Lia ZifyBool ZifyNat.
From Verif Require Import Base QueueSpec LineSpec SerialSpec Ring RingProofs LineRing LineRingProofs Serial SerialProofs
  SerStep TaskMacros CStr CStrProofs Dev DevProofs SimDev SimProofs SimSpec Sym DrvStep DrvCommon DrvRun
  Espressif Cc1352 CcSpec CcProofs CcCtl CcCtlIn CcRun.
Import ListNotations.
Local Open Scope nat_scope.
Ltac Zify.zify_post_hook ::= Z.div_mod_to_equations.
Local Notation dv := (dev ccsend ccreply ccx).

(** After an error that asks for a reset, run() returns. *)
Lemma sc_special_reset : forall P (U : Prop) d, sc_inv d -> cparsed (lbuf d) ->
  wp U (sc_special_reply P d) (fun d' => fReset (fl d') = fReset (fl d)).
Proof.
  intros P U d H Hc. pose proof (proj1 Hc) as Hp. open_inv d H. unfold sc_special_reply. gs. destruct rs0; try destruct wt0; symsj.
  all: cases; gs; reflexivity.
Qed.

Lemma sc_parse_reset : forall P (U : Prop) d, sc_inv d -> cparsed (lbuf d) -> lbfill d = 0 ->
  wp U (sc_parse P d) (fun p => fst p = false -> fReset (fl (snd p)) = fReset (fl d)).
Proof.
  intros P U d H Hp Hf. unfold sc_parse. rewrite sc_is_error_eq by apply Hp. cbn [bind].
  destruct (_ || _) eqn:He; [cbn [wp fst]; discriminate|]. apply wp_bind.
  eapply wp_mono; [apply sc_standard_cases; [assumption|apply Hp]|]. intros p Hc.
  assert (HN : sc_inv (set_wait None d)) by (clear - H; open_inv d H; inv_leaf).
  assert (HX : forall d1, sc_inv d1 -> lbuf d1 = lbuf d -> lbfill d1 = 0 -> rst d1 = rst d -> fReset (fl d1) = fReset (fl d) ->
     wp U (bind (sc_special_reply P d1) (fun d0 =>
        if sc_rank SCConnected <=? sc_rank (sst d0)
             then let* d2 := sc_unsolicited P d0 in Ok (false, d2) else Ok (false, d0)))
        (fun p => fst p = false -> fReset (fl (snd p)) = fReset (fl d))).
  { intros d1 I1 L1 F1 R1 X1.
    assert (Hp1 : cparsed (lbuf d1)) by (rewrite L1; exact Hp).
    pose proof (sc_special_parsed P U d1 I1 Hp1 F1) as Q1.
    pose proof (sc_special_reset P U d1 I1 Hp1) as Q2.
    destruct (sc_special_reply P d1) as [d2|u]; cbn [bind wp fst snd] in *; [|exact Q2]. rewrite X1 in Q2.
    destruct (sc_rank SCConnected <=? sc_rank (sst d2)) eqn:Er; [|cbn [wp fst snd]; auto].
    destruct Q1 as ((_ & _ & _ & HL2) & _). apply wp_bind. eapply wp_mono; [apply sc_unsol_cases; rewrite HL2; exact Hp1|].
    intros d3 Hd3. cbn [wp fst snd]. intros _. destruct Hd3 as [->|[(v & _ & _ & ->)|[_ ->]]]; auto. }
  destruct Hc as [->|(w & Hw & Hm & ->)]; apply HX; auto.
Qed.

Lemma sc_input_reset : forall P (U : Prop) d, sc_inv d ->
  wp U (sc_input P d) (fun p => fst p = false -> fReset (fl (snd p)) = fReset (fl d)).
Proof.
  intros P U d H.
  pose proof H as Hi. destruct Hi as (Hd & Hcm).
  unfold sc_input in *. pose proof (fill_ok _ _ _ d ltac:(apply Hd) ltac:(apply Hd)) as Hf.
  destruct (at_fill d) as [[b d1]|u] eqn:Ef; cbn [wp bind] in *; [|contradiction].
  destruct b.
  - destruct Hf as [[E F]|[(y & tk & lb & E & _)|(y & tk & lb & r & E & F & HI & Hlb & Htk & Hwl & Hlb2)]];
      inversion E. subst d1. clear E.
    assert (Hp : cparsed lb) by (rewrite Hlb2; apply whole_cparsed; [exact Hwl|rewrite <- Hlb2; exact Hlb]).
    assert (H1 : sc_inv (set_lbfill 0 (set_lbuf lb (set_io y d)))).
    { pose proof (proj1 Hp) as Hp'. clear - H HI Hp'. open_inv d H. inv_leaf. }
    eapply wp_mono; [apply sc_parse_reset; [exact H1|exact Hp|reflexivity]|].
    intros p Hq. exact Hq.
  - assert (G : fl d1 = fl d /\ swf d1 /\ toRead d1 = toRead d).
    { destruct Hf as [[E F]|[(y & tk & lb & E & F & HI & _)|(y & tk & lb & r & E & _)]]; inversion E; subst d1.
      - split; [reflexivity|]. split; [apply Hd|reflexivity].
      - split; [reflexivity|]. split; [exact (ioeff_wf _ _ _ _ HI)|reflexivity]. }
    destruct G as (G1 & G2 & G3). destruct (fDisc (fl d1) && sc_is_receiving (sst d1)).
    + apply wp_bind. apply wp_flush_read_buffer; [assumption|rewrite G3; apply Hd|].
      intros y tk HI _ _. cbn [wp fst snd]. intros _. rewrite <- G1.
      cbv zeta. destruct (toRead d1 =? _)%Z; destruct d1; reflexivity.
    + cbn [wp fst snd]. intros _. rewrite G1. reflexivity.
Qed.

Lemma sc_same_ictl : forall L d d', sc_same d d' -> sc_line d' -> sc_ictl L d d'.
Proof.
  intros L d d' (A1 & A2 & A3 & A4 & A5 & A6 & A7 & A8 & A9 & A10 & A11 & A12) HL.
  unfold sc_ictl, sc_cfg, sc_conf, sc_sync, ip_is_connected. rewrite A1, A2, A3, A4, A5, A6, A7, A8, A9, A10, A11, A12.
  splits; auto.
Qed.

(** The invariant kept by every call; [N]: the MAC address buffer holds a string. *)
Definition sc_all (N : Prop) (d : dv) : Prop :=
  sc_inv d /\ sc_line d /\ sc_sync d /\ (sc_cfg d -> exists h, host d = PStr h) /\ (N -> In NUL (cmac (ext d))).

Definition sc_rctl (d d' : dv) : Prop :=
  sst d' = SCSendCipclose /\ rst d' = RCOk /\ wait d' = None /\
  fl d' = fl (if sc_reconnects d then on_connect true (on_reset false d) else on_reset false d) /\ ext d' = ext d /\ rssi d' = rssi d.

(** What is known about each action besides its label. *)
Definition sc_in_ext (P : plat) (d : dv) (r : bool) (a : act) (d' : dv) : Prop :=
  (sc_inv d /\ sc_line d) /\ match a with aLine _ L => sc_ictl L d d' /\ sc_handles P d r d' L | _ => sc_same d d' end.
Definition sc_out_ext (P : plat) (d : dv) (_ : act) (d' : dv) : Prop := sc_inv d /\ sc_octl d d' /\ sc_output P d = Ok d'.

Definition sc_shape (P : plat) : shape ccsend ccreply ccx :=
  mkShape rc_ok (sc_says P) sc_tail sc_insend false (fun _ => whole_line) (fun _ => partial_line) sc_clears
    [] SCSerialError false true sc_rctl (sc_in_ext P) (sc_out_ext P).

(** getMac() reads past a buffer without a terminating NUL. *)
Definition sc_may_fail (N : Prop) (o : dop ccop) (d : dv) : Prop :=
  match o with OpX CGetMac => ~ N /\ wait d = None /\ ~ In NUL (cmac (ext d)) | _ => False end.
Definition sc_goodx (x : ccop) : Prop := True.

Lemma sc_all_set : forall N (f : dv -> dv),
  (forall d, sc_inv d -> sc_inv (f d)) -> (forall d, sc_line d -> sc_line (f d)) -> (forall d, sc_sync d -> sc_sync (f d)) ->
  (forall d, sc_cfg (f d) -> sc_cfg d) -> (forall d, ext (f d) = ext d) -> (forall d, host (f d) = host d) ->
  forall d, sc_all N d -> sc_all N (f d).
Proof.
  intros N f H1 H2 H3 H4 H5 H6 d (I1 & I2 & I3 & I4 & I5). unfold sc_all. rewrite H5, H6. splits; auto; intro; apply I4; auto.
Qed.

(** The part of run() after the reset. *)
Lemma sc_rest_rrun : forall N P oo d l d0, sc_all N d0 -> runs (sc_shape P) d l -> prerun (sc_shape P) d l d0 -> fReset (fl d0) = false ->
  wp False (let* (ret, d) := sc_input P d0 in if ret then Ok d else sc_output P d)
    (fun d' => sc_all N d' /\ exists l, rrun (sc_shape P) oo d l d').
Proof.
  intros N P oo d0 l d (HI & HL & HS & HC & HN) Hrun Hpre Er.
  pose proof (sc_input_step P False d HI) as Q1.
  pose proof (sc_input_ctl P False d HI HL HS) as Q2.
  pose proof (sc_input_reset P False d HI) as Q3.
  destruct (sc_input P d) as [[ret d1]|u] eqn:Ei; [|exact Q1]. cbn [wp bind fst snd] in *.
  destruct Q1 as (I1 & a & Ha & Hln). destruct Q2 as (Hin & HL1).
  assert (Hx : sh_iext (sc_shape P) d ret a d1).
  { cbn [sh_iext sc_shape]. split; [exact (conj HI HL)|]. destruct Ha.
    - unfold sc_same. repeat match goal with H : ?f d1 = _ |- _ => rewrite H; clear H end. splits; reflexivity.
    - unfold sc_same. repeat match goal with H : ?f d1 = ?f d |- _ => rewrite H; clear H end.
      match goal with H : fl d1 = _ \/ _ |- _ => destruct H as [-> | ->] end; splits; reflexivity.
    - split; [|exact (Hln _ _ eq_refl)]. destruct Hin as [Hin|(tk' & E1 & _ & E2)]; [apply sc_same_ictl; assumption|].
      subst L. match goal with H : ioeff _ _ tk [] |- _ => destruct (ioeff_fun _ _ _ _ _ _ H E1) as [-> _] end. exact E2. }
  assert (Hctl : (sc_cfg d1 -> sc_cfg d) /\ (In NUL (cmac (ext d)) -> In NUL (cmac (ext d1))) /\ sc_sync d1 /\ fLock (fl d1) = fLock (fl d)).
  { cbn [sh_iext sc_shape] in Hx. destruct Hx as [_ Hx]. destruct a; try (destruct Hx as (X1 & X2 & X3 & X4 & X5 & X6 & X7 & X8 & X9 & X10 & X11 & X12);
      unfold sc_cfg, sc_sync in *; rewrite X1, X2, X6, X7; auto).
    destruct Hx as [(_ & X1 & (_ & _ & X3) & _ & X4 & _ & _ & _ & _ & X2 & _) _]. splits; auto. destruct X2 as [->|(_ & _ & X2)]; auto. }
  destruct Hctl as (Hcf & Hap & HS1 & Hlk).
  assert (Hho : host d1 = host d) by (destruct Ha; match goal with H : keep d d1 |- _ => apply H end).
  assert (HC1 : sc_cfg d1 -> (exists h, host d1 = PStr h)).
  { intro Hc. rewrite Hho. auto. }
  destruct ret.
  { cbn [wp]. split; [unfold sc_all; splits; auto|]. exists (l ++ [a]).
    exact (rr_line (sc_shape P) oo d0 l d a d1 Hrun Hpre Ha Hx). }
  specialize (Q3 eq_refl).
  assert (G1 : sst d1 = SCSendCipstart -> not_str (host d1) -> False).
  { intros E Hn. destruct HC1 as [hs Es]; [left; rewrite E; cbn; lia|]. exact (Hn hs Es). }
  pose proof (sc_output_inv P False d1 I1 G1) as O1.
  pose proof (sc_output_step P False d1 I1 G1) as O2.
  assert (O3 : wp False (sc_output P d1) (sc_octl d1)).
  { apply sc_output_ctl; auto. congruence. }
  destruct (sc_output P d1) as [d2|u] eqn:Eout; [|exact O1]. cbn [wp] in *. destruct O2 as [b O2]. split.
  - destruct O3 as (_ & C1 & C2 & _ & _ & _ & _ & _ & C3 & _ & C4 & _).
    split; [assumption|]. split; [auto|]. split; [auto|]. split; [|auto]. intro Hc.
    assert (host d2 = host d1) as -> by (destruct O2; first [assumption | match goal with H : keep d1 d2 |- _ => apply H end]).
    auto.
  - exists (l ++ [a; b]). exact (rr_full (sc_shape P) oo d0 l d a d1 b d2 Hrun Hpre Ha Hx O2 (conj I1 (conj O3 Eout))).
Qed.

Lemma sc_run_rrun : forall N P oo d, sc_all N d ->
  wp False (sc_run P oo d) (fun d' => sc_all N d' /\ exists l, rrun (sc_shape P) oo d l d').
Proof.
  intros N P oo d HA. pose proof HA as (HI & HL & HS & HC & HN). unfold sc_run.
  destruct (isopen d) eqn:Eo; cbn [negb].
  2:{ cbn [wp]. destruct oo.
      - split; [|exists []; apply rr_open; auto]. revert HA. apply sc_all_set; auto.
      - split; [|exists []; apply (rr_fail (sc_shape P)); auto]. split; [|split; [|split; [|split; [|exact HN]]]].
        + clear - HI. open_inv d HI. inv_leaf.
        + destruct HL as [L1 L2]. split; [|exact L2]. gs. intro. destruct L1; auto.
        + unfold sc_sync in *. gs. destruct (rst d); auto.
        + gs. intro Hc. apply HC. unfold sc_cfg in *. gs. destruct Hc as [Hc|Hc]; [cbn in Hc; lia|auto]. }
  assert (Hrun : forall l, runs (sc_shape P) d l) by (intro l; unfold runs; cbn [sc_shape sh_goon sh_lock]; splits; auto; discriminate).
  destruct (fReset (fl d)) eqn:Er.
  2:{ cbn [bind]. apply (sc_rest_rrun N P oo d [] d); auto. left. auto. }
  apply wp_bind. eapply wp_mono; [apply sc_reset_inv; exact HI|].
  intros d' (J1 & J2 & J3 & J4 & J5 & J6 & J8 & J9 & J10 & J11 & J7 & J12 & J13 & ev & K1 & K2 & K3 & K4 & K5 & K6).
  assert (Hf' : fReset (fl d') = false /\ fLine (fl d') = fLine (fl d)) by (rewrite J7; destruct (sc_reconnects d); split; reflexivity).
  assert (HA' : sc_all N d').
  { split; [assumption|]. split; [|split; [|split; [|rewrite J12; exact HN]]].
    - unfold sc_line. rewrite J5, (proj2 Hf'). split; [lia|]. destruct J9 as [_ ->]. apply HL.
    - unfold sc_sync. rewrite J2. exact I.
    - intro Hc. destruct J8 as (_ & _ & _ & _ & -> & _). unfold sc_cfg in Hc. rewrite J7, J11 in Hc.
      destruct Hc as [Hc|Hc]; [cbn in Hc; lia|].
      destruct (sc_reconnects d) eqn:Ec; [|apply HC; right; exact Hc]. unfold sc_reconnects in Ec. destruct (host d); try discriminate. eauto. }
  eapply wp_mono_ub; [apply (sc_rest_rrun N P oo d [aReset []] d' HA' (Hrun _))|..].
  - right. split; [assumption|]. exists []. split; [reflexivity|]. split.
    + unfold resets. cbn [sh_reset sh_ok sh_insend sc_shape]. rewrite J2, J3, J11. splits; auto; try apply Hf'.
      * exists (io d'), ev. splits; auto. apply ioeff_refl. apply J1.
      * discriminate.
    + cbn. unfold sc_rctl. splits; auto.
  - apply Hf'.
  - intros [].
  - auto.
Qed.

Definition sc_reseted (y : sys) (d : dv) : dv :=
  mkDev y (isopen d) (ring_flush (rbuf d)) (ring_flush (wbuf d)) (typ d) (host d) (port d) flags_line_read
    csNotConnected None (lbuf d) 0 SCNotConnected RCOk 0%Z 0%Z 0%Z 255%Z (tsk d) (ext d).

Lemma sc_reseted_all : forall (N : Prop) (y : sys) (d : dv), dok d -> length (cmac (ext d)) = 24 -> (N -> In NUL (cmac (ext d))) ->
  serial_wf (ser y) -> rxsz y = rxsz (io d) -> txsz y = txsz (io d) -> sc_all N (sc_reseted y d).
Proof.
  intros N y d Hd Hcm HN Hw Hc1 Hc2. split; [|split; [|split; [|split; [|exact HN]]]].
  - destruct Hd as (Hwf & Hr & Ht & Hrw & Hrs & Hww & Hws & Hwf2 & Hl & Hwa & Htr & Htc & Hpo). ddev d. dsimp.
    unfold sc_inv, dok, line_ok, fits, sc_reseted in *. cbn [io isopen rbuf wbuf typ host port fl cst wait lbuf lbfill sst rst toWrite toReceive toRead rssi tsk ext
      cmac sc_rank ring_flush rsize] in *. rewrite Hc1, Hc2. unfold line_ok in Hl. cbn [lbuf lbfill] in Hl.
    destruct (ring_flush_ok rb0 Hrw) as [[? _] _]. destruct (ring_flush_ok wb0 Hww) as [[? _] _].
    splits; auto; try lia; try apply Hl; try apply partial_nil; try exact I.
  - split; cbn; [lia|discriminate].
  - exact I.
  - unfold sc_cfg. cbn. intros [?|?]; [lia|discriminate..].
Qed.

Lemma sc_reset_states_ok : forall N P (U : Prop) d, sc_all N d ->
  wp U (sc_reset_states d) (fun d' => sc_all N d' /\ resetstates (sc_shape P) d d').
Proof.
  intros N P U d (HI & HL & HS & HC & HN). pose proof HI as (Hd & Hcm). unfold sc_reset_states.
  apply wp_reset_states; [apply Hd|]. intros y ev E1 E2 E3 E4 E5 E6 E7 E8. split.
  - apply sc_reseted_all; auto; [exact (sstep_wf _ _ _ E1)|apply (sstep_caps _ _ _ E1)..].
  - exists y, ev, SCNotConnected, RCOk, 255%Z. eexists. splits; [assumption..|reflexivity|reflexivity|]. reflexivity.
Qed.

Lemma sc_x_ok : forall N x d, sc_goodx x -> sc_all N d ->
  wp (sc_may_fail N (OpX x) d) (sc_x x d) (fun p => sc_all N (snd p) /\ xkeep d (snd p)).
Proof.
  intros N x d Hg HA. pose proof HA as (HI & HL & HS & HC & HN). pose proof HI as (Hd & Hcm).
  assert (XR : xkeep d d) by (unfold xkeep, keep, keep_line; splits; reflexivity).
  destruct x; cbn [sc_x sc_goodx sc_may_fail] in *.
  - unfold sc_request_mac. unfold wr. rewrite Hcm. cbn [Nat.ltb Nat.leb bind]. rewrite list_set_length, Hcm. cbn [Nat.ltb Nat.leb bind wp snd].
    split; [|unfold xkeep, keep, keep_line; splits; reflexivity].
    split; [|split; [exact HL|split; [exact HS|split; [exact HC|]]]].
    + clear - HI. unfold set_cmac. open_inv d HI. unfold sc_inv, dok, line_ok. gs. splits; auto; try apply Hl; try lia.
      rewrite !list_set_length. assumption.
    + intros _. gs. destruct (cmac (ext d)) as [|a [|b cm]]; try discriminate. left. reflexivity.
  - unfold sc_get_mac. destruct (wait d); [cbn [bind wp snd]; auto|].
    destruct (rd_ok' _ (cmac (ext d)) 0 ltac:(lia)) as (c & Ec & _). rewrite Ec. cbn [bind].
    destruct (aeqb c NUL); [cbn [bind wp snd]; auto|].
    destruct (in_dec ascii_dec NUL (cmac (ext d))) as [Hin|Hin].
    + rewrite cstring_ok by assumption. cbn [bind wp snd]. auto.
    + destruct (cstring _) eqn:Es; cbn [bind wp snd]; [auto|]. splits; auto.
Qed.

Theorem sc_contract : forall N P, contract (sc_driver P) (sc_shape P) (sc_all N) (sc_may_fail N) sc_goodx.
Proof.
  intros N P. constructor.
  - intros d ((Hd & _) & _). splits; apply Hd.
  - intros y d (HI & HL & HS & HC & HN) Hwy H1 H2. split; [|split; [exact HL|split; [exact HS|split; [exact HC|exact HN]]]].
    clear - HI Hwy H1 H2. open_inv d HI. unfold sc_inv, dok, fits, line_ok in *. gs. rewrite ?H1, ?H2. splits; auto; try lia; apply Hl.
  - apply sc_all_set; auto.
  - intros s p t d (HI & HL & HS & HC & HN). split; [|split; [exact HL|split; [exact HS|split; [|exact HN]]]].
    + clear - HI. unfold ip_set_host_port. open_inv d HI. unfold sc_inv, dok, line_ok. gs. splits; auto; try apply Hl; unfold u16 in *; lia.
    + intro Hc. exists s; reflexivity.
  - apply sc_all_set; auto.
  - intros r d (HI & HL & HS & HC & HN) Hwy H1. split; [|split; [exact HL|split; [exact HS|split; [exact HC|exact HN]]]].
    clear - HI Hwy H1. open_inv d HI. unfold sc_inv, dok, fits, line_ok in *. gs. rewrite ?H1. splits; auto; try lia; apply Hl.
  - intros r d (HI & HL & HS & HC & HN) Hwy H1. split; [|split; [exact HL|split; [exact HS|split; [exact HC|exact HN]]]].
    clear - HI Hwy H1. open_inv d HI. unfold sc_inv, dok, fits, line_ok in *. gs. rewrite ?H1. splits; auto; try lia; apply Hl.
  - apply sc_all_set; auto.
  - intros oo d H. cbn [drv_run sc_driver sc_may_fail]. apply sc_run_rrun. assumption.
  - intros d H. cbn [drv_reset sc_driver]. apply sc_reset_states_ok. assumption.
  - intros d HA. cbn [drv_connect sc_driver sc_may_fail wp]. pose proof HA as (HI & HL & HS & HC & HN). unfold ip_connect.
    destruct (host d) eqn:Eh; cbn [fst snd]; auto.
    destruct (port d =? 0)%Z; cbn [fst snd]; auto. split; [|right; auto].
    split; [exact HI|split; [exact HL|split; [exact HS|split; [|exact HN]]]]. intros _. exists s; exact Eh.
  - intros x d Hg H. cbn [drv_x sc_driver]. apply sc_x_ok; assumption.
Qed.

(** The constructor, whatever the memory contained. *)
Definition sc_fresh (N : Prop) (d : dv) : Prop :=
  sc_all N d /\ sched (io d) = [] /\ sst d = SCNotConnected /\ rst d = RCOk /\ wait d = None /\ cst d = csNotConnected /\
  fl d = flags_line_read /\ lbfill d = 0 /\ contents (rbuf d) = [] /\ contents (wbuf d) = [] /\ ring_ok (rbuf d) /\ ring_ok (wbuf d) /\
  toWrite d = 0%Z /\ toRead d = 0%Z /\ toReceive d = 0%Z /\ rssi d = 255%Z /\ host d = PNull /\ port d = 0%Z.

Lemma sc_new_ok : forall (N : Prop) s opened rb wb raw_lbuf raw_mac raw_typ,
  serial_wf s -> fits (rsize (lr (srx s))) -> fits (rsize (lr (stx s))) -> rb <> [] -> wb <> [] -> fits (length wb) ->
  length raw_lbuf = 61 -> length raw_mac = 24 -> (N -> In NUL raw_mac) ->
  exists d, sc_new s opened rb wb raw_lbuf raw_mac raw_typ = Ok d /\ sc_fresh N d /\ cmac (ext d) = raw_mac.
Proof.
  intros N s opened rb wb rl rm rt Hw Hf1 Hf2 Hrb Hwb Hf3 Hl Hm HN.
  unfold sc_new.
  pose proof (ring_new_ok rb) as Hr0. pose proof (ring_new_ok wb) as Hw0.
  assert (Hrz : 0 < length rb) by (destruct rb; [congruence|cbn; lia]).
  assert (Hwz : 0 < length wb) by (destruct wb; [congruence|cbn; lia]).
  set (d0 := d_raw s opened rb wb rl rt SCNotConnected RCOk (mkCcx rm)).
  assert (H0 : dok d0).
  { unfold dok, line_ok, d0, d_raw. cbn. splits; auto; try apply Hr0; try apply Hw0; try lia; try exact I. apply partial_nil. }
  assert (Ht : wp False (sc_reset_states d0) (fun d => sc_fresh N d /\ cmac (ext d) = rm)).
  { unfold sc_reset_states. apply wp_reset_states; [exact Hw|]. intros y ev E1 E2 E3 E4 E5 E6 E7 E8. split; [|reflexivity].
    split; [apply sc_reseted_all; auto; [exact (sstep_wf _ _ _ E1)|apply (sstep_caps _ _ _ E1)..]|].
    destruct (ring_flush_ok (ring_new rb) (proj1 Hr0)) as [G1 G2]. destruct (ring_flush_ok (ring_new wb) (proj1 Hw0)) as [G3 G4].
    cbn. splits; auto. apply E1. reflexivity. }
  apply wp_total in Ht. exact Ht.
Qed.
