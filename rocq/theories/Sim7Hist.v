(** Histories of calls to the SIM7x00 driver: it meets the contract of DrvRun.v. *)
From Coq Require Import String Ascii ZArith List Bool Arith Lia ZifyBool ZifyNat.
From Verif Require Import Base QueueSpec LineSpec SerialSpec Ring RingProofs LineRing LineRingProofs Serial SerialProofs
  SerStep TaskMacros CStr CStrProofs Dev DevProofs SimDev SimProofs SimSpec Sym DrvStep DrvCommon DrvRun
  Sim7x00 Sim7Spec Sim7Proofs Sim7Ctl Sim7CtlIn Sim7Run.
Import ListNotations.
Local Open Scope nat_scope.
Ltac Zify.zify_post_hook ::= Z.div_mod_to_equations.
Local Notation dv := (dev s7send s7reply simx).

(** After an error that asks for a reset, run() returns or waits. *)
Lemma s7_special_reset : forall P (U : Prop) d, s7_inv d -> parsed (lbuf d) ->
  (forall a, rst d = R7Cdnsgip -> dns_good (lbuf d) -> dns_ip (str_body (lbuf d)) = Some a -> 15 < length a -> U) ->
  wp U (s7_special_reply P d) (fun p => fReset (fl (snd p)) = fReset (fl d) \/ rst (snd p) <> R7Ok).
Proof.
  intros P U d H Hp HU. open_inv d H. unfold s7_special_reply. gs. destruct rs0; try destruct wt0; symsi.
  all: try (eapply HU; eauto; fail).
  all: cases; gs; first [left; reflexivity | right; discriminate].
Qed.

Lemma s7_parse_reset : forall P (U : Prop) d, s7_inv d -> parsed (lbuf d) -> lbfill d = 0 ->
  (forall a, rst d = R7Cdnsgip -> dns_good (lbuf d) -> dns_ip (str_body (lbuf d)) = Some a -> 15 < length a -> U) ->
  wp U (s7_parse P d) (fun p => fst p = false -> fReset (fl (snd p)) = fReset (fl d) \/ rst (snd p) <> R7Ok).
Proof.
  intros P U d H Hp Hf HU. unfold s7_parse. apply wp_bind.
  eapply wp_mono; [apply s7_standard_cases; assumption|]. intros p Hc.
  assert (HN : s7_inv (set_wait None d)) by (clear - H; open_inv d H; inv_leaf).
  assert (HX : forall d1, s7_inv d1 -> lbuf d1 = lbuf d -> lbfill d1 = 0 -> rst d1 = rst d -> fReset (fl d1) = fReset (fl d) ->
     wp U (bind (s7_special_reply P d1) (fun '(ret0, d0) => if ret0 then Ok (true, d0)
        else if s7_rank S7Connected <=? s7_rank (sst d0)
             then let* d2 := sim_check_connection (bs "+IPCLOSE: 0,") d0 in Ok (false, d2) else Ok (false, d0)))
        (fun p => fst p = false -> fReset (fl (snd p)) = fReset (fl d) \/ rst (snd p) <> R7Ok)).
  { intros d1 I1 L1 F1 R1 X1.
    assert (Hp1 : parsed (lbuf d1)) by (rewrite L1; exact Hp).
    assert (HU1 : forall a, rst d1 = R7Cdnsgip -> dns_good (lbuf d1) -> dns_ip (str_body (lbuf d1)) = Some a -> 15 < length a -> U)
      by (intro a; rewrite R1, L1; apply HU).
    pose proof (s7_special_parsed P U d1 I1 Hp1 F1 HU1) as Q1.
    pose proof (s7_special_reset P U d1 I1 Hp1 HU1) as Q2.
    destruct (s7_special_reply P d1) as [[[] d2]|u]; cbn [bind wp fst snd] in *; [discriminate| |exact Q2]. rewrite X1 in Q2.
    destruct (s7_rank S7Connected <=? s7_rank (sst d2)) eqn:Er; [|cbn [wp fst snd]; auto].
    destruct Q1 as ((_ & Hp2 & _) & _). apply wp_bind. eapply wp_mono; [apply s7_check_cases; exact Hp2|].
    intros d3 Hd3. cbn [wp fst snd]. intros _. destruct Hd3 as [->|[[_ ->]|[_ ->]]]; auto. }
  destruct Hc as [->|[(w & Hw & Hm & ->)|(Hw & Hm & ->)]].
  - apply HX; auto.
  - apply HX; auto.
  - cbn [wp fst]. discriminate.
Qed.

Lemma s7_input_reset : forall P (U : Prop) d, s7_inv d -> (s7_long_dns d -> U) ->
  wp U (s7_input P d) (fun p => fst p = false -> fReset (fl (snd p)) = fReset (fl d) \/ rst (snd p) <> R7Ok).
Proof.
  intros P U d H HU.
  pose proof H as Hi. destruct Hi as (Hd & Hip & Hid & Hmx & Hipn & Hidn).
  unfold s7_input in *. pose proof (fill_ok _ _ _ d ltac:(apply Hd) ltac:(apply Hd)) as Hf.
  destruct (at_fill d) as [[b d1]|u] eqn:Ef; cbn [wp bind] in *; [|contradiction].
  destruct b.
  - destruct Hf as [[E F]|[(y & tk & lb & E & _)|(y & tk & lb & r & E & F & HI & Hlb & Htk & Hwl & Hlb2)]];
      inversion E. subst d1. clear E.
    assert (Hp : parsed lb) by (exact (fill_parsed _ _ _ Hlb2 Hlb)).
    assert (H1 : s7_inv (set_lbfill 0 (set_lbuf lb (set_io y d)))).
    { clear - H HI Hp. open_inv d H. inv_leaf. }
    eapply wp_mono; [apply s7_parse_reset; [exact H1|exact Hp|reflexivity|]|].
    + intros a A1 A2 A3 A4. apply HU. exists (set_lbfill 0 (set_lbuf lb (set_io y d))), a. splits; auto.
    + intros p Hq. exact Hq.
  - assert (G : fl d1 = fl d /\ swf d1 /\ toRead d1 = toRead d).
    { destruct Hf as [[E F]|[(y & tk & lb & E & F & HI & _)|(y & tk & lb & r & E & _)]]; inversion E; subst d1.
      - split; [reflexivity|]. split; [apply Hd|reflexivity].
      - split; [reflexivity|]. split; [exact (ioeff_wf _ _ _ _ HI)|reflexivity]. }
    destruct G as (G1 & G2 & G3). destruct (fDisc (fl d1) && s7_is_receiving (sst d1)).
    + apply wp_bind. apply wp_flush_read_buffer; [assumption|rewrite G3; apply Hd|].
      intros y tk HI _ _. cbn [wp fst snd]. intros _. left. rewrite <- G1.
      cbv zeta. destruct (toRead d1 =? _)%Z; destruct d1; reflexivity.
    + cbn [wp fst snd]. intros _. left. rewrite G1. reflexivity.
Qed.

Lemma s7_same_ictl : forall L d d', s7_same d d' -> s7_line d' -> s7_ictl L d d'.
Proof.
  intros L d d' (A1 & A2 & A3 & A4 & A5 & A6 & A7 & A8 & A9 & A10 & A11 & A12) HL.
  unfold s7_ictl, s7_cfg, s7_conf, s7_sync, ip_is_connected. rewrite A1, A2, A3, A4, A5, A6, A7, A8, A9, A10, A11, A12.
  splits; auto.
Qed.

(** The invariant kept by every call. *)
Definition s7_all (d : dv) : Prop :=
  s7_inv d /\ s7_line d /\ s7_sync d /\
  (s7_cfg d -> (exists h, host d = PStr h) /\ (exists a, apn (ext d) = PStr a)).

Definition s7_rctl (d d' : dv) : Prop :=
  sst d' = (if (3 <=? s7_rank (sst d)) && (s7_rank (sst d) <=? 17) then S7Connecting else S7NotConnected) /\
  rst d' = R7Ok /\ wait d' = Some (bs "RDY") /\ fl d' = flags_line_read /\ ext d' = ext d /\ rssi d' = rssi d.

(** What is known about each action besides its label. *)
Definition s7_in_ext (P : plat) (d : dv) (r : bool) (a : act) (d' : dv) : Prop :=
  (s7_inv d /\ s7_line d) /\ match a with aLine _ L => s7_ictl L d d' /\ s7_handles P d r d' L | _ => s7_same d d' end.
Definition s7_out_ext (d : dv) (_ : act) (d' : dv) : Prop := s7_inv d /\ s7_octl d d' /\ s7_output d = Ok d'.

Definition s7_shape (P : plat) : shape s7send s7reply simx :=
  mkShape r7_ok s7_says s7_tail s7_insend true (fun _ => whole_line) (fun _ => partial_line) s7_clears
    (bs "AT+CRESET" ++ [CR; LF]) S7SerialError true false s7_rctl (s7_in_ext P) s7_out_ext.

Definition s7_may_fail (o : dop simop) (d : dv) : Prop :=
  match o with OpRun _ => s7_long_dns d | _ => False end.
Definition s7_goodx (x : simop) : Prop := match x with SetApn p => exists s, p = PStr s | _ => True end.

Lemma s7_all_set : forall (f : dv -> dv),
  (forall d, s7_inv d -> s7_inv (f d)) -> (forall d, s7_line d -> s7_line (f d)) -> (forall d, s7_sync d -> s7_sync (f d)) ->
  (forall d, s7_cfg (f d) -> s7_cfg d) -> (forall d, ext (f d) = ext d) -> (forall d, host (f d) = host d) ->
  forall d, s7_all d -> s7_all (f d).
Proof.
  intros f H1 H2 H3 H4 H5 H6 d (I1 & I2 & I3 & I4). unfold s7_all. rewrite H5, H6. splits; auto; intro; apply I4; auto.
Qed.

Lemma s7_run_rrun : forall P oo d, s7_all d ->
  wp (s7_long_dns d) (s7_run P oo d) (fun d' => s7_all d' /\ exists l, rrun (s7_shape P) oo d l d').
Proof.
  intros P oo d HA. pose proof HA as (HI & HL & HS & HC). unfold s7_run.
  destruct (isopen d) eqn:Eo; cbn [negb].
  2:{ cbn [wp]. destruct oo.
      - split; [|exists []; apply rr_open; auto]. revert HA. apply s7_all_set; auto.
      - split; [|exists []; apply (rr_fail (s7_shape P)); auto]. split; [|split; [|split]].
        + clear - HI. open_inv d HI. inv_leaf.
        + destruct HL as [L1 L2]. split; [|exact L2]. gs. intro. destruct L1; auto.
        + unfold s7_sync in *. gs. destruct (rst d); auto.
        + gs. intro Hc. apply HC. unfold s7_cfg in *. gs. destruct Hc as [Hc|Hc]; [cbn in Hc; lia|auto]. }
  destruct (fLock (fl d)) eqn:Ek.
  { cbn [wp]. split; [assumption|]. exists []. apply rr_locked; auto. }
  assert (Hrun : runs (s7_shape P) d []) by (unfold runs; auto).
  destruct (fReset (fl d)) eqn:Er.
  { eapply wp_mono; [apply s7_reset_inv; exact HI|].
    intros d' (J1 & J2 & J3 & J4 & J5 & J6 & J7 & J8 & J9 & J10 & J11 & J12 & J13 & y & ev & K1 & K2 & K3 & K4 & K5 & K6 & p & K7 & K8 & K9).
    split.
    - split; [assumption|]. split; [|split].
      + unfold s7_line. rewrite J5, J7. cbn. split; [lia|discriminate].
      + unfold s7_sync. rewrite J2. exact I.
      + intro Hc. rewrite J12. destruct J8 as (_ & _ & _ & _ & -> & _). apply HC. unfold s7_cfg in *. rewrite J2, J7 in Hc.
        destruct Hc as [Hc|[Hc|[Hc|Hc]]]; try discriminate. left. rewrite J11 in Hc. destruct (_ && _) eqn:E; [|cbn in Hc; lia]. lia.
    - exists [aReset p]. apply rr_reset; [unfold runs_only; destruct Hrun as (Q1 & Q2 & _); splits; auto|assumption|]. right. split; [assumption|]. exists p. split; [reflexivity|]. split.
      + unfold resets. cbn [sh_reset sh_ok sh_insend s7_shape]. rewrite J2, J3, J7, J11. splits; auto.
        * exists y, ev. splits; auto.
        * destruct (_ && _); reflexivity.
        * discriminate.
        * discriminate.
      + cbn. unfold s7_rctl. splits; auto. }
  pose proof (s7_input_step P (s7_long_dns d) d HI (fun x => x)) as Q1.
  pose proof (s7_input_ctl P (s7_long_dns d) d HI HL HS (fun x => x)) as Q2.
  pose proof (s7_input_reset P (s7_long_dns d) d HI (fun x => x)) as Q3.
  destruct (s7_input P d) as [[ret d1]|u] eqn:Ei; [|exact Q1]. cbn [wp bind fst snd] in *.
  destruct Q1 as (I1 & a & Ha & Hln). destruct Q2 as (Hin & HL1).
  assert (Hpre : prerun (s7_shape P) d [] d) by (left; auto).
  assert (Hx : sh_iext (s7_shape P) d ret a d1).
  { cbn [sh_iext s7_shape]. split; [exact (conj HI HL)|]. destruct Ha.
    - unfold s7_same. repeat match goal with H : ?f d1 = _ |- _ => rewrite H; clear H end. splits; reflexivity.
    - unfold s7_same. repeat match goal with H : ?f d1 = ?f d |- _ => rewrite H; clear H end.
      match goal with H : fl d1 = _ \/ _ |- _ => destruct H as [-> | ->] end; splits; reflexivity.
    - split; [|exact (Hln _ _ eq_refl)]. destruct Hin as [Hin|(tk' & E1 & _ & E2)]; [apply s7_same_ictl; assumption|].
      subst L. match goal with H : ioeff _ _ tk [] |- _ => destruct (ioeff_fun _ _ _ _ _ _ H E1) as [-> _] end. exact E2. }
  assert (Hctl : (s7_cfg d1 -> s7_cfg d) /\ apn (ext d1) = apn (ext d) /\ s7_sync d1 /\ fLock (fl d1) = fLock (fl d)).
  { cbn [sh_iext s7_shape] in Hx. destruct Hx as [_ Hx]. destruct a; try (destruct Hx as (X1 & X2 & X3 & X4 & X5 & X6 & X7 & X8 & X9 & X10 & X11 & X12);
      unfold s7_cfg, s7_sync in *; rewrite X1, X2, X6, X7; auto).
    destruct Hx as [(_ & X1 & (_ & _ & X3) & _ & X4 & _ & _ & _ & _ & (X2 & _) & _) _]. auto. }
  destruct Hctl as (Hcf & Hap & HS1 & Hlk).
  assert (Hho : host d1 = host d) by (destruct Ha; match goal with H : keep d d1 |- _ => apply H end).
  assert (HC1 : s7_cfg d1 -> (exists h, host d1 = PStr h) /\ (exists a, apn (ext d1) = PStr a)).
  { intro Hc. rewrite Hap, Hho. auto. }
  destruct ret.
  { cbn [wp]. split; [split; [assumption|split; [assumption|split; assumption]]|]. exists [a].
    exact (rr_line (s7_shape P) oo d [] d a d1 Hrun Hpre Ha Hx). }
  specialize (Q3 eq_refl).
  assert (NS : forall p, (exists s, p = PStr s) -> not_str p -> s7_long_dns d).
  { intros p [s ->] Hn. exfalso. exact (Hn s eq_refl). }
  assert (G1 : sst d1 = S7SendCgsockcont -> not_str (apn (ext d1)) -> s7_long_dns d).
  { intros E. apply NS. apply HC1. left. rewrite E. cbn. lia. }
  assert (G2 : sst d1 = S7SendDnsQuery -> not_str (host d1) -> s7_long_dns d).
  { intros E. apply NS. apply HC1. left. rewrite E. cbn. lia. }
  pose proof (s7_output_inv (s7_long_dns d) d1 I1 G1 G2) as O1.
  pose proof (s7_output_step (s7_long_dns d) d1 I1 G1 G2) as O2.
  assert (O3 : wp (s7_long_dns d) (s7_output d1) (s7_octl d1)).
  { destruct Q3 as [Q3|Q3].
    - apply s7_output_ctl; auto. congruence.
    - unfold s7_output. destruct (wait d1); [apply s7_octl_refl|]. destruct (rst d1); try (apply s7_octl_refl). congruence. }
  destruct (s7_output d1) as [d2|u] eqn:Eout; [|exact O1]. cbn [wp] in *. destruct O2 as [b O2]. split.
  - destruct O3 as (_ & C1 & C2 & _ & _ & _ & _ & _ & _ & C3 & _ & C4 & _).
    split; [assumption|]. split; [auto|]. split; [auto|]. intro Hc. rewrite C2.
    assert (host d2 = host d1) as -> by (destruct O2; first [assumption | match goal with H : keep d1 d2 |- _ => apply H end]).
    auto.
  - exists [a; b]. exact (rr_full (s7_shape P) oo d [] d a d1 b d2 Hrun Hpre Ha Hx O2 (conj I1 (conj O3 Eout))).
Qed.

Definition s7_reseted (y : sys) (d : dv) : dv :=
  mkDev y (isopen d) (ring_flush (rbuf d)) (ring_flush (wbuf d)) (typ d) (host d) (port d) flags_line_read
    csNotConnected None (lbuf d) 0 S7NotConnected R7Ok 0%Z 0%Z 0%Z 99%Z (tsk d)
    (set_idbuf (list_set (list_set (idbuf (ext d)) 0 NUL) 1 (id_code idNone)) (ext d)).

Lemma s7_reseted_all : forall (y : sys) (d : dv), dok d -> length (ip (ext d)) = 16 -> length (idbuf (ext d)) = 24 ->
  (0 < maxrx (ext d) < 100000)%Z -> serial_wf (ser y) -> rxsz y = rxsz (io d) -> txsz y = txsz (io d) -> s7_all (s7_reseted y d).
Proof.
  intros y d Hd Hip Hid Hmx Hw Hc1 Hc2. split; [|split; [|split]].
  - destruct Hd as (Hwf & Hr & Ht & Hrw & Hrs & Hww & Hws & Hwf2 & Hl & Hwa & Htr & Htc & Hpo). ddev d. dsimp.
    unfold s7_inv, dok, line_ok, fits, s7_reseted in *. cbn [io isopen rbuf wbuf typ host port fl cst wait lbuf lbfill sst rst toWrite toReceive toRead rssi tsk ext
      apn ip idbuf maxrx set_idbuf s7_rank ring_flush rsize] in *. rewrite Hc1, Hc2. unfold line_ok in Hl. cbn [lbuf lbfill] in Hl.
    destruct (ring_flush_ok rb0 Hrw) as [[? _] _]. destruct (ring_flush_ok wb0 Hww) as [[? _] _].
    splits; auto; try lia; try apply Hl; try apply partial_nil; try exact I.
    + rewrite !list_set_length. assumption.
    + intros [?|?]; [lia|discriminate].
    + destruct ex0 as [ap0 ip0 id0 mx0]. cbn in *. destruct id0 as [|a [|b id0]]; try discriminate. left. reflexivity.
  - split; cbn; [lia|discriminate].
  - exact I.
  - unfold s7_cfg. cbn. intros [?|[?|[?|?]]]; [lia|discriminate..].
Qed.

Lemma s7_reset_states_ok : forall P (U : Prop) d, s7_all d ->
  wp U (sim_reset_states S7NotConnected R7Ok d) (fun d' => s7_all d' /\ resetstates (s7_shape P) d d').
Proof.
  intros P U d (HI & HL & HS & HC). pose proof HI as (Hd & Hip & Hid & Hmx & Hipn & Hidn).
  apply wp_sim_reset_states; [apply Hd|assumption|]. intros y ev E1 E2 E3 E4 E5 E6 E7 E8. split.
  - apply s7_reseted_all; auto; [exact (sstep_wf _ _ _ E1)|apply (sstep_caps _ _ _ E1)..].
  - exists y, ev, S7NotConnected, R7Ok, 99%Z. eexists. splits; [assumption..|reflexivity|reflexivity|]. reflexivity.
Qed.

Lemma s7_x_ok : forall x d, s7_goodx x -> s7_all d ->
  wp False (sim_x r7_ok x d) (fun p => s7_all (snd p) /\ xkeep d (snd p)).
Proof.
  intros x d Hg HA. pose proof HA as (HI & HL & HS & HC). pose proof HI as (Hd & Hip & Hid & Hmx & Hipn & Hidn).
  assert (XR : xkeep d d) by (unfold xkeep, keep, keep_line; splits; reflexivity).
  destruct x as [p| | |t|]; cbn [sim_x s7_goodx] in *.
  - destruct Hg as [s ->]. cbn [wp snd]. split; [|unfold xkeep, keep, keep_line; splits; reflexivity].
    split; [|split; [exact HL|split; [exact HS|]]].
    + clear - HI. unfold sim_set_apn. open_inv d HI. inv_leaf.
    + intro Hc. split; [apply HC; exact Hc|]. exists s. reflexivity.
  - unfold sim_serial_lock. destruct (wait d); [cbn [wp snd]; auto|]. destruct (r7_ok (rst d)); [|cbn [wp snd]; auto].
    cbn [wp snd]. split; [|unfold xkeep, keep, keep_line; splits; reflexivity]. revert HA. apply s7_all_set; auto.
  - cbn [wp snd]. split; [|unfold xkeep, keep, keep_line; splits; reflexivity]. revert HA. apply s7_all_set; auto.
  - unfold sim_request_id. unfold wr. rewrite Hid. cbn [Nat.ltb Nat.leb bind]. rewrite list_set_length, Hid. cbn [Nat.ltb Nat.leb bind].
    rewrite !list_set_length, Hid. cbn [Nat.ltb Nat.leb bind wp snd].
    split; [|unfold xkeep, keep, keep_line; splits; reflexivity].
    split; [|split; [exact HL|split; [exact HS|exact HC]]].
    clear - HI. unfold set_x_idbuf. open_inv d HI. unfold s7_inv, dok, line_ok. gs. splits; auto; try apply Hl; try lia.
    + rewrite !list_set_length. assumption.
    + destruct id0 as [|a [|b [|c id0]]]; try discriminate. left. reflexivity.
  - unfold sim_get_id. destruct (wait d); [cbn [bind wp snd]; auto|].
    destruct (rd_ok' _ (idbuf (ext d)) 0 ltac:(lia)) as (c & Ec & _). rewrite Ec. cbn [bind].
    destruct (aeqb c NUL); [cbn [bind wp snd]; auto|].
    rewrite cstring_ok by assumption. cbn [bind wp snd]. auto.
Qed.

Theorem s7_contract : forall P, contract (s7_driver P) (s7_shape P) s7_all s7_may_fail s7_goodx.
Proof.
  intro P. constructor.
  - intros d ((Hd & _) & _). splits; apply Hd.
  - intros y d (HI & HL & HS & HC) Hwy H1 H2. split; [|split; [exact HL|split; [exact HS|exact HC]]].
    clear - HI Hwy H1 H2. open_inv d HI. unfold s7_inv, dok, fits, line_ok in *. gs. rewrite ?H1, ?H2. splits; auto; try lia; apply Hl.
  - apply s7_all_set; auto.
  - intros s p t d (HI & HL & HS & HC). split; [|split; [exact HL|split; [exact HS|]]].
    + clear - HI. unfold ip_set_host_port. open_inv d HI. unfold s7_inv, dok, line_ok. gs. splits; auto; try apply Hl; unfold u16 in *; lia.
    + intro Hc. split; [exists s; reflexivity|]. apply HC. exact Hc.
  - apply s7_all_set; auto.
  - intros r d (HI & HL & HS & HC) Hwy H1. split; [|split; [exact HL|split; [exact HS|exact HC]]].
    clear - HI Hwy H1. open_inv d HI. unfold s7_inv, dok, fits, line_ok in *. gs. rewrite ?H1. splits; auto; try lia; apply Hl.
  - intros r d (HI & HL & HS & HC) Hwy H1. split; [|split; [exact HL|split; [exact HS|exact HC]]].
    clear - HI Hwy H1. open_inv d HI. unfold s7_inv, dok, fits, line_ok in *. gs. rewrite ?H1. splits; auto; try lia; apply Hl.
  - apply s7_all_set; auto.
  - intros oo d H. cbn [drv_run s7_driver s7_may_fail]. apply s7_run_rrun. assumption.
  - intros d H. cbn [drv_reset s7_driver]. apply s7_reset_states_ok. assumption.
  - intros d HA. cbn [drv_connect s7_driver s7_may_fail wp]. pose proof HA as (HI & HL & HS & HC). unfold sim_connect, ip_connect.
    destruct (apn (ext d)) eqn:Ea; cbn [fst snd]; auto. destruct (host d) eqn:Eh; cbn [fst snd]; auto.
    destruct (port d =? 0)%Z; cbn [fst snd]; auto. split; [|right; auto].
    split; [exact HI|split; [exact HL|split; [exact HS|]]]. intros _. split; [exists s0; exact Eh|exists s; exact Ea].
  - intros x d Hg H. cbn [drv_x s7_driver]. apply s7_x_ok; assumption.
Qed.

(** The constructor, whatever the memory contained. *)
Definition s7_fresh (d : dv) : Prop :=
  s7_all d /\ sched (io d) = [] /\ sst d = S7NotConnected /\ rst d = R7Ok /\ wait d = None /\ cst d = csNotConnected /\
  fl d = flags_line_read /\ lbfill d = 0 /\ contents (rbuf d) = [] /\ contents (wbuf d) = [] /\ ring_ok (rbuf d) /\ ring_ok (wbuf d) /\
  toWrite d = 0%Z /\ toRead d = 0%Z /\ toReceive d = 0%Z /\ rssi d = 99%Z /\ host d = PNull /\ port d = 0%Z /\ apn (ext d) = PNull.

Lemma s7_new_ok : forall s opened rb wb raw_lbuf raw_ip raw_id raw_typ,
  serial_wf s -> fits (rsize (lr (srx s))) -> fits (rsize (lr (stx s))) -> rb <> [] -> wb <> [] -> fits (length wb) ->
  length raw_lbuf = 61 -> length raw_ip = 16 -> length raw_id = 24 ->
  exists d, s7_new s opened rb wb raw_lbuf raw_ip raw_id raw_typ = Ok d /\ s7_fresh d.
Proof.
  intros s opened rb wb rl ri rd0 rt Hw Hf1 Hf2 Hrb Hwb Hf3 Hl Hi Hd.
  unfold s7_new.
  pose proof (ring_new_ok rb) as Hr0. pose proof (ring_new_ok wb) as Hw0.
  assert (Hrz : 0 < length rb) by (destruct rb; [congruence|cbn; lia]).
  assert (Hwz : 0 < length wb) by (destruct wb; [congruence|cbn; lia]).
  set (d0 := d_raw s opened rb wb rl rt S7NotConnected R7Ok (mkSimx PNull ri rd0 1500%Z)).
  assert (H0 : dok d0).
  { unfold dok, line_ok, d0, d_raw. cbn. splits; auto; try apply Hr0; try apply Hw0; try lia; try exact I. apply partial_nil. }
  assert (Ht : wp False (sim_reset_states S7NotConnected R7Ok d0) (fun d => s7_fresh d)).
  { apply wp_sim_reset_states; [exact Hw|exact Hd|]. intros y ev E1 E2 E3 E4 E5 E6 E7 E8.
    split; [apply s7_reseted_all; auto; [cbn; lia|exact (sstep_wf _ _ _ E1)|apply (sstep_caps _ _ _ E1)..]|].
    destruct (ring_flush_ok (ring_new rb) (proj1 Hr0)) as [G1 G2]. destruct (ring_flush_ok (ring_new wb) (proj1 Hw0)) as [G3 G4].
    cbn. splits; auto. apply E1. reflexivity. }
  apply wp_total in Ht. exact Ht.
Qed.
