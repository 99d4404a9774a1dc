(** Histories of calls to the Espressif driver: it meets the contract of DrvRun.v. *)
From Coq Require Import String Ascii ZArith List Bool Arith Lia ZifyBool ZifyNat.
From Verif Require Import Base QueueSpec LineSpec SerialSpec Ring RingProofs LineRing LineRingProofs Serial SerialProofs
  SerStep TaskMacros CStr CStrProofs Dev DevProofs SimDev SimProofs SimSpec Sym DrvStep DrvCommon DrvRun
  Espressif EsSpec EsFill EsProofs EsCtl EsCtlIn EsRun.
Import ListNotations.
Local Open Scope nat_scope.
Ltac Zify.zify_post_hook ::= Z.div_mod_to_equations.
Local Notation dv := (dev essend esreply espx).

(** What the handling of a line does. *)
Lemma se_handles_ctl : forall P d ret d' L, se_sync d -> rst d <> REParseCiprecvdata -> se_whole d L ->
  se_handles P d ret d' L -> se_ictl L d d'.
Proof.
  intros P d ret d' L HS HN Hw (r & y & Hl & Hy & HI & HP).
  assert (HE : se_ends (typ d) (rst d) L = true) by (destruct Hw as (? & ? & _ & _ & _ & _ & X); exact X).
  pose proof (se_whole_parsed _ _ _ _ r Hw Hl) as Hp.
  destruct (se_took_keep L d) as (_ & _ & _ & _ & T5 & _).
  assert (Hst : se_sync (line_at L r y (se_took L d))).
  { unfold se_sync, line_at in *. gs. rewrite T5. destruct (se_took_eq L d) as [E|[(Ew & Eh & E)|E]]; [rewrite E; exact HS| |congruence].
    intros _. apply HS. rewrite Ew. reflexivity. }
  pose proof (se_parse_ctl P False (line_at L r y (se_took L d)) HI Hp eq_refl Hst) as Q. rewrite HP in Q. cbn [wp fst snd] in Q.
  destruct Q as (Q & Q2 & _).
  { intro Hr. unfold line_at in *. gs. change (prefixb (bs "+CIPRECVDATA") (L ++ NUL :: r) = true). rewrite prefixb_line by lfree. apply (se_took_ready L d HE HN). exact Hr. }
  apply (se_ictl_line L r d y d' HE); auto.
Qed.

Lemma se_output_rst : forall P (U : Prop) d, se_inv d -> rst d <> REParseCiprecvdata ->
  (sst d = SESendCipstart -> not_str (host d) -> U) ->
  (sst d = SESendCwjap -> not_str (ssid (ext d)) \/ not_str (passwd (ext d)) -> U) ->
  wp U (se_output P d) (fun d2 => rst d2 <> REParseCiprecvdata).
Proof.
  intros P U d H HN HU HU2. unfold se_output. destruct (wait d) eqn:Ew; [exact HN|].
  destruct (rst d) eqn:Er; cbn [re_ok negb]; try (cbn [wp]; congruence).
  open_inv d H. subst. syms.
  all: try (match goal with |- wp _ (se_machine _) _ =>
       unfold se_machine, at_handle_connect, at_handle_disconnect; gs; destruct ss0; gs; syms end).
  all: try (apply HU; [reflexivity | unfold not_str; congruence]).
  all: try (apply HU2; [reflexivity | unfold not_str; first [left; congruence | right; congruence]]).
  all: cases; gs; discriminate.
Qed.

(** The invariant kept by every call; [N]: the MAC address buffer holds a string. *)
Definition is_str (p : cptr) : Prop := exists s, p = PStr s.
Definition se_set (d : dv) : Prop := is_str (host d) /\ is_str (ssid (ext d)) /\ is_str (passwd (ext d)).
Definition se_all (N : Prop) (d : dv) : Prop :=
  se_inv d /\ se_line d /\ se_sync d /\ rst d <> REParseCiprecvdata /\ (se_cfg d -> se_set d) /\ (N -> In NUL (emac (ext d))).

Definition se_rctl (d d' : dv) : Prop :=
  sst d' = se_reset_state d /\ rst d' = REOk /\ wait d' = Some (bs "ready") /\ fl d' = flags_line_read /\ ext d' = ext d /\ rssi d' = rssi d.

(** What is known about each action besides its label. *)
Definition se_in_ext (P : plat) (d : dv) (r : bool) (a : act) (d' : dv) : Prop :=
  (se_inv d /\ se_line d /\ rst d <> REParseCiprecvdata) /\ (typ d = TCP -> se_tline d -> se_tline d') /\
  match a with aLine _ L => se_ictl L d d' /\ se_handles P d r d' L | _ => se_same d d' end.
Definition se_out_ext (P : plat) (d : dv) (_ : act) (d' : dv) : Prop := se_inv d /\ se_octl d d' /\ se_output P d = Ok d'.

Definition se_shape (P : plat) : shape essend esreply espx :=
  mkShape re_ok (se_says P) se_tail se_insend false se_whole (fun _ => partial_line) se_clears
    (bs "AT+RST" ++ [CR; LF]) SESerialError false false se_rctl (se_in_ext P) (se_out_ext P).

(** connect() reads the pointers to the name of the network and the password,
    which the constructor does not set; getMac() reads past a buffer without a
    terminating NUL. *)
Definition se_may_fail (N : Prop) (o : dop esop) (d : dv) : Prop :=
  match o with
  | OpConnect => ssid (ext d) = PUninit \/ passwd (ext d) = PUninit
  | OpX GetMac => ~ N /\ wait d = None /\ ~ In NUL (emac (ext d))
  | _ => False
  end.
Definition se_goodx (x : esop) : Prop := match x with SetSSID p | SetPassword p => is_str p | _ => True end.

Lemma se_all_set : forall N (f : dv -> dv),
  (forall d, se_inv d -> se_inv (f d)) -> (forall d, se_line d -> se_line (f d)) -> (forall d, se_sync d -> se_sync (f d)) -> (forall d, rst (f d) = rst d) ->
  (forall d, se_cfg (f d) -> se_cfg d) -> (forall d, ext (f d) = ext d) -> (forall d, host (f d) = host d) ->
  forall d, se_all N d -> se_all N (f d).
Proof.
  intros N f H1 H2 H3 H7 H4 H5 H6 d (I1 & I2 & I3 & I4 & I5 & I6). unfold se_all, se_set in *. rewrite H5, H6, H7. split; [auto|]. split; [auto|].
  split; [auto|]. split; [exact I4|]. split; [|exact I6]. intro Hc. apply I5. auto.
Qed.

Lemma se_run_rrun : forall N P oo d, se_all N d ->
  wp False (se_run P oo d) (fun d' => se_all N d' /\ exists l, rrun (se_shape P) oo d l d').
Proof.
  intros N P oo d HA. pose proof HA as (HI & HL & HS & HX & HC & HN). unfold se_run.
  destruct (isopen d) eqn:Eo; cbn [negb].
  2:{ cbn [wp]. destruct oo.
      - split; [|exists []; apply rr_open; auto]. revert HA. apply se_all_set; auto.
      - split; [|exists []; apply (rr_fail (se_shape P)); auto]. split; [|split; [|split; [|split; [|split; [|exact HN]]]]].
        + clear - HI. open_inv d HI. inv_leaf.
        + exact HL.
        + unfold se_sync in *. gs. auto.
        + exact HX.
        + gs. intro Hc. apply HC. unfold se_cfg in *. gs. destruct Hc as [Hc|Hc]; [cbn in Hc; lia|auto]. }
  assert (Hrun : runs (se_shape P) d []) by (unfold runs; cbn [se_shape sh_goon sh_lock]; splits; auto; discriminate).
  destruct (fReset (fl d)) eqn:Er.
  { eapply wp_mono; [apply se_reset_inv; exact HI|].
    intros d' (J1 & J2 & J3 & J4 & J5 & J6 & J7 & J8 & J9 & J10 & J11 & J12 & J13 & y & ev & K1 & K2 & K3 & K4 & K5 & K6 & p & K7 & K8 & K9).
    split.
    - split; [assumption|]. split; [|split; [|split; [|split]]].
      + unfold se_line. rewrite J7. discriminate.
      + unfold se_sync. rewrite J2. discriminate.
      + rewrite J2. discriminate.
      + intro Hc. unfold se_set. rewrite J12. destruct J8 as (_ & _ & _ & _ & -> & _). apply HC. unfold se_cfg in *. rewrite J2, J7, J11 in Hc.
        destruct Hc as [Hc|[Hc|Hc]]; try discriminate. left. unfold se_reset_state in Hc. destruct (_ && _) eqn:E; [|cbn in Hc; lia]. lia.
      + rewrite J12. exact HN.
    - exists [aReset p]. apply rr_reset; [unfold runs_only; destruct Hrun as (Q1 & Q2 & _); splits; auto|assumption|]. right. split; [assumption|]. exists p. split; [reflexivity|]. split.
      + unfold resets. cbn [sh_reset sh_ok sh_insend se_shape]. rewrite J2, J3, J7, J11. splits; auto.
        * exists y, ev. splits; auto.
        * unfold se_reset_state. destruct (_ && _); reflexivity.
        * discriminate.
        * discriminate.
      + cbn. unfold se_rctl. splits; auto. }
  pose proof (se_input_step P False d HI) as Q1.
  pose proof (se_input_ctl P False d HI HL HS HX) as Q2.
  destruct (se_input P d) as [[ret d1]|u] eqn:Ei; [|exact Q1]. cbn [wp bind fst snd] in *.
  destruct Q1 as (I1 & a & Ha & Hln). destruct Q2 as (Hin & HL1 & HX1 & Q3 & HT1).
  assert (Hpre : prerun (se_shape P) d [] d) by (left; auto).
  assert (Hx : sh_iext (se_shape P) d ret a d1).
  { cbn [sh_iext se_shape]. split; [auto|]. split; [exact HT1|]. destruct Ha.
    - unfold se_same. repeat match goal with H : ?f d1 = _ |- _ => rewrite H; clear H end. splits; reflexivity.
    - unfold se_same. repeat match goal with H : ?f d1 = ?f d |- _ => rewrite H; clear H end.
      match goal with H : fl d1 = _ \/ _ |- _ => destruct H as [-> | ->] end; splits; reflexivity.
    - split; [|exact (Hln _ _ eq_refl)]. eapply se_handles_ctl; eauto. }
  assert (Hctl : (se_cfg d1 -> se_cfg d) /\ ssid (ext d1) = ssid (ext d) /\ passwd (ext d1) = passwd (ext d) /\ (In NUL (emac (ext d)) -> In NUL (emac (ext d1))) /\ se_sync d1).
  { cbn [sh_iext se_shape] in Hx. destruct Hx as (_ & _ & Hx). destruct a; try (destruct Hx as (X1 & X2 & X3 & X4 & X5 & X6 & X7 & X8 & X9 & X10 & X11 & X12);
      unfold se_cfg, se_sync in *; rewrite X1, X2, X6, X7; auto).
    destruct Hx as [(_ & X1 & _ & _ & X4 & _ & _ & _ & _ & (X5 & X6) & X2 & _) _]. splits; auto. destruct X2 as [->|(_ & _ & X2)]; auto. }
  destruct Hctl as (Hcf & Hss & Hpw & Hap & HS1).
  assert (Hho : host d1 = host d) by (destruct Ha; match goal with H : keep d d1 |- _ => apply H end).
  assert (HC1 : se_cfg d1 -> se_set d1).
  { intro Hc. unfold se_set. rewrite Hho, Hss, Hpw. apply HC. auto. }
  destruct ret.
  { cbn [wp]. split; [unfold se_all; splits; auto|]. exists [a].
    exact (rr_line (se_shape P) oo d [] d a d1 Hrun Hpre Ha Hx). }
  specialize (Q3 eq_refl).
  assert (G1 : sst d1 = SESendCipstart -> not_str (host d1) -> False).
  { intros E Hn. destruct HC1 as [[hs Es] _]; [left; rewrite E; cbn; lia|]. exact (Hn hs Es). }
  assert (G2 : sst d1 = SESendCwjap -> not_str (ssid (ext d1)) \/ not_str (passwd (ext d1)) -> False).
  { intros E Hn. destruct HC1 as (_ & [s1 E1] & [s2 E2]); [left; rewrite E; cbn; lia|]. destruct Hn as [Hn|Hn]; [exact (Hn _ E1)|exact (Hn _ E2)]. }
  pose proof (se_output_inv P False d1 I1 G1 G2) as O1.
  pose proof (se_output_step P False d1 I1 G1 G2) as O2.
  assert (O3 : wp False (se_output P d1) (se_octl d1)).
  { apply se_output_ctl; auto. congruence. }
  assert (O4 : wp False (se_output P d1) (fun d2 => rst d2 <> REParseCiprecvdata)) by (apply se_output_rst; auto).
  destruct (se_output P d1) as [d2|u] eqn:Eout; [|exact O1]. cbn [wp] in *. destruct O2 as [b O2]. split.
  - destruct O3 as (_ & C1 & (C2 & C2' & C2'') & _ & _ & _ & _ & _ & C3 & _ & _ & C4 & _).
    split; [assumption|]. split; [auto|]. split; [auto|]. split; [exact O4|]. split; [|auto]. intro Hc. unfold se_set. rewrite C2, C2'.
    assert (host d2 = host d1) as -> by (destruct O2; first [assumption | match goal with H : keep d1 d2 |- _ => apply H end]).
    apply HC1. auto.
  - exists [a; b]. exact (rr_full (se_shape P) oo d [] d a d1 b d2 Hrun Hpre Ha Hx O2 (conj I1 (conj O3 Eout))).
Qed.

Definition se_reseted (y : sys) (d : dv) : dv :=
  mkDev y (isopen d) (ring_flush (rbuf d)) (ring_flush (wbuf d)) (typ d) (host d) (port d) flags_line_read
    csNotConnected None (lbuf d) 0 SENotConnected REOk 0%Z 0%Z 0%Z 99%Z (tsk d) (ext d).

Lemma se_reseted_all : forall (N : Prop) (y : sys) (d : dv), dok d -> length (emac (ext d)) = 18 -> (N -> In NUL (emac (ext d))) ->
  serial_wf (ser y) -> rxsz y = rxsz (io d) -> txsz y = txsz (io d) -> se_all N (se_reseted y d).
Proof.
  intros N y d Hd Hcm HN Hw Hc1 Hc2. split; [|split; [|split; [|split; [|split; [|exact HN]]]]].
  - destruct Hd as (Hwf & Hr & Ht & Hrw & Hrs & Hww & Hws & Hwf2 & Hl & Hwa & Htr & Htc & Hpo). ddev d. dsimp.
    unfold se_inv, dok, line_ok, fits, se_reseted in *. cbn [io isopen rbuf wbuf typ host port fl cst wait lbuf lbfill sst rst toWrite toReceive toRead rssi tsk ext
      emac se_rank ring_flush rsize] in *. rewrite Hc1, Hc2. unfold line_ok in Hl. cbn [lbuf lbfill] in Hl.
    destruct (ring_flush_ok rb0 Hrw) as [[? _] _]. destruct (ring_flush_ok wb0 Hww) as [[? _] _].
    splits; auto; try lia; try apply Hl; try apply partial_nil; try exact I.
  - discriminate.
  - discriminate.
  - discriminate.
  - unfold se_cfg. cbn. intros [?|[?|?]]; [lia|discriminate..].
Qed.

Lemma se_reset_states_ok : forall N P (U : Prop) d, se_all N d ->
  wp U (se_reset_states d) (fun d' => se_all N d' /\ resetstates (se_shape P) d d').
Proof.
  intros N P U d (HI & HL & HS & HX & HC & HN). pose proof HI as (Hd & Hcm). unfold se_reset_states.
  apply wp_reset_states; [apply Hd|]. intros y ev E1 E2 E3 E4 E5 E6 E7 E8. split.
  - apply se_reseted_all; auto; [exact (sstep_wf _ _ _ E1)|apply (sstep_caps _ _ _ E1)..].
  - exists y, ev, SENotConnected, REOk, 99%Z. eexists. splits; [assumption..|reflexivity|reflexivity|]. reflexivity.
Qed.

Lemma se_x_ok : forall N x d, se_goodx x -> se_all N d ->
  wp (se_may_fail N (OpX x) d) (se_x x d) (fun p => se_all N (snd p) /\ xkeep d (snd p)).
Proof.
  intros N x d Hg HA. pose proof HA as (HI & HL & HS & HX & HC & HN). pose proof HI as (Hd & Hcm).
  assert (XR : xkeep d d) by (unfold xkeep, keep, keep_line; splits; reflexivity).
  destruct x as [p|p| |]; cbn [se_x se_goodx se_may_fail] in *.
  - cbn [wp snd]. split; [|unfold xkeep, keep, keep_line; splits; reflexivity].
    split; [|split; [exact HL|split; [exact HS|split; [exact HX|split; [|exact HN]]]]].
    + clear - HI. unfold se_set_ssid. open_inv d HI. inv_leaf.
    + intro Hc. destruct (HC Hc) as (G1 & G2 & G3). unfold se_set, se_set_ssid. gs. auto.
  - cbn [wp snd]. split; [|unfold xkeep, keep, keep_line; splits; reflexivity].
    split; [|split; [exact HL|split; [exact HS|split; [exact HX|split; [|exact HN]]]]].
    + clear - HI. unfold se_set_passwd. open_inv d HI. inv_leaf.
    + intro Hc. destruct (HC Hc) as (G1 & G2 & G3). unfold se_set, se_set_passwd. gs. auto.
  - unfold se_request_mac. unfold wr. rewrite Hcm. cbn [Nat.ltb Nat.leb bind]. rewrite list_set_length, Hcm. cbn [Nat.ltb Nat.leb bind wp snd].
    split; [|unfold xkeep, keep, keep_line; splits; reflexivity].
    split; [|split; [exact HL|split; [exact HS|split; [exact HX|split; [exact HC|]]]]].
    + clear - HI. unfold set_emac. open_inv d HI. unfold se_inv, dok, line_ok. gs. splits; auto; try apply Hl; try lia.
      rewrite !list_set_length. assumption.
    + intros _. gs. destruct (emac (ext d)) as [|a [|b cm]]; try discriminate. left. reflexivity.
  - unfold se_get_mac. destruct (wait d); [cbn [bind wp snd]; auto|].
    destruct (rd_ok' _ (emac (ext d)) 0 ltac:(lia)) as (c & Ec & _). rewrite Ec. cbn [bind].
    destruct (aeqb c NUL); [cbn [bind wp snd]; auto|].
    destruct (in_dec ascii_dec NUL (emac (ext d))) as [Hin|Hin].
    + rewrite cstring_ok by assumption. cbn [bind wp snd]. auto.
    + destruct (cstring _) eqn:Es; cbn [bind wp snd]; [auto|]. splits; auto.
Qed.

Theorem se_contract : forall N P, contract (se_driver P) (se_shape P) (se_all N) (se_may_fail N) se_goodx.
Proof.
  intros N P. constructor.
  - intros d ((Hd & _) & _). splits; apply Hd.
  - intros y d (HI & HR) Hwy H1 H2. split; [|exact HR].
    clear - HI Hwy H1 H2. open_inv d HI. unfold se_inv, dok, fits, line_ok in *. gs. rewrite ?H1, ?H2. splits; auto; try lia; apply Hl.
  - apply se_all_set; auto.
  - intros s p t d (HI & HL & HS & HX & HC & HN). split; [|split; [exact HL|split; [exact HS|split; [exact HX|split; [|exact HN]]]]].
    + clear - HI. unfold ip_set_host_port. open_inv d HI. unfold se_inv, dok, line_ok. gs. splits; auto; try apply Hl; unfold u16 in *; lia.
    + intro Hc. destruct (HC Hc) as (G1 & G2 & G3). split; [exists s; reflexivity|]. split; assumption.
  - apply se_all_set; auto.
  - intros r d (HI & HR) Hwy H1. split; [|exact HR].
    clear - HI Hwy H1. open_inv d HI. unfold se_inv, dok, fits, line_ok in *. gs. rewrite ?H1. splits; auto; try lia; apply Hl.
  - intros r d (HI & HR) Hwy H1. split; [|exact HR].
    clear - HI Hwy H1. open_inv d HI. unfold se_inv, dok, fits, line_ok in *. gs. rewrite ?H1. splits; auto; try lia; apply Hl.
  - apply se_all_set; auto.
  - intros oo d H. cbn [drv_run se_driver se_may_fail]. apply se_run_rrun. assumption.
  - intros d H. cbn [drv_reset se_driver]. apply se_reset_states_ok. assumption.
  - intros d HA. cbn [drv_connect se_driver se_may_fail]. pose proof HA as (HI & HL & HS & HX & HC & HN). unfold se_connect, ip_connect.
    destruct (ssid (ext d)) eqn:E1; cbn [wp fst snd]; auto. destruct (passwd (ext d)) eqn:E2; cbn [wp fst snd]; auto.
    destruct (clen s =? 0); cbn [wp fst snd]; auto. destruct (host d) eqn:Eh; cbn [wp fst snd]; auto.
    destruct (port d =? 0)%Z; cbn [fst snd]; auto. split; [|right; auto].
    split; [exact HI|split; [exact HL|split; [exact HS|split; [exact HX|split; [|exact HN]]]]]. intros _. unfold se_set, is_str. gs. rewrite Eh, E1, E2. splits; eauto.
  - intros x d Hg H. cbn [drv_x se_driver]. apply se_x_ok; assumption.
Qed.

(** The constructor, whatever the memory contained. *)
Definition se_fresh (N : Prop) (d : dv) : Prop :=
  se_all N d /\ sched (io d) = [] /\ sst d = SENotConnected /\ rst d = REOk /\ wait d = None /\ cst d = csNotConnected /\
  fl d = flags_line_read /\ lbfill d = 0 /\ contents (rbuf d) = [] /\ contents (wbuf d) = [] /\ ring_ok (rbuf d) /\ ring_ok (wbuf d) /\
  toWrite d = 0%Z /\ toRead d = 0%Z /\ toReceive d = 0%Z /\ rssi d = 99%Z /\ host d = PNull /\ port d = 0%Z /\
  ssid (ext d) = PUninit /\ passwd (ext d) = PUninit.

Lemma se_new_ok : forall (N : Prop) s opened rb wb raw_lbuf raw_mac raw_typ,
  serial_wf s -> fits (rsize (lr (srx s))) -> fits (rsize (lr (stx s))) -> rb <> [] -> wb <> [] -> fits (length wb) ->
  length raw_lbuf = 61 -> length raw_mac = 18 -> (N -> In NUL raw_mac) ->
  exists d, se_new s opened rb wb raw_lbuf raw_mac raw_typ = Ok d /\ se_fresh N d /\ emac (ext d) = raw_mac.
Proof.
  intros N s opened rb wb rl rm rt Hw Hf1 Hf2 Hrb Hwb Hf3 Hl Hm HN.
  unfold se_new.
  pose proof (ring_new_ok rb) as Hr0. pose proof (ring_new_ok wb) as Hw0.
  assert (Hrz : 0 < length rb) by (destruct rb; [congruence|cbn; lia]).
  assert (Hwz : 0 < length wb) by (destruct wb; [congruence|cbn; lia]).
  set (d0 := d_raw s opened rb wb rl rt SENotConnected REOk (mkEspx PUninit PUninit rm)).
  assert (H0 : dok d0).
  { unfold dok, line_ok, d0, d_raw. cbn. splits; auto; try apply Hr0; try apply Hw0; try lia; try exact I. apply partial_nil. }
  assert (Ht : wp False (se_reset_states d0) (fun d => se_fresh N d /\ emac (ext d) = rm)).
  { unfold se_reset_states. apply wp_reset_states; [exact Hw|]. intros y ev E1 E2 E3 E4 E5 E6 E7 E8. split; [|reflexivity].
    split; [apply se_reseted_all; auto; [exact (sstep_wf _ _ _ E1)|apply (sstep_caps _ _ _ E1)..]|].
    destruct (ring_flush_ok (ring_new rb) (proj1 Hr0)) as [G1 G2]. destruct (ring_flush_ok (ring_new wb) (proj1 Hw0)) as [G3 G4].
    cbn. splits; auto. apply E1. reflexivity. }
  apply wp_total in Ht. exact Ht.
Qed.
