(** Receiving with the CC1352P7 driver: what it asks for, and that what the
    modem sends then reaches read(). *)
From Coq Require Import String Ascii ZArith List Bool Arith Lia ZifyBool ZifyNat.
From Verif Require Import Base QueueSpec LineSpec SerialSpec Ring RingProofs LineRing LineRingProofs Serial SerialProofs
  SerStep TaskMacros CStr CStrProofs Dev DevProofs SimDev SimProofs SimSpec SimParse Sym DrvStep DrvCommon DrvRun DrvHist DrvActs DrvRecv SimLog
  Espressif Cc1352 CcSpec CcProofs CcCtl CcCtlIn CcRun AtLine CcHist CcThms CcMore CcLine CcReq CcRest.
Import ListNotations.
Local Open Scope nat_scope.
Local Notation dv := (dev ccsend ccreply ccx).

(** The number in AT+CIPRECVDATA=n and in its reply. *)
Definition rxC_req (P : plat) (cmd : bytes) : option Z :=
  if prefixb (bs "AT+CIPRECVDATA=") cmd then Some (number P (skipn 15 cmd)) else None.
Definition rxC_rep (P : plat) (L : bytes) : option Z :=
  if prefixb (bs "+CIPRECVDATA") L then Some (i32 (number P (skipn 13 L))) else None.
Lemma rxC_req_dec : forall P n, (0 <= n < 2147483648)%Z -> rxC_req P (bs "AT+CIPRECVDATA=" ++ dec n ++ [CR; LF]) = Some n.
Proof.
  intros P n H. unfold rxC_req. change (skipn 15 (bs "AT+CIPRECVDATA=" ++ dec n ++ [CR; LF])) with (dec n ++ [CR; LF]).
  rewrite number_dec by (try assumption; reflexivity). reflexivity.
Qed.

Definition sc_asks (r : ccreply) : bool := match r with RCParseCiprecvdata => true | _ => false end.

Theorem sc_received : forall P d0 tr d, sc_fresh False d0 -> sc_hist P d0 tr d ->
  let acc := r_log (rxC_req P) (rxC_rep P) tr in
  r_ok acc = true -> r_in acc = r_out acc ++ contents (rbuf d) /\ ring_ok (rbuf d).
Proof.
  intros P d0 tr d HF Hh acc Hok. subst acc.
  pose proof HF as (_ & _ & _ & F2 & _ & _ & _ & _ & F5 & _ & F6 & _ & _ & F3 & _).
  cut (r_fits sc_asks (r_log (rxC_req P) (rxC_rep P) tr) d).
  { intro G. destruct (G Hok) as (G1 & G2 & _). split; assumption. }
  apply (received_history _ _ _ _ _ (sc_contract False P) sc_asks (rxC_req P) (rxC_rep P)) with (d0 := d0); auto.
  - intros r Hr. destruct r; reflexivity || discriminate.
  - intros d1 r d2 tk L Hl [[HI [HL _]] [_ Hx]].
    assert (Hwl : whole_line L) by (inversion Hl; assumption). apply sc_line_effect in Hx; [|exact Hwl]. destruct Hx as [Hx _]. unfold sc_effect in Hx.
    assert (Hf : fLine (fl d1) = true) by (inversion Hl; assumption).
    assert (Hz : toRead d1 = 0%Z).
    { assert (H0 : (0 <= toRead d1)%Z) by (clear - HI; destruct HI as ((_ & _ & _ & _ & _ & _ & _ & _ & _ & _ & H & _) & _); lia).
      destruct (Z.eq_dec (toRead d1) 0) as [E|E]; [exact E|]. destruct HL as [HL _]; [lia|]. congruence. }
    unfold rxC_rep. destruct (sc_refused d1 L) eqn:Er.
    + right. destruct Hx as (_ & _ & X1 & _ & _ & X2 & _). rewrite X1. split; [exact X2|]. intro E. split; [exact E|].
      unfold sc_refused in Er. apply orb_true_iff in Er as [Er|Er]; [|apply andb_true_iff in Er as [_ Er]]; apply prefixb_spec in Er as [t ->]; reflexivity.
    + destruct Hx as (_ & X1 & _ & _ & X2 & _). unfold sc_data, sc_takes_rssi, sc_takes_mac in X1, X2. destruct (rst d1) eqn:E1; cbn [sc_asks].
      * right. split; [exact X2|]. rewrite X1. discriminate.
      * destruct (prefixb (bs "+CIPRECVDATA") L) eqn:Ep.
        -- left. eexists. split; [reflexivity|]. split; [reflexivity|]. cbn [orb] in X1. rewrite X1. split; [reflexivity|]. intro Hk. rewrite X2, Hz.
           pose proof (i32_lt (number P (skipn 13 L))) as Hb. unfold u64. rewrite Z.add_0_l. apply Z.mod_small. split; [exact Hk|]. eapply Z.lt_trans; [exact Hb|reflexivity].
        -- right. auto.
      * right. split; [exact X2|]. rewrite X1. destruct (_ || _ || _); discriminate.
      * right. split; [exact X2|]. rewrite X1. destruct (_ || _ || _); discriminate.
  - intros d1 d2 cmd q Hl Hx Ha. destruct (sc_out_effect _ _ _ _ Hl Hx) as (_ & _ & E2).
    destruct E2 as [(_ & -> & (_ & _ & E))|[(Hi & -> & (_ & _ & E))|[(c & Hs & -> & (_ & _ & E))|(_ & (_ & _ & E) & n & -> & N1 & N2 & N3 & N4 & _)]]]; try (rewrite E in Ha; discriminate).
    exists n. split; [apply rxC_req_dec; lia|assumption].
  - intros d1 d2 b Hl Hx Hb Ha. destruct (sc_out_effect _ _ _ _ Hl Hx) as (_ & _ & E2).
    destruct b as [q|tk|tk1 tk2|tk line| |cmd q|n q|q|tk]; try (inversion Hl; fail).
    all: try (rewrite E2 in Ha; first [exact Ha | discriminate Ha]).
    contradiction (Hb cmd q). reflexivity.
  - rewrite F2. reflexivity.
Qed.

(** Every request fits what the modem reported, the limit of the modem and the
    read buffer, and without interrupts during the call also the serial
    buffer. *)
Theorem sc_request : forall P d0 tr d e d' cmd q, sc_built d0 -> sc_hist P d0 tr d -> sc_step P d e d' ->
  In (aCommand cmd q) (e_acts e) -> prefixb (bs "AT+CIPRECVDATA=") cmd = true ->
  exists n, cmd = bs "AT+CIPRECVDATA=" ++ dec n ++ [CR; LF] /\ (0 <= n <= 1220)%Z /\
    (n <= Z.of_nat (ring_space (rbuf d)))%Z /\ (n <= toReceive d')%Z /\ (exists w, In w (xw_waiting (rxC_log P (tr ++ [e]))) /\ (n <= w)%Z) /\
    (e_sch e = [] -> (0 < n)%Z /\ (n + 30 + Z.of_nat (rxav (io d)) <= Z.of_nat (rxsz (io d)) + Z.of_nat (length (taken (e_ev e))))%Z).
Proof.
  intros P d0 tr d e d' cmd q HB Hh Hs Hin Hpre.
  pose proof (sc_built_fresh _ HB) as HF. pose proof (sc_unlocked P d0 tr d HB Hh) as HL.
  destruct (sc_sent P d e d' _ Hs HL Hin eq_refl) as (l & dp & a & dm & d1 & r & Ea & Hp & Hl & Hx & Ho & Hox & Hd' & Hk & (evx & Hev) & Htx).
  destruct (sc_out_effect _ _ _ _ Ho Hox) as (_ & _ & Hsay).
  assert (Hc4 : exists n, cmd = bs "AT+CIPRECVDATA=" ++ dec n ++ [CR; LF] /\
     (0 <= n)%Z /\ (n <= toReceive dm)%Z /\ (n <= Z.of_nat (ring_space (rbuf dm)))%Z /\ (n <= 1220)%Z /\
     (sched (io dm) = [] -> (0 < n)%Z /\ (n + 30 <= Z.of_nat (rxsz (io dm)) - Z.of_nat (rxav (io dm)))%Z) /\ sst dm = SCSendCiprecvdata).
  { destruct Hsay as [(_ & -> & _)|[(Hi & -> & _)|[(c & Hi & -> & _)|(Es & _ & n & Hn)]]].
    - discriminate Hpre.
    - discriminate Hpre.
    - exfalso. unfold sc_command in Hi. destruct (sst dm); try discriminate Hi; apply some_eq in Hi; subst c; discriminate Hpre.
    - exists n. destruct Hn as (H1 & H2 & H3 & H4 & H5 & H6). splits; auto; apply H6; assumption. }
  destruct Hc4 as (n & Ec & N1 & N2 & N3 & N4 & N5 & Est). exists n.
  assert (Hpl : l = [] /\ dp = during (e_sch e) d).
  { destruct Hp as [(_ & -> & ->)|(_ & q' & _ & _ & (R1 & R2 & _))]; [split; reflexivity|]. exfalso.
    assert (sst dm = sst dp).
    { destruct Hx as [_ Hx]. destruct a as [q2|tk|tk1 tk2|tk L| |c2 q2|n2 q2|q2|tk]; try (exact (proj1 Hx)). destruct Hx as [_ Hx].
      assert (Hwl : whole_line L) by (inversion Hl; assumption). apply sc_line_effect in Hx; [|exact Hwl]. destruct Hx as [Hx _]. unfold sc_effect in Hx.
      destruct (sc_refused dp L); [apply Hx|]. destruct Hx as [Hx _]. unfold sc_data in Hx. rewrite R2 in Hx. exact Hx. }
    congruence. }
  destruct Hpl as [-> ->]. cbn [app] in Ea.
  assert (Hr : rbuf dm = rbuf d) by (destruct Hk as (_ & Hk & _); exact Hk).
  assert (HT : toReceive d' = toReceive dm) by (assert (toReceive d1 = toReceive dm) by (inversion Ho; assumption); rewrite Hd'; assumption).
  split; [exact Ec|]. split; [lia|]. split; [rewrite <- Hr; exact N3|]. split; [lia|]. split.
  - assert (Hh' : sc_hist P d0 (tr ++ [e]) d') by (eapply hist_app; [exact Hh|econstructor; [exact Hs|constructor]]).
    destruct (sc_rx_history P d0 (tr ++ [e]) d' HF Hh') as (Hrx & _). exists (toReceive d'). split; [exact Hrx|lia].
  - intro Es. assert (Hsd : sched (io dm) = []).
    { destruct Hev as (_ & _ & _ & _ & _ & _ & Hev). apply Hev. rewrite Es. destruct d; reflexivity. }
    destruct (N5 Hsd) as [M1 M2]. split; [exact M1|].
    assert (Htk : taken (e_ev e) = act_taken a).
    { assert (He : exists oo, e_op e = OpRun oo).
      { destruct (sc_cases P d e d' Hs) as (dx & _ & _ & [(oo & Eo & _)|(_ & E0 & _)]); [eauto|]. rewrite E0 in Hin. destruct Hin. }
      destruct He as [oo Eo]. destruct Hs as (_ & _ & _ & _ & _ & _ & Hio & _). unfold call_io in Hio. rewrite Ea, Eo in Hio.
      destruct Hio as [-> _]. unfold acts_taken. cbn. rewrite app_nil_r. reflexivity. }
    assert (Hrx : rxav (io d) <= rxav (io dm) + length (act_taken a) /\ rxsz (io dm) = rxsz (io d)).
    { destruct d. inversion Hl; subst; match goal with H : ioeff _ _ _ _ |- _ => destruct (ioeff_av _ _ _ _ H); destruct (ioeff_caps _ _ _ _ H) end; cbn [act_taken]; split; assumption. }
    rewrite Htk. lia.
Qed.
