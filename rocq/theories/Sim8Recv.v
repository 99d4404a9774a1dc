(** Receiving with the SIM800 driver: what it asks for, and that what the
    modem sends then reaches read(). *)
From Coq Require Import String Ascii ZArith List Bool Arith Lia ZifyBool ZifyNat.
From Verif Require Import Base QueueSpec LineSpec SerialSpec Ring RingProofs LineRing LineRingProofs Serial SerialProofs
  SerStep TaskMacros CStr CStrProofs Dev DevProofs SimDev SimProofs SimSpec SimParse Sym DrvStep DrvCommon DrvRun DrvHist DrvActs DrvRecv SimLog
  Sim800 Sim8Spec Sim8Proofs Sim8Ctl Sim8Hist Sim8Thms Sim8More Sim8Line Sim8Req Sim8Rest.
Import ListNotations.
Local Open Scope nat_scope.
Local Notation dv := (dev s8send s8reply simx).

Definition s8_asks (r : s8reply) : bool := match r with R8Ciprxget2 => true | _ => false end.
Lemma s8_asking_data : forall d : dv, s8_asks (rst d) = true -> s8_asking d = askData.
Proof. intros d H. unfold s8_asking, s8_asks in *. destruct (rst d); try discriminate; reflexivity. Qed.

Theorem s8_received : forall P d0 tr d, s8_fresh d0 -> s8_hist P d0 tr d ->
  let acc := r_log (rx_req P) (rx_rep P) tr in
  r_ok acc = true -> r_in acc = r_out acc ++ contents (rbuf d) /\ ring_ok (rbuf d).
Proof.
  intros P d0 tr d HF Hh acc Hok. subst acc.
  pose proof HF as (_ & _ & _ & F2 & _ & _ & _ & _ & F5 & _ & F6 & _ & _ & F3 & _).
  cut (r_fits s8_asks (r_log (rx_req P) (rx_rep P) tr) d).
  { intro G. destruct (G Hok) as (G1 & G2 & _). split; assumption. }
  apply (received_history _ _ _ _ _ (s8_contract P) s8_asks (rx_req P) (rx_rep P)) with (d0 := d0); auto.
  - intros r Hr. destruct r; reflexivity || discriminate.
  - intros d1 r d2 tk L Hl [[HI [HL _]] [_ Hx]]. apply s8_line_counts in Hx. unfold s8_counts in Hx.
    assert (Hf : fLine (fl d1) = true) by (inversion Hl; assumption).
    assert (Hz : toRead d1 = 0%Z).
    { assert (H0 : (0 <= toRead d1)%Z) by (clear - HI; destruct HI as ((_ & _ & _ & _ & _ & _ & _ & _ & _ & _ & H & _) & _); lia).
      destruct (Z.eq_dec (toRead d1) 0) as [E|E]; [exact E|]. destruct HL as [HL _]; [lia|]. congruence. }
    cbn [rx_act rx_ask rx_waiting rx_due] in Hx. unfold rx_rep. destruct (s8_asks (rst d1)) eqn:Ea.
    + rewrite (s8_asking_data _ Ea) in Hx. destruct (prefixb (bs "+CIPRXGET: 2,0,") L).
      * left. eexists. split; [reflexivity|]. split; [reflexivity|]. cbv zeta in Hx. injection Hx as X1 X2 X3. split.
        -- destruct (s8_asks (rst d2)) eqn:E; [|reflexivity]. rewrite (s8_asking_data _ E) in X3. discriminate.
        -- intro Hk. rewrite X2, Hz. pose proof (i32_lt (number P (skipn 15 L))) as Hb. unfold u64. rewrite Z.add_0_l. apply Z.mod_small. split; [exact Hk|]. eapply Z.lt_trans; [exact Hb|reflexivity].
      * right. injection Hx as X1 X2 X3. split; [assumption|]. auto.
    + right. assert (Hn : s8_asking d1 <> askData) by (unfold s8_asking, s8_asks in *; destruct (rst d1); discriminate).
      destruct (s8_asking d1) eqn:E1; [| |contradiction Hn; reflexivity].
      * injection Hx as X1 X2 X3. split; [assumption|]. intro E. rewrite (s8_asking_data _ E) in X3. discriminate.
      * destruct (prefixb _ L); injection Hx as X1 X2 X3; (split; [assumption|]); intro E; rewrite (s8_asking_data _ E) in X3; discriminate.
  - intros d1 d2 cmd q Hl Hx Ha. destruct (s8_out_effect _ _ _ Hl Hx) as (_ & _ & E2).
    destruct Hx as (HI & _). destruct HI as (_ & _ & _ & HI & _).
    destruct E2 as [(_ & -> & (_ & _ & E))|[(c & Hi & -> & (_ & _ & E))|[(c & Hs & -> & (_ & _ & E))|(_ & (_ & _ & E) & n & -> & N1 & N2 & N3 & N4 & _)]]].
    + rewrite E in Ha. discriminate.
    + rewrite E in Ha. discriminate.
    + exfalso. rewrite E in Ha. unfold s8_command in Hs. destruct (sst d1); cbn [s8_after snd] in Ha; try discriminate Ha; discriminate Hs.
    + exists n. split; [apply rx_req_dec; lia|assumption].
  - intros d1 d2 b Hl Hx Hb Ha. destruct (s8_out_effect _ _ _ Hl Hx) as (_ & _ & E2).
    destruct b as [q|tk|tk1 tk2|tk line| |cmd q|n q|q|tk]; try (inversion Hl; fail).
    all: try (rewrite E2 in Ha; first [exact Ha | discriminate Ha]).
    contradiction (Hb cmd q). reflexivity.
  - rewrite F2. reflexivity.
Qed.

(** Every request fits what the modem reported, the limit of the modem and the
    read buffer, and without interrupts during the call also the serial
    buffer. *)
Theorem s8_request : forall P d0 tr d e d' cmd q, s8_built d0 -> s8_hist P d0 tr d -> s8_step P d e d' ->
  In (aCommand cmd q) (e_acts e) -> prefixb (bs "AT+CIPRXGET=2,0,") cmd = true ->
  exists n, cmd = bs "AT+CIPRXGET=2,0," ++ dec n ++ [CR; LF] /\ (0 <= n <= 1460)%Z /\
    (n <= Z.of_nat (ring_space (rbuf d)))%Z /\ (n <= rx_waiting (rx_log P (tr ++ [e])))%Z /\
    (e_sch e = [] -> (0 < n)%Z /\ (n + 8 + Z.of_nat (rxav (io d)) <= Z.of_nat (rxsz (io d)) + Z.of_nat (length (taken (e_ev e))))%Z).
Proof.
  intros P d0 tr d e d' cmd q HB Hh Hs Hin Hpre.
  pose proof (s8_built_fresh _ HB) as HF.
  pose proof (s8_maxrx P d0 tr d HB Hh) as Hm.
  destruct (s8_sent P d e d' _ Hs Hin eq_refl) as (l & dp & a & dm & d1 & r & Ea & Hp & Hl & Hx & Ho & Hox & Hd' & Hk & _ & Hmx & (evx & Hev) & Htx).
  destruct (s8_out_effect _ _ _ Ho Hox) as (_ & _ & Hsay).
  assert (Hc4 : exists n, cmd = bs "AT+CIPRXGET=2,0," ++ dec n ++ [CR; LF] /\
     (0 <= n)%Z /\ (n <= toReceive dm)%Z /\ (n <= Z.of_nat (ring_space (rbuf dm)))%Z /\ (n <= maxrx (ext dm))%Z /\
     (sched (io dm) = [] -> (0 < n)%Z /\ (n + 8 <= Z.of_nat (rxsz (io dm)) - Z.of_nat (rxav (io dm)))%Z) /\ sst dm = S8SendCiprxget2).
  { destruct Hsay as [(_ & -> & _)|[(c & Hi & -> & _)|[(c & Hi & -> & _)|(Es & _ & n & Hn)]]].
    - discriminate Hpre.
    - exfalso. unfold id_request in Hi. destruct (nth_error _ 1) as [t|]; [|discriminate]. destruct (id_of_code t) as [[]|]; try discriminate Hi; injection Hi as <-; discriminate Hpre.
    - exfalso. unfold s8_command in Hi. destruct (sst dm); try discriminate Hi; apply some_eq in Hi; subst c; try destruct (_ =? _)%Z; discriminate Hpre.
    - exists n. destruct Hn as (H1 & H2 & H3 & H4 & H5 & H6). splits; auto; apply H6; assumption. }
  destruct Hc4 as (n & Ec & N1 & N2 & N3 & N4 & N5 & Est). exists n.
  assert (Hpl : l = [] /\ dp = during (e_sch e) d).
  { destruct Hp as [(_ & -> & ->)|(_ & q' & _ & _ & (R1 & R2 & _))]; [split; reflexivity|]. exfalso.
    assert (sst dm = sst dp).
    { destruct Hx as [_ Hx]. destruct a; try (exact (proj1 Hx)). destruct Hx as [_ Hx]. apply s8_line_moved in Hx.
      destruct Hx as [Hx|[(Hx & _)|(Hx & _)]]; [exact Hx|congruence|congruence]. }
    unfold s8_reset_state in R1. destruct (_ || _) in R1; congruence. }
  destruct Hpl as [-> ->]. cbn [app] in Ea.
  assert (Hr : rbuf dm = rbuf d) by (destruct Hk as (_ & Hk & _); exact Hk).
  split; [exact Ec|]. split; [lia|]. split; [rewrite <- Hr; exact N3|]. split.
  - assert (Hh' : s8_hist P d0 (tr ++ [e]) d') by (eapply hist_app; [exact Hh|econstructor; [exact Hs|constructor]]).
    pose proof (s8_rx_history P d0 (tr ++ [e]) d' HF Hh') as Hrx. rewrite <- Hrx. cbn [rx_waiting].
    assert (toReceive d1 = toReceive dm) by (inversion Ho; assumption). rewrite Hd'. cbn [set_io toReceive]. lia.
  - intro Es. assert (Hsd : sched (io dm) = []).
    { destruct Hev as (_ & _ & _ & _ & _ & _ & Hev). apply Hev. rewrite Es. destruct d; reflexivity. }
    destruct (N5 Hsd) as [M1 M2]. split; [exact M1|].
    assert (Htk : taken (e_ev e) = act_taken a).
    { assert (He : exists oo, e_op e = OpRun oo).
      { destruct (s8_cases P d e d' Hs) as (dx & _ & _ & [(oo & Eo & _)|(_ & E0 & _)]); [eauto|]. rewrite E0 in Hin. destruct Hin. }
      destruct He as [oo Eo]. destruct Hs as (_ & _ & _ & _ & _ & _ & Hio & _). unfold call_io in Hio. rewrite Ea, Eo in Hio.
      destruct Hio as [-> _]. unfold acts_taken. cbn. rewrite app_nil_r. reflexivity. }
    assert (Hrx : rxav (io d) <= rxav (io dm) + length (act_taken a) /\ rxsz (io dm) = rxsz (io d)).
    { destruct d. inversion Hl; subst; match goal with H : ioeff _ _ _ _ |- _ => destruct (ioeff_av _ _ _ _ H); destruct (ioeff_caps _ _ _ _ H) end; cbn [act_taken]; split; assumption. }
    rewrite Htk. lia.
Qed.
