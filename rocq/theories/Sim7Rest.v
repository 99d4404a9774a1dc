(** Commands, receive requests, and the states the SIM7x00 driver cannot leave
    by itself. *)
From Coq Require Import String Ascii ZArith List Bool Arith Lia ZifyBool ZifyNat.
From Verif Require Import Base QueueSpec LineSpec SerialSpec Ring RingProofs LineRing LineRingProofs Serial SerialProofs
  SerStep TaskMacros CStr CStrProofs Dev DevProofs SimDev SimProofs SimSpec SimParse SimLog Sym DrvStep DrvCommon DrvRun DrvHist DrvActs
  Sim7x00 Sim7Spec Sim7Proofs Sim7Ctl Sim7CtlIn Sim7Run Sim7Hist Sim7Thms Sim7More Sim7Line Sim7Req.
Import ListNotations.
Local Open Scope nat_scope.
Ltac Zify.zify_post_hook ::= Z.div_mod_to_equations.
Local Notation dv := (dev s7send s7reply simx).
Local Notation ent := (@entry simop).
Local Notation olab7 := (olab r7_ok s7_says s7_tail s7_insend true).

(** ** The commands *)

(** Everything the driver may send besides the data: [n] is the number of bytes
    asked for. *)
Definition s7_known (d : dv) (cmd : bytes) : Prop :=
  cmd = bs "AT+CSQ" ++ [CR; LF] \/
  (exists t c, id_command s7_iccid_command t = Some c /\ cmd = c ++ [CR; LF]) \/
  (exists s ipb c, s7_command s (apn (ext d)) (host d) ipb (typ d) (port d) = Some c /\ cmd = c ++ [CR; LF]) \/
  (exists n, (0 <= n <= maxrx (ext d))%Z /\ (n <= Z.of_nat (ring_space (rbuf d)))%Z /\ cmd = bs "AT+CIPRXGET=2,0," ++ dec n ++ [CR; LF]).

Lemma s7_in_config : forall P d r a d2, s7_in_ext P d r a d2 -> apn (ext d2) = apn (ext d) /\ maxrx (ext d2) = maxrx (ext d).
Proof.
  intros P d r a d2 [_ Hx]. destruct a as [q|tk|tk1 tk2|tk L| |cmd q|n q|q|tk]; try (destruct Hx as (_ & _ & _ & _ & _ & X & _); rewrite X; auto; fail).
  destruct Hx as [(_ & _ & _ & _ & _ & _ & _ & _ & _ & (X1 & X2 & _) & _) _]. split; [exact X1|exact X2].
Qed.

Lemma s7_sent : forall P d e d' b, s7_step P d e d' -> In b (e_acts e) -> sends b = true ->
  exists a dm d1 r, e_acts e = [a; b] /\ ilab s7_insend (fun _ : dv => whole_line) (fun _ : dv => partial_line) s7_clears (during (e_sch e) d) r dm a /\
    s7_in_ext P (during (e_sch e) d) r a dm /\ olab7 dm d1 b /\ s7_out_ext dm b d1 /\ d' = set_io (io d') d1 /\
    keep (during (e_sch e) d) dm /\ apn (ext dm) = apn (ext d) /\ maxrx (ext dm) = maxrx (ext d) /\
    (exists ev, sstep (io (during (e_sch e) d)) (io dm) ev) /\ txav (io dm) <= txav (io d).
Proof.
  intros P d e d' b Hs Hb Hx. assert (He : exists oo, e_op e = OpRun oo).
  { destruct (s7_cases P d e d' Hs) as (d1 & _ & _ & [(oo & Eo & _)|(_ & Ea & _)]); [eauto|]. rewrite Ea in Hb. destruct Hb. }
  destruct He as [oo Eo]. destruct (s7_run_cases P d e d' oo Hs Eo) as (d1 & E & H).
  destruct H as [(Ea & _)|[(q & Ea & _)|(_ & _ & _ & a & d2 & r & Hl & Hin & H)]].
  - rewrite Ea in Hb. destruct Hb.
  - rewrite Ea in Hb. destruct Hb as [<-|[]]. discriminate.
  - destruct H as [[Ea _]|(b' & Ea & Ho & Hoe)]; rewrite Ea in Hb; destruct Hb as [<-|Hb].
    1: rewrite (ilab_sends (s7_shape P) _ _ _ _ Hl) in Hx; discriminate.
    1: destruct Hb.
    1: rewrite (ilab_sends (s7_shape P) _ _ _ _ Hl) in Hx; discriminate.
    destruct Hb as [<-|[]]. exists a, d2, d1, r. destruct (s7_in_config _ _ _ _ _ Hin) as [C1 C2].
    destruct (ilab_io (s7_shape P) _ _ _ _ Hl) as (ev & Hst & _).
    splits; auto.
    + exact (ilab_keep (s7_shape P) _ _ _ _ Hl).
    + eauto.
    + exact (ilab_tx (s7_shape P) _ _ _ _ Hl).
Qed.

(** Each command is one of the documented ones with the configured values, and
    goes out whole if the transmit buffer has room for it. *)
Theorem s7_commands : forall P d e d' cmd q, s7_step P d e d' -> In (aCommand cmd q) (e_acts e) ->
  s7_known d cmd /\ length q <= length cmd /\ (txav (io d) + length cmd <= txsz (io d) -> q = cmd).
Proof.
  intros P d e d' cmd q Hs Hb. destruct (s7_sent P d e d' _ Hs Hb eq_refl) as (a & dm & d1 & r & _ & _ & _ & Ho & _ & _ & K & C1 & C2 & (ev & Hst) & T).
  inversion Ho as [|y c q' Hn I1 Hsp I2 Hq Hq2 Hne Hsay| | |]; subst. split; [|split; [exact Hq|]].
  - destruct K as (_ & K1 & _ & K2 & K3 & K4). cbn [during set_io typ host port rbuf] in *. unfold s7_known.
    destruct Hsay as [(_ & -> & _)|[(c & Hi & -> & _)|[(c & Hc & -> & _)|(_ & _ & n & -> & N1 & N2 & N3 & N4 & _)]]].
    + left. reflexivity.
    + right. left. unfold id_request in Hi. destruct (nth_error _ 1) as [t|]; [|discriminate]. destruct (id_of_code t) as [ty|]; [|discriminate]. eauto.
    + right. right. left. exists (sst dm), (ip (ext dm)), c. rewrite <- C1, <- K2, <- K3, <- K4. auto.
    + right. right. right. exists n. rewrite <- K1, <- C2. splits; try lia. reflexivity.
  - intro R. apply Hq2. pose proof (ioeff_av _ _ _ _ I1) as [_ A]. cbn [length] in A. rewrite (ioeff_txsz _ _ _ _ I1), (sstep_txsz _ _ _ Hst).
    change (txsz (io (during (e_sch e) d))) with (txsz (io d)). lia.
Qed.

(** The most the driver asks for at once: a constant of the class. *)
Theorem s7_maxrx : forall P d0 tr d, s7_built d0 -> s7_hist P d0 tr d -> maxrx (ext d) = 1500%Z.
Proof.
  intros P d0 tr d HB Hh.
  assert (E0 : maxrx (ext d0) = 1500%Z).
  { destruct HB as (s & o & rb & wb & rl & ri & ri' & rt & H1 & _ & _ & _ & _ & _ & _ & _ & H9 & E).
    assert (Hw : wp True (s7_new s o rb wb rl ri ri' rt) (fun d => maxrx (ext d) = 1500%Z)); [|rewrite E in Hw; exact Hw].
    unfold s7_new. apply wp_sim_reset_states; [exact H1|exact H9|]. intros. reflexivity. }
  refine (act_ghost _ _ _ _ _ (s7_contract P) unit (fun _ d => maxrx (ext d) = 1500%Z) (fun x _ => x) (fun x => x) (fun _ => True) _ _ _ _ _ _ _ _ d0 tr d Hh _ tt E0); auto.
  - intros a d1 q d2 K _ _ (_ & _ & _ & _ & R5 & _). congruence.
  - intros a d1 r d2 b K Hl Hx. destruct (s7_in_config _ _ _ _ _ Hx) as [_ M]. congruence.
  - intros e a d1 d2 b _ K Hl Hx. destruct (s7_out_effect _ _ _ Hl Hx) as (_ & (Q1 & _) & _). destruct Q1 as [->|[-> _]]; exact K.
  - intros e a d1 d2 _ HI K _ Hn Hcr (_ & _ & _ & _ & F & _) E1 E2 _ _.
    destruct F as [->|[x Ex]]; [exact K|]. rewrite Ex in Hcr. destruct Hcr as (_ & _ & Hc). cbn [drv_x s7_driver] in Hc.
    destruct x; cbn [sim_x] in Hc.
    + injection Hc as _ <-. exact K.
    + unfold sim_serial_lock in Hc. destruct (wait _); [injection Hc as _ <-; exact K|]. destruct (r7_ok _); injection Hc as _ <-; exact K.
    + injection Hc as _ <-. exact K.
    + unfold sim_request_id in Hc. destruct (wr _ 0 _) as [b1|]; [|discriminate]. cbn [bind] in Hc. destruct (wr b1 1 _) as [b2|]; [|discriminate]. cbn [bind] in Hc.
      destruct (wr b2 2 _) as [b3|]; [|discriminate]. cbn [bind] in Hc. injection Hc as _ <-. exact K.
    + destruct (sim_get_id _); [|discriminate]. cbn [bind] in Hc. injection Hc as _ <-. exact K.
  - intros a d1 d2 HI K _ E. destruct (s7_reset_exact P d1 d2 HI E) as (y & -> & _). exact K.
  - apply Forall_forall. auto.
Qed.

(** ** Receiving *)

Definition s7_asking (d : dv) : rxask := match rst d with R7Ciprxget4 => askCount | R7Ciprxget2 => askData | _ => askNone end.

(** The counts after the line [L]. *)
Definition s7_counts (P : plat) (L : bytes) (d d' : dv) : Prop :=
  mkRx (toReceive d') (toRead d') (s7_asking d') = rx_act P (mkRx (toReceive d) (toRead d) (s7_asking d)) (aLine [] L).

Lemma s7_special_counts : forall P L r d ret d', lbuf d = L ++ NUL :: r -> length (L ++ NUL :: r) = 61 -> s7_inv d ->
  s7_special_reply P d = Ok (ret, d') -> s7_counts P L d d' /\ (lbuf d' = lbuf d \/ parsed (lbuf d')).
Proof.
  intros P L r d ret d' HL Hlen HI H. destruct HI as (Hd & Hip & Hid & _).
  unfold s7_counts, s7_asking. unfold s7_special_reply in H. destruct (rst d) eqn:Er; cbn [rx_act rx_ask rx_waiting rx_due].
  - injection H as <- <-. rewrite Er. auto.
  - rewrite (csq_line P L r d HL Hlen) in H. destruct (prefixb (bs "+CSQ: ") L); cbn [bind] in H; injection H as <- <-; cbn [set_rst set_rssi rst toReceive toRead]; rewrite ?Er; auto.
  - destruct (id_line L r d HL Hlen Hid) as [(s & E1 & E2 & E3)|(E1 & E3)]; rewrite E3 in H; cbn [bind] in H; injection H as <- <-; cbn; rewrite ?Er; auto.
  - injection H as <- <-. rewrite Er. auto.
  - destruct (wait d).
    + rewrite (lstarts_line L r d HL Hlen) in H by (reflexivity || (cbn; lia)). cbn [bind] in H.
      destruct (prefixb (bs "+NETOPEN: 1") L); injection H as <- <-; cbn; rewrite ?Er; auto 6.
    + injection H as <- <-. auto.
  - pose proof (dns_line L r d HL Hlen Hip) as Hw. destruct (sim_parse_dns d) as [[ok d1]|]; [|discriminate]. cbn [bind wp] in *.
    injection H as <- <-. destruct Hw as [(E1 & E2 & E3)|[(E1 & E3)|(E1 & E2 & a & lb & E4 & E5 & E6 & E7 & E8 & E3)]]; apply pair_eq in E3 as [-> ->];
      try destruct (prefixb (bs "+CDNSGIP: 0") L); cbn; rewrite ?Er; auto.
  - destruct (wait d).
    + rewrite (lstarts_line L r d HL Hlen) in H by (reflexivity || (cbn; lia)). cbn [bind] in H.
      destruct (prefixb (bs "+CIPOPEN: 0,") L); injection H as <- <-; cbn; rewrite ?Er; auto.
    + injection H as <- <-. auto.
  - rewrite (ciprxget4_line P L r d HL Hlen) in H. destruct (prefixb (bs "+CIPRXGET: 4,0,") L); cbn [bind] in H; injection H as <- <-; cbn [set_rst set_toReceive rst toReceive toRead lbuf]; rewrite ?Er; auto.
  - rewrite (ciprxget2_line P L r d HL Hlen) in H. destruct (prefixb (bs "+CIPRXGET: 2,0,") L); cbn [bind] in H; injection H as <- <-; cbn [set_rst set_sst set_toReceive set_toRead on_line set_fl rst toReceive toRead lbuf]; rewrite ?Er; auto 6.
Qed.

Theorem s7_line_counts : forall P d ret d' L, s7_handles P d ret d' L -> s7_counts P L d d'.
Proof.
  intros P d ret d' L (r & y & Hlen & _ & HI & H).
  set (x := line_at L r y d) in *. assert (HL : lbuf x = L ++ NUL :: r) by reflexivity.
  cut (s7_counts P L x d'); [intro C; exact C|]. clearbody x. clear y d. rename x into d.
  pose proof HI as ((_ & _ & _ & _ & _ & _ & _ & _ & _ & Hwt & _) & Hip & Hid & _).
  assert (Hc : forall d1 d2 : dv, (lbuf d1 = lbuf d \/ parsed (lbuf d1)) ->
    (if s7_rank S7Connected <=? s7_rank (sst d1) then let* d := sim_check_connection (bs "+IPCLOSE: 0,") d1 in Ok (false, d) else Ok (false, d1))%res = Ok (ret, d2) ->
    toReceive d2 = toReceive d1 /\ toRead d2 = toRead d1 /\ rst d2 = rst d1).
  { intros d1 d2 Hd1 E. destruct (_ <=? _); [|injection E as <- <-; auto].
    assert (Hl1 : length (lbuf d1) = 61) by (destruct Hd1 as [->|[K _]]; [rewrite HL; exact Hlen|exact K]).
    unfold sim_check_connection in E. rewrite !lstarts_eq in E by (rewrite ?Hl1; cbn; lia || lfree). cbn [bind] in E.
    destruct (prefixb (bs "+CIPRXGET: 1,0") (lbuf d1)); [cbn [bind] in E; injection E as <- <-; auto|].
    destruct (prefixb (bs "+IPCLOSE: 0,") (lbuf d1)); cbn [bind] in E; injection E as <- <-; auto. }
  assert (Hz : forall d1 : dv, toReceive d1 = toReceive d -> toRead d1 = toRead d -> rst d1 = rst d -> prefixb (bs "ERROR") L = true -> s7_counts P L d d1).
  { intros d1 E1 E2 E3 Ee. unfold s7_counts, s7_asking. rewrite E1, E2, E3. cbn [rx_act rx_ask].
    apply prefixb_spec in Ee as [t ->]. destruct (rst d); reflexivity. }
  unfold s7_parse in H. assert (Hs : exists ret1 d1, s7_standard_reply d = Ok (ret1, d1) /\ lbuf d1 = lbuf d /\ rst d1 = rst d /\
     toReceive d1 = toReceive d /\ toRead d1 = toRead d /\ (ret1 = true -> prefixb (bs "ERROR") L = true) /\ (ret1 = false -> s7_inv d1)).
  { unfold s7_standard_reply. destruct (wait d) as [w|] eqn:Ew.
    - destruct Hwt as [Hw1 Hw2]. rewrite (lmatch_line L r d HL Hlen) by first [apply nulfree_of; assumption | lia]. cbn [bind].
      destruct (prefixb w L) eqn:Em.
      + exists false, (set_wait None d). splits; auto; [discriminate|]. intros _. clear - HI. open_inv d HI. inv_leaf.
      + rewrite (lstarts_line L r d HL Hlen) by (reflexivity || (cbn; lia)). cbn [bind]. destruct (prefixb (bs "ERROR") L) eqn:Ee.
        * eexists _, _. split; [reflexivity|]. splits; auto. discriminate.
        * exists false, d. splits; auto.
    - exists false, d. splits; auto. discriminate. }
  destruct Hs as (ret1 & d1 & Es & A1 & A2 & A3 & A4 & A5 & A6). rewrite Es in H. cbn [bind] in H. destruct ret1.
  - injection H as <- <-. apply Hz; auto.
  - destruct (s7_special_reply P d1) as [[ret2 d2]|] eqn:E2; [|discriminate]. cbn [bind] in H.
    destruct (s7_special_counts P L r d1 ret2 d2 ltac:(rewrite A1; exact HL) Hlen (A6 eq_refl) E2) as [HE HE2].
    assert (HF : toReceive d' = toReceive d2 /\ toRead d' = toRead d2 /\ rst d' = rst d2).
    { destruct ret2; [injection H as <- <-; auto|]. apply (Hc d2 d'); [|exact H]. rewrite <- A1. exact HE2. }
    destruct HF as (F1 & F2 & F3). unfold s7_counts, s7_asking in *. rewrite F1, F2, F3, HE, A2, A3, A4. reflexivity.
Qed.

Lemma s7_says_ask : forall d cmd d', s7_says d cmd d' ->
  s7_asking d' = if same cmd (bs "AT+CIPRXGET=4,0" ++ [CR; LF]) then askCount else if prefixb (bs "AT+CIPRXGET=2,0,") cmd then askData else askNone.
Proof.
  intros d cmd d' H. unfold s7_asking. destruct H as [(_ & -> & (_ & _ & ->))|[(c & Hi & -> & (_ & _ & ->))|[(c & Hs & -> & (_ & _ & ->))|(_ & (_ & _ & ->) & n & -> & _)]]].
  - reflexivity.
  - unfold id_request in Hi. destruct (nth_error _ 1) as [t|]; [|discriminate]. destruct (id_of_code t) as [[]|]; try discriminate Hi; injection Hi as <-; reflexivity.
  - unfold s7_command in Hs. destruct (sst d); try discriminate Hs; apply some_eq in Hs; subst c; try destruct (_ =? _)%Z; reflexivity.
  - reflexivity.
Qed.

Ltac rxsame := match goal with K : mkRx _ _ _ = ?a |- _ => subst a; cbn [rx_waiting rx_due rx_ask] end;
  repeat match goal with H : toReceive ?d2 = _ |- context [toReceive ?d2] => rewrite H end;
  repeat match goal with H : toRead ?d2 = _ |- context [toRead ?d2] => rewrite H end;
  try match goal with H : rst ?d2 = rst ?d1 |- context [s7_asking ?d2] => replace (s7_asking d2) with (s7_asking d1) by (unfold s7_asking; rewrite H; reflexivity) end;
  try reflexivity.

(** The driver's counters are what the replies say. *)
Theorem s7_rx_history : forall P d0 tr d, s7_fresh d0 -> s7_hist P d0 tr d -> mkRx (toReceive d) (toRead d) (s7_asking d) = rx_log P tr.
Proof.
  intros P d0 tr d HF Hh. unfold rx_log.
  apply (act_ghost _ _ _ _ _ (s7_contract P) _ (fun acc d => mkRx (toReceive d) (toRead d) (s7_asking d) = acc) (rx_act P) (fun _ => rx_zero) (fun _ => True)) with (d := d0); auto.
  - intros a d1 q d2 K _ (_ & _ & _ & _ & _ & R1 & R2 & _) (_ & R3 & _). cbn [rx_act]. unfold s7_asking. rewrite R1, R2, R3. reflexivity.
  - intros a d1 r d2 b K Hl [_ Hx]. destruct b as [q|tk|tk1 tk2|tk line| |cmd q|n q|q|tk]; try (inversion Hl; fail).
    + inversion Hl. cbn [rx_act]. rxsame.
    + inversion Hl. cbn [rx_act]. rxsame.
    + destruct Hx as [_ Hx]. apply s7_line_counts in Hx. unfold s7_counts in Hx. rewrite K in Hx. exact Hx.
  - intros e a d1 d2 b _ K Hl Hx. destruct (s7_out_effect _ _ _ Hl Hx) as (_ & _ & E2).
    destruct b as [q|tk|tk1 tk2|tk line| |cmd q|n q|q|tk]; try (inversion Hl; fail); cbn [rx_act].
    + inversion Hl. rxsame.
    + rewrite <- (s7_says_ask _ _ _ E2). inversion Hl. rxsame.
    + inversion Hl. rxsame.
    + assert (E3 : rst d1 = R7Ok) by (apply s7_not_waiting; inversion Hl; assumption). rewrite <- E3 in E2. inversion Hl. rxsame.
    + assert (E3 : rst d1 = R7Ok) by (apply s7_not_waiting; inversion Hl; assumption). inversion Hl. rxsame. unfold s7_asking. rewrite E2. reflexivity.
  - intros e a d1 d2 _ HI K Hr Hn _ _ _ E2 _ _. destruct Hr as [(_ & _ & _ & T1 & T2 & _)|[Hr _]]; [|rewrite Hr in Hn; discriminate]. rxsame.
  - intros a d1 d2 HI _ _ E. destruct (s7_reset_exact P d1 d2 HI E) as (y & -> & _). reflexivity.
  - apply Forall_forall. auto.
  - destruct HF as (_ & _ & _ & F2 & _ & _ & _ & _ & _ & _ & _ & _ & _ & F3 & F4 & _). unfold s7_asking, rx_zero. rewrite F2, F3, F4. reflexivity.
Qed.
