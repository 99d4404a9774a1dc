(** Commands and receive requests of the CC1352P7 driver. *)
From Coq Require Import String Ascii ZArith List Bool Arith Lia ZifyBool ZifyNat.
From Verif Require Import Base QueueSpec LineSpec SerialSpec Ring RingProofs LineRing LineRingProofs Serial SerialProofs
  SerStep TaskMacros CStr CStrProofs Dev DevProofs SimDev SimProofs SimSpec SimParse SimLog Sym DrvStep DrvCommon DrvRun DrvHist DrvActs
  Espressif Cc1352 CcSpec CcProofs CcCtl CcCtlIn CcRun AtLine CcHist CcThms CcMore CcLine CcReq.
Import ListNotations.
Local Open Scope nat_scope.
Ltac Zify.zify_post_hook ::= Z.div_mod_to_equations.
Local Notation dv := (dev ccsend ccreply ccx).
Local Notation ent := (@entry ccop).
Local Notation olabC P := (olab rc_ok (sc_says P) sc_tail sc_insend false).

(** ** The commands *)

(** Everything the driver may send besides the data: [n] is the number of bytes
    asked for. *)
Definition sc_known (P : plat) (d : dv) (cmd : bytes) : Prop :=
  cmd = bs "AT+CSQ" ++ [CR; LF] \/
  (char_signed P = false /\ cmd = bs "AT+CIPSTAMAC" ++ [CR; LF]) \/
  (exists s c, sc_command s (host d) (typ d) (port d) = Some c /\ cmd = c ++ [CR; LF]) \/
  (exists n, (0 <= n <= 1220)%Z /\ (n <= Z.of_nat (ring_space (rbuf d)))%Z /\ cmd = bs "AT+CIPRECVDATA=" ++ dec n ++ [CR; LF]).

Lemma sc_sent : forall P d e d' b, sc_step P d e d' -> fLock (fl d) = false -> In b (e_acts e) -> sends b = true ->
  exists l dp a dm d1 r, e_acts e = l ++ [a; b] /\ prerun (sc_shape P) (during (e_sch e) d) l dp /\
    ilab sc_insend (fun _ : dv => whole_line) (fun _ : dv => partial_line) sc_clears dp r dm a /\
    sc_in_ext P dp r a dm /\ olabC P dm d1 b /\ sc_out_ext P dm b d1 /\ d' = set_io (io d') d1 /\
    keep (during (e_sch e) d) dm /\
    (exists ev, sstep (io (during (e_sch e) d)) (io dm) ev) /\ txav (io dm) <= txav (io d).
Proof.
  intros P d e d' b Hs HL Hb Hx. assert (He : serial_wf (ser (io (during (e_sch e) d))) /\ exists oo, e_op e = OpRun oo).
  { destruct (sc_cases P d e d' Hs) as (d1 & _ & HA & [(oo & Eo & _)|(_ & Ea & _)]); [|rewrite Ea in Hb; destruct Hb]. split; [|eauto]. exact (proj1 (proj1 (proj1 HA))). }
  destruct He as [Hw [oo Eo]]. destruct (sc_parts P d e d' oo Hs Eo HL) as (d1 & E & H).
  destruct H as [(Ea & _)|(_ & l & dp & Hp & H)]; [rewrite Ea in Hb; destruct Hb|].
  assert (Hl : ~ In b l).
  { intro Hc. destruct Hp as [(_ & -> & _)|(_ & q & -> & _)]; [destruct Hc|]. destruct Hc as [<-|[]]. discriminate Hx. }
  assert (Hpk : keep (during (e_sch e) d) dp /\ (exists ev, sstep (io (during (e_sch e) d)) (io dp) ev) /\ txav (io dp) <= txav (io d)).
  { destruct Hp as [(_ & _ & ->)|(_ & q & _ & ((y & ev & R1 & _ & _ & _ & _ & R2 & R3 & _) & R5 & R4 & _) & _)].
    - split; [unfold keep; splits; reflexivity|]. split; [exists []; apply sstep_refl; exact Hw|apply Nat.le_refl].
    - split; [exact R4|]. assert (R7 : length q <= 0) by exact R5. assert (q = []) as -> by (destruct q; [reflexivity|cbn in R7; lia]).
      destruct (ioeff_ev _ _ _ _ R3) as (ev2 & S2 & _). split; [exists (ev ++ ev2); exact (sstep_trans _ _ _ _ _ R1 S2)|].
      pose proof (ioeff_av _ _ _ _ R3) as [_ A]. cbn [length] in A. change (txav (io (during (e_sch e) d))) with (txav (io d)) in R2. lia. }
  destruct Hpk as (P1 & (evp & P3) & P4).
  destruct H as (a & d2 & r & Hi & Hin & H).
  destruct H as [[Ea _]|(b' & Ea & Ho & Hoe)]; rewrite Ea in Hb; apply in_app_or in Hb as [Hb|Hb]; try contradiction; destruct Hb as [<-|Hb].
  1: rewrite (ilab_sends (sc_shape P) _ _ _ _ Hi) in Hx; discriminate.
  1: destruct Hb.
  1: rewrite (ilab_sends (sc_shape P) _ _ _ _ Hi) in Hx; discriminate.
  destruct Hb as [<-|[]]. exists l, dp, a, d2, d1, r.
  destruct (ilab_io (sc_shape P) _ _ _ _ Hi) as (ev & Hst & _).
  splits; auto.
  - pose proof (ilab_keep (sc_shape P) _ _ _ _ Hi) as K. clear - P1 K. unfold keep in *. intuition congruence.
  - exists (evp ++ ev). exact (sstep_trans _ _ _ _ _ P3 Hst).
  - pose proof (ilab_tx (sc_shape P) _ _ _ _ Hi). lia.
Qed.

(** Each command is one of the documented ones with the configured values, and
    goes out whole if the transmit buffer has room for it. *)
Theorem sc_commands : forall P d e d' cmd q, sc_step P d e d' -> fLock (fl d) = false -> In (aCommand cmd q) (e_acts e) ->
  sc_known P d cmd /\ length q <= length cmd /\ (txav (io d) + length cmd <= txsz (io d) -> q = cmd).
Proof.
  intros P d e d' cmd q Hs HL Hb. destruct (sc_sent P d e d' _ Hs HL Hb eq_refl) as (l & dp & a & dm & d1 & r & _ & _ & _ & _ & Ho & _ & _ & K & (ev & Hst) & T).
  inversion Ho as [|y c q' Hn I1 Hsp I2 Hq Hq2 Hne Hsay| | |]; subst. split; [|split; [exact Hq|]].
  - destruct K as (_ & K1 & _ & K2 & K3 & K4). cbn [during set_io typ host port rbuf] in *. unfold sc_known.
    destruct Hsay as [(_ & -> & _)|[(Hi & -> & _)|[(c & Hc & -> & _)|(_ & _ & n & -> & N1 & N2 & N3 & N4 & _)]]].
    + left. reflexivity.
    + right. left. split; [|reflexivity]. unfold mac_request in Hi. destruct (char_signed P); [|reflexivity]. exfalso.
      destruct (cmac (ext dm)) as [|c0 [|c1 t]]; try discriminate Hi. cbn [negb] in Hi. rewrite andb_false_r in Hi. discriminate Hi.
    + right. right. left. exists (sst dm), c. rewrite <- K2, <- K3, <- K4. auto.
    + right. right. right. exists n. rewrite <- K1. splits; try lia. reflexivity.
  - intro R. apply Hq2. pose proof (ioeff_av _ _ _ _ I1) as [_ A]. cbn [length] in A. rewrite (ioeff_txsz _ _ _ _ I1), (sstep_txsz _ _ _ Hst).
    change (txsz (io (during (e_sch e) d))) with (txsz (io d)). lia.
Qed.

(** The open command names the configured host, port and type. *)
Theorem sc_open_command : forall P d e d' cmd q, sc_step P d e d' -> fLock (fl d) = false -> In (aCommand cmd q) (e_acts e) ->
  prefixb (bs "AT+CIPSTART=") cmd = true ->
  cmd = bs "AT+CIPSTART=" ++ quoted (if (typ d =? UDP)%Z then bs "UDP" else bs "TCP") ++ bs "," ++ quoted (text (host d)) ++ bs "," ++ dec (port d) ++ [CR; LF].
Proof.
  intros P d e d' cmd q Hs HL Hin Hp. destruct (sc_commands P d e d' cmd q Hs HL Hin) as ([->|[(_ & ->)|[(s & c & Hc & ->)|(n & _ & _ & ->)]]] & _); try discriminate Hp.
  unfold sc_command in Hc. destruct s; try discriminate Hc; apply some_eq in Hc; subst c; try discriminate Hp.
  unfold quoted. repeat rewrite <- app_assoc. reflexivity.
Qed.

(** ** Receiving *)

(** [xw_waiting]: what the modem may hold - the number of a notice "+IPD," counts
    from the moment the connection is open, which the actions do not show, so
    that both possibilities are kept; [xw_due]: the bytes of the current reply
    that were not read yet; [xw_ask]: AT+CIPRECVDATA was not answered. *)
Record rxlogC := mkRxC { xw_waiting : list Z; xw_due : Z; xw_ask : bool }.
Definition rxC_act (P : plat) (acc : rxlogC) (a : act) : rxlogC :=
  match a with
  | aCommand cmd _ => mkRxC (xw_waiting acc) (xw_due acc) (prefixb (bs "AT+CIPRECVDATA=") cmd)
  | aLine _ L =>
      if xw_ask acc && prefixb (bs "+CIPRECVDATA") L then
        let k := i32 (number P (skipn 13 L)) in
        mkRxC (map (fun w => u64 (w - k)) (xw_waiting acc)) (u64 (xw_due acc + k)) false
      else if prefixb (bs "+IPD") L then mkRxC (u64 (number P (skipn 5 L)) :: xw_waiting acc) (xw_due acc) (xw_ask acc)
      else acc
  | aReceive tk => mkRxC (xw_waiting acc) 0%Z (xw_ask acc)
  | aDiscard _ tk => mkRxC [0%Z] (xw_due acc - Z.of_nat (length tk)) (xw_ask acc)
  | aReset _ => mkRxC [0%Z] 0%Z false
  | _ => acc
  end.
Definition rxC_zero : rxlogC := mkRxC [0%Z] 0%Z false.
Definition rxC_log (P : plat) (tr : list ent) : rxlogC := fold_left (act_log (rxC_act P) (fun _ => rxC_zero)) tr rxC_zero.

Definition sc_rx (acc : rxlogC) (d : dv) : Prop :=
  In (toReceive d) (xw_waiting acc) /\ toRead d = xw_due acc /\ (xw_ask acc = true <-> rst d = RCParseCiprecvdata).

Lemma sc_says_ask : forall P d cmd d', sc_says P d cmd d' -> prefixb (bs "AT+CIPRECVDATA=") cmd = true <-> rst d' = RCParseCiprecvdata.
Proof.
  intros P d cmd d' H. destruct H as [(_ & -> & (_ & _ & ->))|[(Hi & -> & (_ & _ & ->))|[(c & Hs & -> & (_ & _ & ->))|(_ & (_ & _ & ->) & n & -> & _)]]].
  - split; discriminate.
  - split; discriminate.
  - split; [|discriminate]. unfold sc_command in Hs. destruct (sst d); try discriminate Hs; apply some_eq in Hs; subst c; discriminate.
  - split; reflexivity.
Qed.

Lemma sc_rx_fields : forall acc (d d' : dv), toReceive d' = toReceive d -> toRead d' = toRead d -> rst d' = rst d -> sc_rx acc d -> sc_rx acc d'.
Proof. intros acc d d' E1 E2 E3. unfold sc_rx. rewrite E1, E2, E3. auto. Qed.

Theorem sc_rx_history : forall P d0 tr d, sc_fresh False d0 -> sc_hist P d0 tr d -> sc_rx (rxC_log P tr) d.
Proof.
  intros P d0 tr d HF Hh. unfold rxC_log.
  apply (act_ghost _ _ _ _ _ (sc_contract False P) _ sc_rx (rxC_act P) (fun _ => rxC_zero) (fun _ => True)) with (d := d0); auto.
  - intros a d1 q d2 K _ (_ & _ & _ & _ & _ & R1 & R2 & _) (_ & R3 & _). cbn [rxC_act]. unfold sc_rx. rewrite R1, R2, R3. cbn. splits; auto. split; discriminate.
  - intros a d1 r d2 b K Hl [_ Hx]. destruct b as [q|tk|tk1 tk2|tk L| |cmd q|n q|q|tk]; try (inversion Hl; fail); cbn [rxC_act].
    + destruct Hx as (_ & X & _). inversion Hl. eapply sc_rx_fields; eauto.
    + destruct Hx as (_ & X & _). destruct K as (K1 & K2 & K3). inversion Hl. unfold sc_rx. cbn [xw_waiting xw_due xw_ask]. rewrite X.
      splits; [left; congruence|congruence|exact K3].
    + assert (Hwl : whole_line L) by (inversion Hl; assumption). destruct K as (K1 & K2 & K3).
      destruct Hx as [_ Hx]. apply sc_line_effect in Hx; [|exact Hwl]. destruct Hx as [Hx _]. unfold sc_effect in Hx.
      destruct (sc_refused d1 L) eqn:Er.
      * assert (Hp : prefixb (bs "+CIPRECVDATA") L = false /\ prefixb (bs "+IPD") L = false).
        { unfold sc_refused in Er. apply orb_true_iff in Er as [Er|Er]; [|apply andb_true_iff in Er as [_ Er]]; apply prefixb_spec in Er as [t ->]; split; reflexivity. }
        destruct Hp as [-> ->]. rewrite andb_false_r. destruct Hx as (_ & _ & X1 & _ & X2 & X3 & _). unfold sc_rx. rewrite X1, X2, X3. auto.
      * destruct Hx as (_ & X1 & _ & _ & X2 & X3 & _). unfold sc_data in X1, X2, X3.
        destruct (xw_ask a) eqn:Ea.
        -- rewrite (proj1 K3 eq_refl) in X1, X2, X3. unfold sc_takes_rssi, sc_takes_mac in X1. rewrite (proj1 K3 eq_refl) in X1. rewrite !orb_false_r in X1. cbn [andb].
           destruct (prefixb (bs "+CIPRECVDATA") L) eqn:Ep.
           ++ unfold sc_rx. cbn [xw_waiting xw_due xw_ask]. rewrite X1, X2, X3, K2. splits; [|reflexivity|split; discriminate].
              apply (in_map (fun w => u64 (w - i32 (number P (skipn 13 L))))). exact K1.
           ++ destruct (prefixb (bs "+IPD") L); unfold sc_rx; cbn [xw_waiting xw_due xw_ask]; rewrite ?Ea, X1, X2, X3.
              ** rewrite andb_true_r. splits; [|exact K2|tauto]. destruct (_ <=? _); [left; reflexivity|right; exact K1].
              ** rewrite andb_false_r. splits; [exact K1|exact K2|tauto].
        -- assert (Er1 : rst d1 <> RCParseCiprecvdata) by (intro E; apply K3 in E; discriminate).
           assert (E0 : match rst d1 with RCParseCiprecvdata => prefixb (bs "+CIPRECVDATA") L | _ => false end = false) by (destruct (rst d1); reflexivity || contradiction).
           rewrite E0 in X1, X2, X3. cbn [andb].
           assert (Er2 : rst d2 <> RCParseCiprecvdata) by (rewrite X1; destruct (_ || _ || _); [discriminate|exact Er1]).
           destruct (prefixb (bs "+IPD") L); unfold sc_rx; cbn [xw_waiting xw_due xw_ask]; rewrite ?Ea, X2, X3.
           ++ rewrite andb_true_r. splits; [|exact K2|split; [discriminate|contradiction]]. destruct (_ <=? _); [left; reflexivity|right; exact K1].
           ++ rewrite andb_false_r. splits; [exact K1|exact K2|split; [discriminate|contradiction]].
  - intros e a d1 d2 b _ K Hl Hx. destruct (sc_out_effect _ _ _ _ Hl Hx) as (_ & _ & E2).
    destruct b as [q|tk|tk1 tk2|tk line| |cmd q|n q|q|tk]; try (inversion Hl; fail); cbn [rxC_act].
    + inversion Hl. eapply sc_rx_fields; eauto.
    + destruct K as (K1 & K2 & K3). unfold sc_rx. cbn [xw_waiting xw_due xw_ask]. inversion Hl. splits; [congruence|congruence|exact (sc_says_ask _ _ _ _ E2)].
    + inversion Hl. eapply sc_rx_fields; eauto.
    + assert (E3 : rst d1 = RCOk) by (apply sc_not_waiting; inversion Hl; assumption). rewrite <- E3 in E2. inversion Hl. eapply sc_rx_fields; eauto.
    + assert (E3 : rst d1 = RCOk) by (apply sc_not_waiting; inversion Hl; assumption). destruct K as (K1 & K2 & K3). rewrite <- E3 in E2. unfold sc_rx. cbn [xw_waiting xw_due xw_ask]. rewrite E2. inversion Hl. splits; [congruence|congruence|exact K3].
  - intros e a d1 d2 _ HI K Hr Hn _ _ _ E2 _ _. destruct Hr as [(_ & _ & _ & T1 & T2 & _)|[Hr _]]; [|rewrite Hr in Hn; discriminate]. eapply sc_rx_fields; eauto.
  - intros a d1 d2 HI _ _ E. destruct (sc_reset_exact False P d1 d2 HI E) as (y & -> & _). unfold sc_rx. cbn. splits; auto. split; discriminate.
  - apply Forall_forall. auto.
  - destruct HF as (_ & _ & _ & F2 & _ & _ & _ & _ & _ & _ & _ & _ & _ & F3 & F4 & _). unfold sc_rx, rxC_zero. cbn [xw_waiting xw_due xw_ask]. rewrite F2, F3, F4. splits; [left; reflexivity|reflexivity|split; discriminate].
Qed.
