(** Commands, receive requests, and the states the SIM800 driver cannot leave
    by itself. *)
From Coq Require Import String Ascii ZArith List Bool Arith Lia ZifyBool ZifyNat.
From Verif Require Import Base QueueSpec LineSpec SerialSpec Ring RingProofs LineRing LineRingProofs Serial SerialProofs
  SerStep TaskMacros CStr CStrProofs Dev DevProofs SimDev SimProofs SimSpec SimParse SimLog Sym DrvStep DrvCommon DrvRun DrvHist DrvActs
  Sim800 Sim8Spec Sim8Proofs Sim8Ctl Sim8CtlIn Sim8Run Sim8Hist Sim8Thms Sim8More Sim8Line Sim8Req.
Import ListNotations.
Local Open Scope nat_scope.
Ltac Zify.zify_post_hook ::= Z.div_mod_to_equations.
Local Notation dv := (dev s8send s8reply simx).
Local Notation ent := (@entry simop).
Local Notation olab8 := (olab r8_ok s8_says s8_tail s8_insend true).

(** ** The commands *)

(** Everything the driver may send besides the data: [n] is the number of bytes
    asked for. *)
Definition s8_known (d : dv) (cmd : bytes) : Prop :=
  cmd = bs "AT+CSQ" ++ [CR; LF] \/
  (exists t c, id_command s8_iccid_command t = Some c /\ cmd = c ++ [CR; LF]) \/
  (exists s ipb c, s8_command s (apn (ext d)) (host d) ipb (typ d) (port d) = Some c /\ cmd = c ++ [CR; LF]) \/
  (exists n, (0 <= n <= maxrx (ext d))%Z /\ (n <= Z.of_nat (ring_space (rbuf d)))%Z /\ cmd = bs "AT+CIPRXGET=2,0," ++ dec n ++ [CR; LF]).

Lemma s8_in_config : forall P d r a d2, s8_in_ext P d r a d2 -> apn (ext d2) = apn (ext d) /\ maxrx (ext d2) = maxrx (ext d).
Proof.
  intros P d r a d2 [_ Hx]. destruct a as [q|tk|tk1 tk2|tk L| |cmd q|n q|q|tk]; try (destruct Hx as (_ & _ & _ & _ & _ & X & _); rewrite X; auto; fail).
  destruct Hx as [(_ & _ & _ & _ & _ & _ & _ & _ & _ & (X1 & X2 & _) & _) _]. split; [exact X1|exact X2].
Qed.

Lemma s8_sent : forall P d e d' b, s8_step P d e d' -> In b (e_acts e) -> sends b = true ->
  exists l dp a dm d1 r, e_acts e = l ++ [a; b] /\ prerun (s8_shape P) (during (e_sch e) d) l dp /\
    ilab s8_insend (fun _ : dv => whole_line) (fun _ : dv => partial_line) s8_clears dp r dm a /\
    s8_in_ext P dp r a dm /\ olab8 dm d1 b /\ s8_out_ext dm b d1 /\ d' = set_io (io d') d1 /\
    keep (during (e_sch e) d) dm /\ apn (ext dm) = apn (ext d) /\ maxrx (ext dm) = maxrx (ext d) /\
    (exists ev, sstep (io (during (e_sch e) d)) (io dm) ev) /\ txav (io dm) <= txav (io d).
Proof.
  intros P d e d' b Hs Hb Hx. assert (He : serial_wf (ser (io (during (e_sch e) d))) /\ exists oo, e_op e = OpRun oo).
  { destruct (s8_cases P d e d' Hs) as (d1 & _ & HA & [(oo & Eo & _)|(_ & Ea & _)]); [|rewrite Ea in Hb; destruct Hb]. split; [|eauto]. exact (proj1 (proj1 (proj1 HA))). }
  destruct He as [Hw [oo Eo]]. destruct (s8_parts P d e d' oo Hs Eo) as (d1 & E & H).
  destruct H as [(Ea & _)|(_ & _ & l & dp & Hp & H)]; [rewrite Ea in Hb; destruct Hb|].
  assert (Hl : ~ In b l).
  { intro Hc. destruct Hp as [(_ & -> & _)|(_ & q & -> & _)]; [destruct Hc|]. destruct Hc as [<-|[]]. discriminate Hx. }
  assert (Hpk : keep (during (e_sch e) d) dp /\ ext dp = ext d /\ (exists ev, sstep (io (during (e_sch e) d)) (io dp) ev) /\ txav (io dp) <= txav (io d)).
  { destruct Hp as [(_ & _ & ->)|(_ & q & _ & ((y & ev & R1 & _ & _ & _ & _ & R2 & R3 & _) & R5 & R4 & _) & (_ & _ & _ & _ & R6 & _))].
    - split; [unfold keep; splits; reflexivity|]. split; [reflexivity|]. split; [exists []; apply sstep_refl; exact Hw|apply Nat.le_refl].
    - split; [exact R4|]. split; [exact R6|]. assert (R7 : length q <= 0) by exact R5. assert (q = []) as -> by (destruct q; [reflexivity|cbn in R7; lia]).
      destruct (ioeff_ev _ _ _ _ R3) as (ev2 & S2 & _). split; [exists (ev ++ ev2); exact (sstep_trans _ _ _ _ _ R1 S2)|].
      pose proof (ioeff_av _ _ _ _ R3) as [_ A]. cbn [length] in A. change (txav (io (during (e_sch e) d))) with (txav (io d)) in R2. lia. }
  destruct Hpk as (P1 & P2 & (evp & P3) & P4).
  destruct H as (a & d2 & r & Hi & Hin & H).
  destruct H as [[Ea _]|(b' & Ea & Ho & Hoe)]; rewrite Ea in Hb; apply in_app_or in Hb as [Hb|Hb]; try contradiction; destruct Hb as [<-|Hb].
  1: rewrite (ilab_sends (s8_shape P) _ _ _ _ Hi) in Hx; discriminate.
  1: destruct Hb.
  1: rewrite (ilab_sends (s8_shape P) _ _ _ _ Hi) in Hx; discriminate.
  destruct Hb as [<-|[]]. exists l, dp, a, d2, d1, r. destruct (s8_in_config _ _ _ _ _ Hin) as [C1 C2].
  destruct (ilab_io (s8_shape P) _ _ _ _ Hi) as (ev & Hst & _).
  splits; auto.
  - pose proof (ilab_keep (s8_shape P) _ _ _ _ Hi) as K. clear - P1 K. unfold keep in *. intuition congruence.
  - rewrite C1, P2. reflexivity.
  - rewrite C2, P2. reflexivity.
  - exists (evp ++ ev). exact (sstep_trans _ _ _ _ _ P3 Hst).
  - pose proof (ilab_tx (s8_shape P) _ _ _ _ Hi). lia.
Qed.

(** Each command is one of the documented ones with the configured values, and
    goes out whole if the transmit buffer has room for it. *)
Theorem s8_commands : forall P d e d' cmd q, s8_step P d e d' -> In (aCommand cmd q) (e_acts e) ->
  s8_known d cmd /\ length q <= length cmd /\ (txav (io d) + length cmd <= txsz (io d) -> q = cmd).
Proof.
  intros P d e d' cmd q Hs Hb. destruct (s8_sent P d e d' _ Hs Hb eq_refl) as (l & dp & a & dm & d1 & r & _ & _ & _ & _ & Ho & _ & _ & K & C1 & C2 & (ev & Hst) & T).
  inversion Ho as [|y c q' Hn I1 Hsp I2 Hq Hq2 Hne Hsay| | |]; subst. split; [|split; [exact Hq|]].
  - destruct K as (_ & K1 & _ & K2 & K3 & K4). cbn [during set_io typ host port rbuf] in *. unfold s8_known.
    destruct Hsay as [(_ & -> & _)|[(c & Hi & -> & _)|[(c & Hc & -> & _)|(_ & _ & n & -> & N1 & N2 & N3 & N4 & _)]]].
    + left. reflexivity.
    + right. left. unfold id_request in Hi. destruct (nth_error _ 1) as [t|]; [|discriminate]. destruct (id_of_code t) as [ty|]; [|discriminate]. eauto.
    + right. right. left. exists (sst dm), (ip (ext dm)), c. rewrite <- C1, <- K2, <- K3, <- K4. auto.
    + right. right. right. exists n. rewrite <- K1, <- C2. splits; try lia. reflexivity.
  - intro R. apply Hq2. pose proof (ioeff_av _ _ _ _ I1) as [_ A]. cbn [length] in A. rewrite (ioeff_txsz _ _ _ _ I1), (sstep_txsz _ _ _ Hst).
    change (txsz (io (during (e_sch e) d))) with (txsz (io d)). lia.
Qed.

(** The most the driver asks for at once: a constant of the class. *)
Theorem s8_maxrx : forall P d0 tr d, s8_built d0 -> s8_hist P d0 tr d -> maxrx (ext d) = 1460%Z.
Proof.
  intros P d0 tr d HB Hh.
  assert (E0 : maxrx (ext d0) = 1460%Z).
  { destruct HB as (s & o & rb & wb & rl & ri & ri' & rt & H1 & _ & _ & _ & _ & _ & _ & _ & H9 & E).
    assert (Hw : wp True (s8_new s o rb wb rl ri ri' rt) (fun d => maxrx (ext d) = 1460%Z)); [|rewrite E in Hw; exact Hw].
    unfold s8_new. apply wp_sim_reset_states; [exact H1|exact H9|]. intros. reflexivity. }
  refine (act_ghost _ _ _ _ _ (s8_contract P) unit (fun _ d => maxrx (ext d) = 1460%Z) (fun x _ => x) (fun x => x) (fun _ => True) _ _ _ _ _ _ _ _ d0 tr d Hh _ tt E0); auto.
  - intros a d1 q d2 K _ _ (_ & _ & _ & _ & R5 & _). congruence.
  - intros a d1 r d2 b K Hl Hx. destruct (s8_in_config _ _ _ _ _ Hx) as [_ M]. congruence.
  - intros e a d1 d2 b _ K Hl Hx. destruct (s8_out_effect _ _ _ Hl Hx) as (_ & (Q1 & _) & _). destruct Q1 as [->|[-> _]]; exact K.
  - intros e a d1 d2 _ HI K _ Hn Hcr (_ & _ & _ & _ & F & _) E1 E2 _ _.
    destruct F as [->|[x Ex]]; [exact K|]. rewrite Ex in Hcr. destruct Hcr as (_ & _ & Hc). cbn [drv_x s8_driver] in Hc.
    destruct x; cbn [sim_x] in Hc.
    + injection Hc as _ <-. exact K.
    + unfold sim_serial_lock in Hc. destruct (wait _); [injection Hc as _ <-; exact K|]. destruct (r8_ok _); injection Hc as _ <-; exact K.
    + injection Hc as _ <-. exact K.
    + unfold sim_request_id in Hc. destruct (wr _ 0 _) as [b1|]; [|discriminate]. cbn [bind] in Hc. destruct (wr b1 1 _) as [b2|]; [|discriminate]. cbn [bind] in Hc.
      destruct (wr b2 2 _) as [b3|]; [|discriminate]. cbn [bind] in Hc. injection Hc as _ <-. exact K.
    + destruct (sim_get_id _); [|discriminate]. cbn [bind] in Hc. injection Hc as _ <-. exact K.
  - intros a d1 d2 HI K _ E. destruct (s8_reset_exact P d1 d2 HI E) as (y & -> & _). exact K.
  - apply Forall_forall. auto.
Qed.

(** ** Receiving *)

Definition s8_asking (d : dv) : rxask := match rst d with R8Ciprxget4 => askCount | R8Ciprxget2 => askData | _ => askNone end.

(** The counts after the line [L]. *)
Definition s8_counts (P : plat) (L : bytes) (d d' : dv) : Prop :=
  mkRx (toReceive d') (toRead d') (s8_asking d') = rx_act P (mkRx (toReceive d) (toRead d) (s8_asking d)) (aLine [] L).

Lemma s8_special_counts : forall P L r d d', lbuf d = L ++ NUL :: r -> length (L ++ NUL :: r) = 61 -> s8_inv d ->
  s8_special_reply P d = Ok d' -> s8_counts P L d d' /\ (lbuf d' = lbuf d \/ parsed (lbuf d')).
Proof.
  intros P L r d d' HL Hlen HI H. destruct HI as (Hd & Hip & Hid & _).
  unfold s8_counts, s8_asking. unfold s8_special_reply in H. destruct (rst d) eqn:Er; cbn [rx_act rx_ask rx_waiting rx_due].
  - injection H as <-. rewrite Er. auto.
  - rewrite (csq_line P L r d HL Hlen) in H. destruct (prefixb (bs "+CSQ: ") L); cbn [bind] in H;
      [destruct (s8_ident_line L r (set_rst R8Ok (set_rssi (csq_dbm (number P (skipn 6 L))) d)) HL Hlen Hid) as (b & d2 & E1 & _ & E3)
      |destruct (s8_ident_line L r d HL Hlen Hid) as (b & d2 & E1 & _ & E3)]; rewrite E1 in H; cbn [bind] in H; injection H as <-; destruct b; rewrite E3; cbn; rewrite ?Er; auto.
  - destruct (s8_ident_line L r d HL Hlen Hid) as (b & d2 & E1 & _ & E3); rewrite E1 in H; cbn [bind] in H; injection H as <-; destruct b; rewrite E3; cbn; rewrite ?Er; auto.
  - rewrite (count_char_spec "."%char) in H by (rewrite ?HL; first [discriminate | apply in_or_app; right; left; reflexivity]). cbn [bind] in H. injection H as <-.
    destruct (_ =? 3); cbn; rewrite ?Er; auto.
  - pose proof (dns_line L r d HL Hlen Hip) as Hw. destruct (sim_parse_dns d) as [[ok d1]|]; [|discriminate]. cbn [bind wp] in *.
    injection H as <-. destruct Hw as [(E1 & E2 & E3)|[(E1 & E3)|(E1 & E2 & a & lb & E4 & E5 & E6 & E7 & E8 & E3)]]; apply pair_eq in E3 as [-> ->];
      try destruct (prefixb (bs "+CDNSGIP: 0") L); cbn; rewrite ?Er; auto.
  - unfold at_handle_disconnect in H. destruct (fDisc (fl d)) eqn:Ed.
    + injection H as <-. cbn. auto.
    + destruct (wait d) eqn:Ew.
      * rewrite (lstarts_line L r d HL Hlen) in H by (reflexivity || (cbn; lia)). cbn [bind] in H.
        destruct (prefixb (bs "0, CONNECT FAIL") L); injection H as <-; cbn; rewrite ?Er; auto.
      * injection H as <-. auto.
  - rewrite (ciprxget4_line P L r d HL Hlen) in H. destruct (prefixb (bs "+CIPRXGET: 4,0,") L); cbn [bind] in H; injection H as <-; cbn [set_rst set_toReceive rst toReceive toRead lbuf]; rewrite ?Er; auto.
  - rewrite (ciprxget2_line P L r d HL Hlen) in H. destruct (prefixb (bs "+CIPRXGET: 2,0,") L); cbn [bind] in H; injection H as <-; cbn [set_rst set_sst set_toReceive set_toRead on_line set_fl rst toReceive toRead lbuf]; rewrite ?Er; auto 6.
Qed.

Theorem s8_line_counts : forall P d ret d' L, s8_handles P d ret d' L -> s8_counts P L d d'.
Proof.
  intros P d ret d' L (r & y & Hlen & _ & HI & H).
  set (x := line_at L r y d) in *. assert (HL : lbuf x = L ++ NUL :: r) by reflexivity.
  cut (s8_counts P L x d'); [intro C; exact C|]. clearbody x. clear y d. rename x into d.
  pose proof HI as ((_ & _ & _ & _ & _ & _ & _ & _ & _ & Hwt & _) & Hip & Hid & _).
  assert (Hc : forall d1 d2 : dv, (lbuf d1 = lbuf d \/ parsed (lbuf d1)) ->
    (if s8_rank S8Connected <=? s8_rank (sst d1) then let* d := sim_check_connection (bs "0, CLOSED") d1 in Ok (false, d) else Ok (false, d1))%res = Ok (ret, d2) ->
    toReceive d2 = toReceive d1 /\ toRead d2 = toRead d1 /\ rst d2 = rst d1).
  { intros d1 d2 Hd1 E. destruct (_ <=? _); [|injection E as <- <-; auto].
    assert (Hl1 : length (lbuf d1) = 61) by (destruct Hd1 as [->|[K _]]; [rewrite HL; exact Hlen|exact K]).
    unfold sim_check_connection in E. rewrite !lstarts_eq in E by (rewrite ?Hl1; cbn; lia || lfree). cbn [bind] in E.
    destruct (prefixb (bs "+CIPRXGET: 1,0") (lbuf d1)); [cbn [bind] in E; injection E as <- <-; auto|].
    destruct (prefixb (bs "0, CLOSED") (lbuf d1)); cbn [bind] in E; injection E as <- <-; auto. }
  unfold s8_parse in H. assert (He : s8_is_error d = Ok (s8_refused L)).
  { unfold s8_is_error, s8_refused. rewrite !(lstarts_line L r d HL Hlen) by (reflexivity || (cbn; lia)). cbn [bind]. destruct (prefixb _ L), (prefixb (bs "+CME ERROR") L); reflexivity. }
  rewrite He in H. cbn [bind] in H. destruct (s8_refused L) eqn:HR.
  { injection H as <- <-. unfold s8_counts, s8_asking. cbn. unfold s8_refused in HR.
    apply orb_true_iff in HR as [HR|HR]; [apply orb_true_iff in HR as [HR|HR]|]; apply prefixb_spec in HR as [t ->]; destruct (rst d); reflexivity. }
  assert (Hs : exists d1, s8_standard_reply d = Ok d1 /\ lbuf d1 = lbuf d /\ rst d1 = rst d /\
     toReceive d1 = toReceive d /\ toRead d1 = toRead d /\ s8_inv d1).
  { unfold s8_standard_reply. destruct (wait d) as [w|] eqn:Ew.
    - destruct Hwt as [Hw1 Hw2]. rewrite (lmatch_line L r d HL Hlen) by first [apply nulfree_of; assumption | lia]. cbn [bind].
      destruct (prefixb w L) eqn:Em.
      + exists (set_wait None d). splits; auto. clear - HI. open_inv d HI. inv_leaf.
      + exists d. splits; auto.
    - exists d. splits; auto. }
  destruct Hs as (d1 & Es & A1 & A2 & A3 & A4 & A6). rewrite Es in H. cbn [bind] in H.
  destruct (s8_special_reply P d1) as [d2|] eqn:E2; [|discriminate]. cbn [bind] in H.
  destruct (s8_special_counts P L r d1 d2 ltac:(rewrite A1; exact HL) Hlen A6 E2) as [HE HE2].
  destruct (Hc d2 d' ltac:(rewrite <- A1; exact HE2) H) as (F1 & F2 & F3).
  unfold s8_counts, s8_asking in *. rewrite F1, F2, F3, HE, A2, A3, A4. reflexivity.
Qed.

Lemma s8_says_ask : forall d cmd d', s8_says d cmd d' ->
  s8_asking d' = if same cmd (bs "AT+CIPRXGET=4,0" ++ [CR; LF]) then askCount else if prefixb (bs "AT+CIPRXGET=2,0,") cmd then askData else askNone.
Proof.
  intros d cmd d' H. unfold s8_asking. destruct H as [(_ & -> & (_ & _ & ->))|[(c & Hi & -> & (_ & _ & ->))|[(c & Hs & -> & (_ & _ & ->))|(_ & (_ & _ & ->) & n & -> & _)]]].
  - reflexivity.
  - unfold id_request in Hi. destruct (nth_error _ 1) as [t|]; [|discriminate]. destruct (id_of_code t) as [[]|]; try discriminate Hi; injection Hi as <-; reflexivity.
  - unfold s8_command in Hs. destruct (sst d); try discriminate Hs; apply some_eq in Hs; subst c; try destruct (_ =? _)%Z; reflexivity.
  - reflexivity.
Qed.

Ltac rxsame := match goal with K : mkRx _ _ _ = ?a |- _ => subst a; cbn [rx_waiting rx_due rx_ask] end;
  repeat match goal with H : toReceive ?d2 = _ |- context [toReceive ?d2] => rewrite H end;
  repeat match goal with H : toRead ?d2 = _ |- context [toRead ?d2] => rewrite H end;
  try match goal with H : rst ?d2 = rst ?d1 |- context [s8_asking ?d2] => replace (s8_asking d2) with (s8_asking d1) by (unfold s8_asking; rewrite H; reflexivity) end;
  try reflexivity.

(** The driver's counters are what the replies say. *)
Theorem s8_rx_history : forall P d0 tr d, s8_fresh d0 -> s8_hist P d0 tr d -> mkRx (toReceive d) (toRead d) (s8_asking d) = rx_log P tr.
Proof.
  intros P d0 tr d HF Hh. unfold rx_log.
  apply (act_ghost _ _ _ _ _ (s8_contract P) _ (fun acc d => mkRx (toReceive d) (toRead d) (s8_asking d) = acc) (rx_act P) (fun _ => rx_zero) (fun _ => True)) with (d := d0); auto.
  - intros a d1 q d2 K _ (_ & _ & _ & _ & _ & R1 & R2 & _) (_ & R3 & _). cbn [rx_act]. unfold s8_asking. rewrite R1, R2, R3. reflexivity.
  - intros a d1 r d2 b K Hl [_ Hx]. destruct b as [q|tk|tk1 tk2|tk line| |cmd q|n q|q|tk]; try (inversion Hl; fail).
    + inversion Hl. cbn [rx_act]. rxsame.
    + inversion Hl. cbn [rx_act]. rxsame.
    + destruct Hx as [_ Hx]. apply s8_line_counts in Hx. unfold s8_counts in Hx. rewrite K in Hx. exact Hx.
  - intros e a d1 d2 b _ K Hl Hx. destruct (s8_out_effect _ _ _ Hl Hx) as (_ & _ & E2).
    destruct b as [q|tk|tk1 tk2|tk line| |cmd q|n q|q|tk]; try (inversion Hl; fail); cbn [rx_act].
    + inversion Hl. rxsame.
    + rewrite <- (s8_says_ask _ _ _ E2). inversion Hl. rxsame.
    + inversion Hl. rxsame.
    + assert (E3 : rst d1 = R8Ok) by (apply s8_not_waiting; inversion Hl; assumption). rewrite <- E3 in E2. inversion Hl. rxsame.
    + assert (E3 : rst d1 = R8Ok) by (apply s8_not_waiting; inversion Hl; assumption). inversion Hl. rxsame. unfold s8_asking. rewrite E2. reflexivity.
  - intros e a d1 d2 _ HI K Hr Hn _ _ _ E2 _ _. destruct Hr as [(_ & _ & _ & T1 & T2 & _)|[Hr _]]; [|rewrite Hr in Hn; discriminate]. rxsame.
  - intros a d1 d2 HI _ _ E. destruct (s8_reset_exact P d1 d2 HI E) as (y & -> & _). reflexivity.
  - apply Forall_forall. auto.
  - destruct HF as (_ & _ & _ & F2 & _ & _ & _ & _ & _ & _ & _ & _ & _ & F3 & F4 & _). unfold s8_asking, rx_zero. rewrite F2, F3, F4. reflexivity.
Qed.
